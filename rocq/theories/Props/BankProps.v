(** The bank module: C25, C26, C27, C28, C29, C30. *)
From Verif.Base Require Import Prelude Hex.
From Verif.Model Require Import Token Bank Params.
From Verif.Spec Require Import TokenSpec BankSpec.
From Verif.Proofs Require Import HexP TokenP BankP BankMore TokenMore.
Open Scope Z_scope.

(** * C25: transfers *)

(** A successful transfer of coins of provided tokens changes, in each token
    contract, the balances of sender and recipient by the amount of the coins that
    name the contract, and nothing else: no other balance, no supply, no
    denomination. The recipient is the one the send restriction chose. *)
Theorem C25_send_moves_exactly E B w from to to' l w' :
  chain_calls E (be_call B) → reachable E w → coins_ok w l →
  restr_apply (be_restr B) w from to l = Some to' →
  b_send_coins B w from to l = (true, w') →
  (∀ c a, balance w' c a = balance w c a
     + if_eq a (bytes_to_address to') (amount_in w c l) - if_eq a (bytes_to_address from) (amount_in w c l)) ∧
  (∀ c, supply w' c = supply w c) ∧
  w_denom_of w' = w_denom_of w ∧ w_addr_of w' = w_addr_of w.
Proof.
  intros Hf Hr Hok Hre Hs.
  destruct (b_send_exact E B w from to to' l w' Hf Hr Hok Hre Hs) as (A & B0 & (C1 & C2 & _) & _).
  split; [intros c a; rewrite A; lia|]. split; [done|]. split; [done|done].
Qed.

(** In terms of the bank's balance query, for one coin between two ordinary
    accounts. *)
Theorem C25_send_one_coin E B w from to d v c t w' :
  chain_calls E (be_call B) → reachable E w → be_restr B = None →
  length from = 20%nat → length to = 20%nat → from ≠ to →
  denom_to_contract w d = Some c → is_token w c t → amount_ok v →
  b_send_coins B w from to [Coin d v] = (true, w') →
  ∃ bf bt, k_balance w from d = Some bf ∧ k_balance w to d = Some bt ∧ v <= bf ∧
    k_balance w' from d = Some (bf - v) ∧ k_balance w' to d = Some (bt + v) ∧
    ∀ a d', length a = 20%nat → (a ≠ from ∧ a ≠ to) ∨ denom_to_contract w d' ≠ Some c →
      k_balance w' a d' = k_balance w a d'.
Proof.
  intros Hf Hr Hre Hlf Hlt Hne Hd Ht Hv Hs.
  assert (coins_ok w [Coin d v]) as Hok.
  { intros x Hx. apply elem_of_list_singleton in Hx as ->. split; [done|]. eauto. }
  destruct (b_send_exact E B w from to to _ w' Hf Hr Hok ltac:(by rewrite Hre) Hs) as (A & _ & Hst & Ek & Hle).
  assert (bytes_to_address from = from) as Ef by by apply to_fixed_id.
  assert (bytes_to_address to = to) as Et by by apply to_fixed_id.
  rewrite Ef, Et in *.
  assert (Hkb : ∀ w0 a d0, length a = 20%nat → k_balance w0 a d0 =
      match denom_to_contract w0 d0 with None => if is_erc20_denom d0 then None else Some 0
      | Some ct => balance_of w0 ct a end).
  { intros w0 a d0 Hl. unfold k_balance. by rewrite convert_20 by done. }
  assert (Hbo : ∀ c0 a, balance_of w' c0 a = match code_kind w c0 with Some (Some _) => Some (balance w' c0 a) | _ => None end).
  { intros c0 a. rewrite <- Ek. unfold balance_of, balance, code_kind. by destruct (w_code w' !! c0) as [[?|]|]. }
  assert (Hbo0 : ∀ c0 a, balance_of w c0 a = match code_kind w c0 with Some (Some _) => Some (balance w c0 a) | _ => None end).
  { intros c0 a. unfold balance_of, balance, code_kind. by destruct (w_code w !! c0) as [[?|]|]. }
  assert (Hkc : code_kind w c = Some (Some (t_kind t))) by (apply code_kind_token; eauto).
  assert (Hin : ∀ c0, amount_in w c0 [Coin d v] = if_eq c0 c v).
  { intros c0. simpl. rewrite Hd. unfold if_eq. repeat case_bool_decide; simplify_eq; lia. }
  exists (balance w c from), (balance w c to).
  rewrite !Hkb by done. rewrite !(same_tables_d2c w w') by done. rewrite Hd, !Hbo, !Hbo0, Hkc.
  specialize (Hle c Hne). rewrite Hin in Hle. unfold if_eq in Hle. rewrite bool_decide_eq_true_2 in Hle by done.
  split; [done|]. split; [done|]. split; [done|]. rewrite !A, !Hin. unfold if_eq.
  rewrite (bool_decide_eq_true_2 (c = c)), (bool_decide_eq_false_2 (from = to)), (bool_decide_eq_false_2 (to = from)) by done.
  rewrite !bool_decide_eq_true_2 by done.
  split; [f_equal; lia|]. split; [f_equal; lia|].
  intros a d' Hla Hcase. rewrite !Hkb by done. rewrite (same_tables_d2c w w') by done.
  destruct (denom_to_contract w d') as [c0|] eqn:Hd'; [|done]. rewrite Hbo, Hbo0.
  destruct (code_kind w c0) as [[k|]|]; try done. rewrite A, Hin. unfold if_eq. f_equal.
  repeat case_bool_decide; subst; naive_solver lia.
Qed.

(** It goes through exactly when the sender has enough of every token. *)
Theorem C25_send_when_covered E B w from to l :
  chain_calls E (be_call B) → reachable E w → coins_ok w l → be_restr B = None →
  length from = 20%nat → length to = 20%nat → from ≠ to →
  fst (b_send_coins B w from to l) = true ↔ ∀ c, amount_in w c l <= balance w c from.
Proof.
  intros Hf Hr Hok Hre Hlf Hlt Hne. split.
  - intros Hs. destruct (b_send_coins B w from to l) as [ok w'] eqn:Hb. simpl in Hs. subst ok.
    destruct (b_send_exact E B w from to to _ w' Hf Hr Hok ltac:(by rewrite Hre) Hb) as (_ & _ & _ & _ & Hle).
    assert (bytes_to_address from = from) as Ef by by apply to_fixed_id.
    assert (bytes_to_address to = to) as Et by by apply to_fixed_id.
    rewrite Ef, Et in Hle. intros c. by apply Hle.
  - intros Hle. unfold b_send_coins. rewrite Hre. simpl. unfold k_send_coins.
    rewrite convert_20 by done. cbv zeta. rewrite upd_accts_same, convert_20, upd_accts_same by done.
    pose proof (send_loop_complete E (be_call B) from to l Hf Hne w (proj1 Hr) (inv_reachable E w Hr) Hok Hle) as Hs.
    destruct (send_loop _ _ _ _ _) as [ok w1]. simpl in Hs. by subst ok.
Qed.

(** A transfer with a coin that is not covered, or with a denomination that names
    nothing, fails; and a transaction around a failed transfer leaves the state as
    it was. *)
Theorem C25_uncovered_changes_nothing E B w from to to' l c :
  chain_calls E (be_call B) → reachable E w → coins_ok w l →
  restr_apply (be_restr B) w from to l = Some to' → bytes_to_address from ≠ bytes_to_address to' →
  balance w c (bytes_to_address from) < amount_in w c l →
  run_tx w (b_send_coins B w from to l) = w.
Proof.
  intros Hf Hr Hok Hre Hne Hlt. unfold run_tx.
  destruct (b_send_coins B w from to l) as [ok w'] eqn:Hb. destruct ok; [|done].
  destruct (b_send_exact E B w from to to' _ w' Hf Hr Hok Hre Hb) as (_ & _ & _ & _ & Hle).
  specialize (Hle c Hne). lia.
Qed.
Theorem C25_unknown_denom_changes_nothing E B w from to l x :
  chain_calls E (be_call B) → reachable E w → x ∈ l → denom_to_contract w (c_denom x) = None →
  (∀ y, y ∈ l → y = x ∨ (amount_ok (c_amt y) ∧ ∃ c t, denom_to_contract w (c_denom y) = Some c ∧ is_token w c t)) →
  run_tx w (b_send_coins B w from to l) = w.
Proof.
  intros Hf Hr Hx Hd Hall. unfold run_tx, b_send_coins.
  destruct (restr_apply _ _ _ _ _) as [to'|]; [|done].
  assert (Hloop : ∀ l w0 a b, same_tables w w0 → (∀ c, code_kind w0 c = code_kind w c) → Inv E w0 → x ∈ l →
    (∀ y, y ∈ l → y = x ∨ (amount_ok (c_amt y) ∧ ∃ c t, denom_to_contract w (c_denom y) = Some c ∧ is_token w c t)) →
    fst (send_loop (be_call B) w0 a b l) = false).
  { clear Hx Hall l. intros l. induction l as [|y l IH]; intros w0 a b Hst Hk Hi Hx Hall; [by apply elem_of_nil in Hx|].
    simpl. rewrite (same_tables_d2c w w0) by done.
    destruct (decide (y = x)) as [->|Hyx]; [by rewrite Hd|].
    destruct (Hall y (elem_of_list_here _ _)) as [?|(Hv & c & t & Hdy & Hty)]; [done|]. rewrite Hdy.
    assert (code_kind w0 c = Some (Some (t_kind t))) as Hk0 by (rewrite Hk; apply code_kind_token; eauto).
    apply code_kind_token in Hk0 as (t0 & Ht0 & _).
    rewrite (chain_calls_token E _ w0 c _ t0 Hf Ht0). rewrite pack_id by done.
    destruct (call_tok E w0 c chain_addr (OSudoTransfer a b (c_amt y))) as [ok w1] eqn:Hc.
    destruct ok; [|done].
    pose proof (call_effect E w0 c chain_addr (OSudoTransfer a b (c_amt y)) w1 Hi Hv Hc (ex_intro _ t0 Ht0)) as (_ & _ & Ek).
    pose proof (call_frame E w0 c chain_addr (OSudoTransfer a b (c_amt y))) as Hfr. rewrite Hc in Hfr.
    cbv zeta in Hfr. simpl in Hfr. destruct Hfr as (F1 & F2 & F3 & _).
    apply IH.
    - eapply same_tables_trans; [done|]. by split.
    - intros c'. by rewrite Ek.
    - replace w1 with (snd (call_tok E w0 c chain_addr (OSudoTransfer a b (c_amt y)))) by by rewrite Hc.
      by apply inv_call.
    - apply elem_of_cons in Hx as [->|Hx]; [done|done].
    - intros z Hz. apply Hall. by right. }
  unfold k_send_coins.
  destruct (convert_to_evm _ _ from true) as [[[ef m1] n1]|]; [|done]. cbv zeta.
  destruct (convert_to_evm _ _ to' false) as [[[et m2] n2]|]; [|done].
  pose proof (Hloop l (upd_accts (upd_accts w m1 n1) m2 n2) ef et ltac:(done) ltac:(done)
    (inv_accts _ _ _ _ (inv_accts _ _ _ _ (inv_reachable E w Hr))) Hx Hall) as Hfl.
  destruct (send_loop _ _ _ _ _) as [ok w1]. simpl in Hfl. by subst ok.
Qed.

(** Not for every denomination: "evm/" followed by an address without code is
    accepted, the transfer reports success and moves nothing. *)
Definition x_ghost : text := denom_prefix ++ hex_enc lower x_contract.
Theorem C63_no_code_refuted : ∃ w w',
  reachable x_env w ∧ valid_denom x_ghost = true ∧
  msg_send (x_bank None) (BankParams true ∅) w (Some x_alice) (Some x_bob) [Coin x_ghost 5] = (true, w') ∧
  (∀ c a, balance w' c a = balance w c a) ∧ k_balance w' x_bob x_ghost = None.
Proof.
  set (r := msg_send (x_bank None) (BankParams true ∅) x_w2 (Some x_alice) (Some x_bob) [Coin x_ghost 5]).
  exists x_w2, (snd r). split; [apply x_reachable, x_w2_steps|].
  split; [vm_compute; reflexivity|].
  assert (fst r = true) as Hok by (vm_compute; reflexivity).
  split; [exact (ok_pair r Hok)|].
  split; [|vm_compute; reflexivity].
  apply same_code_balance. vm_compute. reflexivity.
Qed.

(** The hypotheses are met: alice (60 stake) pays bob 25. *)
Example C25_example : let r := b_send_coins (x_bank None) x_w2 x_alice x_bob [Coin x_stake 25] in
  fst r = true ∧ k_balance x_w2 x_alice x_stake = Some 60 ∧
  k_balance (snd r) x_alice x_stake = Some 35 ∧ k_balance (snd r) x_bob x_stake = Some 25 ∧
  fst (b_send_coins (x_bank None) x_w2 x_alice x_bob [Coin x_foo 1; Coin x_stake 25]) = false.
Proof. vm_compute. done. Qed.
Example C25_example_coins_ok : coins_ok x_w2 [Coin x_foo 1; Coin x_stake 25].
Proof.
  intros x Hx. apply elem_of_cons in Hx as [->|Hx]; [|apply elem_of_list_singleton in Hx as ->].
  - split; [vm_compute; split; [discriminate|reflexivity]|]. exists x_foo_at.
    eexists. split; [vm_compute; reflexivity|]. unfold is_token. vm_compute. reflexivity.
  - split; [vm_compute; split; [discriminate|reflexivity]|]. exists x_stake_at.
    eexists. split; [vm_compute; reflexivity|]. unfold is_token. vm_compute. reflexivity.
Qed.

(** * C26: minting and burning by modules *)

(** A successful mint: the module may mint, no coin is contract-native, the
    module's balance and the supply of each token grow by exactly the amount, and
    no other balance changes. *)
Theorem C26_mint_exact B w m (ma : bytes) perms l w' :
  chain_calls (be_env B) (be_call B) → reachable (be_env B) w →
  be_modules B !! m = Some (ma, perms) → (∀ x, x ∈ l → amount_ok (c_amt x)) →
  b_mint_coins B w m l = (true, w') →
  PMinter ∈ perms ∧ (∀ x, x ∈ l → is_erc20_denom (c_denom x) = false ∧ 0 < c_amt x) ∧
  (∀ c a, balance w' c a = balance w c a + if_eq a (bytes_to_address ma) (amount_in w' c l)) ∧
  (∀ c, supply w' c = supply w c + amount_in w' c l).
Proof.
  intros Hf Hr Hm Hok. unfold b_mint_coins. rewrite Hm. destruct (be_mint_restr B l); [|done].
  case_bool_decide as Hp; [|done]. destruct (coins_valid l) eqn:Hv; [|done].
  unfold k_mint_coins. destruct (convert_to_evm _ _ ma false) as [[[a m1] n1]|] eqn:Hc; [|done].
  apply convert_addr in Hc as ->. intros Hs.
  destruct (mint_loop_exact (be_env B) (be_call B) _ l Hf (proj1 Hr) _ w' (inv_accts _ _ m1 n1 (inv_reachable _ _ Hr)) Hok Hs)
    as (A & B0 & _ & D).
  split; [done|]. split; [|split; [exact A|exact B0]].
  intros x Hx. split; [by apply D|]. unfold coins_valid in Hv. apply andb_prop in Hv as [_ Hv].
  rewrite forallb_forall in Hv. apply elem_of_list_In in Hx. apply Hv, andb_prop in Hx as [_ Hx]. by apply Z.ltb_lt.
Qed.

(** A module without permission, or a contract-native denomination, is refused. *)
Theorem C26_mint_refused B w m (ma : bytes) perms l :
  be_modules B !! m = Some (ma, perms) →
  PMinter ∉ perms ∨ (∃ x l', l = x :: l' ∧ is_erc20_denom (c_denom x) = true) →
  run_tx w (b_mint_coins B w m l) = w.
Proof.
  intros Hm Hcase. unfold run_tx, b_mint_coins. rewrite Hm. destruct (be_mint_restr B l); [|done].
  case_bool_decide as Hp; [|done]. destruct Hcase as [?|(x & l' & -> & He)]; [done|].
  destruct (coins_valid (x :: l')); [|done]. unfold k_mint_coins.
  destruct (convert_to_evm _ _ ma false) as [[[a m1] n1]|]; [|done]. simpl. by rewrite He.
Qed.
(** ... wherever it stands in the coin set. *)
Theorem C26_native_never_minted B w m l w' x :
  chain_calls (be_env B) (be_call B) → reachable (be_env B) w → (∀ x, x ∈ l → amount_ok (c_amt x)) →
  b_mint_coins B w m l = (true, w') → x ∈ l → is_erc20_denom (c_denom x) = false.
Proof.
  intros Hf Hr Hok Hs Hx. destruct (be_modules B !! m) as [[ma perms]|] eqn:Hm.
  - destruct (C26_mint_exact B w m ma perms l w' Hf Hr Hm Hok Hs) as (_ & H & _). by apply H.
  - unfold b_mint_coins in Hs. rewrite Hm in Hs. by destruct (be_mint_restr B l).
Qed.

(** A mint of known denominations by a module with permission goes through when the
    supply stays below 2^256. *)
Theorem C26_mint_when_possible B w m (ma : bytes) perms l :
  chain_calls (be_env B) (be_call B) → reachable (be_env B) w →
  be_modules B !! m = Some (ma, perms) → length ma = 20%nat → PMinter ∈ perms →
  be_mint_restr B l = true → coins_valid l = true →
  (∀ x, x ∈ l → amount_ok (c_amt x) ∧ is_erc20_denom (c_denom x) = false ∧ is_Some (w_addr_of w !! c_denom x)) →
  (∀ c, supply w c + amount_in w c l < two256) →
  fst (b_mint_coins B w m l) = true.
Proof.
  intros Hf Hr Hm Hl Hp Hmr Hv Hok Hle. unfold b_mint_coins. rewrite Hmr. rewrite Hm, bool_decide_eq_true_2, Hv by done.
  unfold k_mint_coins. rewrite convert_20, upd_accts_same by done.
  apply (mint_loop_complete (be_env B)); try done; [apply Hr|by apply inv_reachable].
Qed.

(** A successful burn of denominations the chain created. *)
Theorem C26_burn_exact B w m (ma : bytes) perms l w' :
  chain_calls (be_env B) (be_call B) → reachable (be_env B) w →
  be_modules B !! m = Some (ma, perms) →
  (∀ x, x ∈ l → amount_ok (c_amt x) ∧ is_erc20_denom (c_denom x) = false) →
  b_burn_coins B w m l = (true, w') →
  PBurner ∈ perms ∧
  (∀ c a, balance w' c a = balance w c a - if_eq a (bytes_to_address ma) (amount_in w c l)) ∧
  (∀ c, supply w' c = supply w c - amount_in w c l).
Proof.
  intros Hf Hr Hm Hok. unfold b_burn_coins. rewrite Hm. case_bool_decide as Hp; [|done].
  unfold k_burn_coins. destruct (convert_to_evm _ _ ma false) as [[[a m1] n1]|] eqn:Hc; [|done].
  apply convert_addr in Hc as ->. intros Hs.
  destruct (burn_loop_exact (be_env B) (be_call B) _ _ l Hf (proj1 Hr) _ w' (inv_accts _ _ m1 n1 (inv_reachable _ _ Hr)) Hok Hs)
    as (A & B0 & _).
  assert (∀ c, amount_in (upd_accts w m1 n1) c l = amount_in w c l) as Ea by (intros; by apply same_tables_amount).
  setoid_rewrite Ea in A. setoid_rewrite Ea in B0. split; [done|]. split; [exact A|exact B0].
Qed.
Theorem C26_burn_refused B w m (ma : bytes) perms l :
  be_modules B !! m = Some (ma, perms) → PBurner ∉ perms → run_tx w (b_burn_coins B w m l) = w.
Proof. intros Hm Hp. unfold run_tx, b_burn_coins. rewrite Hm. by rewrite bool_decide_eq_false_2. Qed.
Theorem C26_burn_when_covered B w m (ma : bytes) perms l :
  chain_calls (be_env B) (be_call B) → reachable (be_env B) w →
  be_modules B !! m = Some (ma, perms) → length ma = 20%nat → PBurner ∈ perms →
  (∀ x, x ∈ l → amount_ok (c_amt x) ∧ is_erc20_denom (c_denom x) = false ∧ is_Some (w_addr_of w !! c_denom x)) →
  (∀ c, amount_in w c l <= balance w c ma) →
  fst (b_burn_coins B w m l) = true.
Proof.
  intros Hf Hr Hm Hl Hp Hok Hle. unfold b_burn_coins. rewrite Hm, bool_decide_eq_true_2 by done.
  unfold k_burn_coins. rewrite convert_20, upd_accts_same by done.
  apply (burn_loop_complete (be_env B)); try done; [apply Hr|by apply inv_reachable].
Qed.

(** Not for contract-native coins: the burn sends the whole coin set, not only the
    native coin, to the fee collector. Burning 5 of a native token together with 10
    stake costs the module 20 stake, of which 10 end with the fee collector. *)
Definition x_nat : bytes := replicate 19 5%N ++ [1%N].
Definition x_nat_denom : text := denom_prefix ++ hex_enc lower x_nat.
Definition C26_w1 : world := match deploy_initia x_w2 x_nat x_alice with Some w => w | None => x_w2 end.
Definition C26_w2 : world := snd (call_tok x_env C26_w1 x_nat x_alice (OMint x_module 5)).
Lemma C26_w2_steps : rtc (step x_env) x_init C26_w2.
Proof.
  etrans; [apply x_w2_steps|]. eapply rtc_l; [left; eapply (ext_deploy_initia _ _ x_nat x_alice C26_w1)|].
  { split; [done|]. repeat constructor. }
  { vm_compute. reflexivity. }
  apply rtc_once. left. apply (ext_call x_env C26_w1 x_nat x_alice (OMint x_module 5)).
  { discriminate. }
  { vm_compute. split; [discriminate|reflexivity]. }
Qed.
Theorem C64_burn_native_refuted : ∃ w w',
  reachable x_env w ∧
  b_burn_coins (x_bank None) w (txt "mint") [Coin x_nat_denom 5; Coin x_stake 10] = (true, w') ∧
  balance w' x_stake_at x_module = balance w x_stake_at x_module - 20 ∧
  supply w' x_stake_at = supply w x_stake_at - 10 ∧
  balance w' x_stake_at x_collector = balance w x_stake_at x_collector + 10 ∧
  supply w' x_nat = supply w x_nat.
Proof.
  set (r := b_burn_coins (x_bank None) C26_w2 (txt "mint") [Coin x_nat_denom 5; Coin x_stake 10]).
  exists C26_w2, (snd r). split; [apply x_reachable, C26_w2_steps|].
  assert (fst r = true) as Hok by (vm_compute; reflexivity).
  split; [exact (ok_pair r Hok)|]. vm_compute. repeat split.
Qed.

Example C26_example :
  let r := b_mint_coins (x_bank None) x_w2 (txt "mint") [Coin x_foo 3; Coin (txt "new") 9] in
  let r2 := b_burn_coins (x_bank None) (snd r) (txt "mint") [Coin (txt "new") 4] in
  fst r = true ∧ k_balance (snd r) x_module x_foo = Some 43 ∧ k_supply (snd r) (txt "new") = Some 9 ∧
  fst r2 = true ∧ k_balance (snd r2) x_module (txt "new") = Some 5 ∧ k_supply (snd r2) (txt "new") = Some 5 ∧
  fst (b_mint_coins (x_bank None) x_w2 (txt "fee_collector") [Coin x_foo 3]) = false ∧
  fst (b_mint_coins (x_bank None) x_w2 (txt "mint") [Coin x_nat_denom 3]) = false.
Proof. vm_compute. done. Qed.

(** * C27: MsgSend *)

(** The names of coins: 3 to 128 characters, a letter and then letters, digits and / : . _ - *)
Definition letter (c : N) : Prop := (65 <= c <= 90)%N ∨ (97 <= c <= 122)%N.
Definition coin_name (d : text) : Prop := ∃ c r, d = c :: r ∧ letter c ∧ (2 <= length r <= 127)%nat ∧
  ∀ x, x ∈ r → letter x ∨ (48 <= x <= 57)%N ∨ x ∈ [47; 58; 46; 95; 45]%N.
(** Order of names: the first byte that differs decides, and a prefix comes first. *)
Definition name_before (a b : text) : Prop :=
  (∃ x r, b = a ++ x :: r) ∨ ∃ p x y a' b', a = p ++ x :: a' ∧ b = p ++ y :: b' ∧ (x < y)%N.
Lemma valid_denom_name d : valid_denom d = true ↔ coin_name d.
Proof.
  assert (Hl : ∀ c, is_letter c = true ↔ letter c).
  { intros c. unfold is_letter, letter. rewrite orb_true_iff, !andb_true_iff, !N.leb_le. tauto. }
  unfold valid_denom, coin_name. destruct d as [|c r].
  { split; [done|]. intros (c & r & H & _). done. }
  rewrite !andb_true_iff, Hl, !Nat.leb_le, forallb_forall.
  assert (Hc : (∀ x, In x r → is_denom_char x = true) ↔ ∀ x, x ∈ r → letter x ∨ (48 <= x <= 57)%N ∨ x ∈ [47; 58; 46; 95; 45]%N).
  { split; intros H x Hx; specialize (H x).
    - apply elem_of_list_In in Hx. specialize (H Hx). unfold is_denom_char in H.
      rewrite !orb_true_iff, Hl, andb_true_iff, !N.leb_le, !N.eqb_eq in H. rewrite !elem_of_cons.
      destruct H as [[[[H|H]|H]|H]|H]; [tauto| |tauto..].
      destruct (decide (x = 47%N)); [tauto|]. destruct (decide (x = 58%N)); [tauto|]. right. left. lia.
    - apply elem_of_list_In in Hx. specialize (H Hx). unfold is_denom_char.
      rewrite !orb_true_iff, Hl, andb_true_iff, !N.leb_le, !N.eqb_eq. rewrite !elem_of_cons in H.
      destruct H as [H|[H|[->|[->|[->|[->|[->|H]]]]]]]; [tauto|lia..|]. by apply elem_of_nil in H. }
  rewrite Hc. split.
  - intros (((H1 & H2) & H3) & H4). exists c, r. done.
  - intros (c' & r' & [= <- <-] & H1 & H2 & H3). tauto.
Qed.
Lemma text_lt_before a b : text_lt a b = true ↔ name_before a b.
Proof.
  revert b. induction a as [|x a IH]; intros [|y b]; simpl.
  - split; [done|]. intros [(x & r & H) | ([|] & x & y & a' & b' & H & _)]; done.
  - split; [|done]. intros _. left. by exists y, b.
  - split; [done|]. intros [(z & r & H) | ([|] & z & y & a' & b' & _ & H & _)]; done.
  - destruct (N.ltb_spec x y) as [Hlt|Hge].
    + split; [|done]. intros _. right. by exists [], x, y, a, b.
    + destruct (N.eqb_spec x y) as [<-|Hne].
      * rewrite IH. split.
        -- intros [(z & r & ->) | (p & z & y & a' & b' & -> & -> & H)]; [left; by exists z, r|].
           right. by exists (x :: p), z, y, a', b'.
        -- intros [(z & r & H) | ([|q p] & z & y & a' & b' & H1 & H2 & H)]; simplify_eq/=.
           ++ left. by exists z, r.
           ++ lia.
           ++ right. by exists p, z, y, a', b'.
      * split; [done|].
        intros [(z & r & H) | ([|q p] & z & y' & a' & b' & H1 & H2 & H)]; simplify_eq/=; lia.
Qed.
Lemma sorted_denoms_before l : sorted_denoms l = true ↔
  ∀ i x y, l !! i = Some x → l !! S i = Some y → name_before (c_denom x) (c_denom y).
Proof.
  induction l as [|a [|b l] IH]; [by split|split; [by intros _ [|]|done]|].
  change (sorted_denoms (a :: b :: l)) with (text_lt (c_denom a) (c_denom b) && sorted_denoms (b :: l)).
  rewrite andb_true_iff, IH, text_lt_before. split.
  - intros [H1 H2] [|i] x y Hx Hy; [by simplify_eq/=|]. exact (H2 i x y Hx Hy).
  - intros H. split; [by apply (H 0%nat)|]. intros i x y Hx Hy. exact (H (S i) x y Hx Hy).
Qed.

(** Everything MsgSend requires, in words of the message and the parameters. *)
Definition may_send (B : bank_env) (p : bank_params) (to : bytes) (l : list coin) : Prop :=
  l ≠ [] ∧ e_blocked (be_env B) to = false ∧
  (∀ x, x ∈ l → 0 < c_amt x ∧ coin_name (c_denom x) ∧
      (bp_entries p !! c_denom x = Some true ∨ (bp_entries p !! c_denom x = None ∧ bp_default p = true))) ∧
  (∀ i x y, l !! i = Some x → l !! S i = Some y → name_before (c_denom x) (c_denom y)).

Lemma msg_send_unfold B p w from to l :
  (may_send B p to l ∧ msg_send B p w (Some from) (Some to) l = b_send_coins B w from to l) ∨
  (¬ may_send B p to l ∧ msg_send B p w (Some from) (Some to) l = (false, w)).
Proof.
  unfold msg_send.
  match goal with |- (_ ∧ (if ?b then _ else _) = _) ∨ _ => assert (b = true ↔ may_send B p to l) as H end.
  { rewrite !andb_true_iff, !negb_true_iff, bool_decide_eq_false. unfold coins_valid, all_send_enabled, may_send, send_enabled.
    rewrite andb_true_iff, !forallb_forall, <- sorted_denoms_before. setoid_rewrite <- valid_denom_name. split.
    - intros [[[[[H1 H2] H3] H4] H5] H6]. split; [done|]. split; [done|]. split; [|done].
      intros x Hx. apply elem_of_list_In in Hx. specialize (H2 x Hx). specialize (H5 x Hx). specialize (H4 x Hx).
      apply andb_prop in H2 as [H2 _]. apply Z.ltb_lt in H4. split; [done|]. split; [done|].
      destruct (bp_entries p !! c_denom x) as [b|]; simpl in *; subst; eauto.
    - intros (H1 & H2 & H3 & H4). repeat split; try done.
      + intros x Hx. apply elem_of_list_In in Hx. destruct (H3 x Hx) as (? & -> & _). by apply Z.ltb_lt.
      + intros x Hx. apply elem_of_list_In in Hx. destruct (H3 x Hx) as (? & _). by apply Z.ltb_lt.
      + intros x Hx. apply elem_of_list_In in Hx. destruct (H3 x Hx) as (_ & _ & [->|[-> ?]]); done. }
  destruct (_ && negb (e_blocked (be_env B) to)) eqn:Hb.
  - left. split; [by apply H|done].
  - right. split; [|done]. intros Hm. apply H in Hm. congruence.
Qed.

(** A bank send goes through only when all of it holds, and then is exactly the
    transfer of C25; otherwise the state does not change at all. *)
Theorem C27_send_only_when_allowed B p w from to l w' :
  msg_send B p w from to l = (true, w') →
  ∃ f t, from = Some f ∧ to = Some t ∧ may_send B p t l ∧ b_send_coins B w f t l = (true, w').
Proof.
  destruct from as [f|], to as [t|]; try done. intros Hs. exists f, t.
  destruct (msg_send_unfold B p w f t l) as [[H1 H2]|[_ H2]]; rewrite H2 in Hs; done.
Qed.
Theorem C27_refused_changes_nothing B p w from to l :
  ¬ (∃ f t, from = Some f ∧ to = Some t ∧ may_send B p t l) → run_tx w (msg_send B p w from to l) = w.
Proof.
  intros Hn. destruct from as [f|], to as [t|]; try done.
  destruct (msg_send_unfold B p w f t l) as [[H1 _]|[_ ->]]; [|done]. destruct Hn; eauto 10.
Qed.
Theorem C27_allowed_goes_through B p w from to l :
  may_send B p to l → msg_send B p w (Some from) (Some to) l = b_send_coins B w from to l.
Proof. intros H. by destruct (msg_send_unfold B p w from to l) as [[_ ->]|[? _]]. Qed.

(** The flag is attached to the spelling of the denomination, not to the token:
    with stake disabled, stake still moves under its "evm/..." spelling. *)
Definition x_alias : text := denom_prefix ++ hex_enc lower x_stake_at.
Theorem C62_disabled_token_refuted : ∃ w p w',
  reachable x_env w ∧ bp_entries p !! x_stake = Some false ∧
  denom_to_contract w x_alias = denom_to_contract w x_stake ∧
  msg_send (x_bank None) p w (Some x_alice) (Some x_bob) [Coin x_alias 5] = (true, w') ∧
  k_balance w x_bob x_stake = Some 0 ∧ k_balance w' x_bob x_stake = Some 5.
Proof.
  set (p := BankParams true {[x_stake := false]}).
  set (r := msg_send (x_bank None) p x_w2 (Some x_alice) (Some x_bob) [Coin x_alias 5]).
  exists x_w2, p, (snd r). split; [apply x_reachable, x_w2_steps|].
  assert (fst r = true) as Hok by (vm_compute; reflexivity).
  split; [vm_compute; reflexivity|]. split; [vm_compute; reflexivity|].
  split; [exact (ok_pair r Hok)|]. vm_compute. repeat split.
Qed.

Example C27_example :
  let send p to l := fst (msg_send (x_bank None) p x_w2 (Some x_alice) (Some to) l) in
  send (BankParams true ∅) x_bob [Coin x_stake 5] = true ∧
  send (BankParams false ∅) x_bob [Coin x_stake 5] = false ∧
  send (BankParams true {[x_stake := false]}) x_bob [Coin x_stake 5] = false ∧
  send (BankParams true ∅) x_collector [Coin x_stake 5] = false ∧
  send (BankParams true ∅) x_bob [Coin x_stake 0] = false ∧
  send (BankParams true ∅) x_bob [Coin x_stake 5; Coin x_foo 1] = false.
Proof. vm_compute. done. Qed.

(** * C28: send restrictions *)

Definition restr_do (cur : option restriction) (a : restr_action) : option restriction :=
  match a with RAppend r => restr_append cur r | RPrepend r => restr_prepend cur r | RClear => restr_clear cur end.

(** Whatever modules appended, prepended and cleared, the installed restriction
    behaves as the expected list run in order. *)
Theorem C28_restrictions_in_order h w from to amt :
  restr_apply (foldl restr_do None h) w from to amt = run_in_order (expected_order [] h) w from to amt.
Proof.
  assert (∀ (h : list restr_action) (cur : option restriction) (l : list restriction),
    (∀ w from to amt, restr_apply cur w from to amt = run_in_order l w from to amt) →
    restr_apply (foldl restr_do cur h) w from to amt = run_in_order (expected_order l h) w from to amt) as H.
  { clear. intros h. induction h as [|a h IH]; intros cur l Hc; [apply Hc|]. simpl.
    assert (Happ : ∀ l1 l2 w from to amt, run_in_order (l1 ++ l2) w from to amt =
      match run_in_order l1 w from to amt with None => None | Some t => run_in_order l2 w from t amt end).
    { intros l1. induction l1 as [|r l1 IH']; intros l2 w0 f0 t0 a0; [done|]. simpl.
      destruct (r w0 f0 t0 a0); [apply IH'|done]. }
    destruct a as [[r|]|[r|]|]; apply IH; intros w0 f0 t0 a0; simpl.
    - unfold restr_append. rewrite restr_then_run, Hc, Happ.
      destruct (run_in_order l w0 f0 t0 a0); simpl; [|done]. by destruct (r w0 f0 b a0).
    - unfold restr_append. rewrite restr_then_run, Hc. simpl. by destruct (run_in_order l w0 f0 t0 a0).
    - unfold restr_prepend. rewrite restr_then_run. simpl. destruct (r w0 f0 t0 a0); simpl; [apply Hc|done].
    - unfold restr_prepend. rewrite restr_then_run. simpl. apply Hc.
    - done. }
  by apply H.
Qed.

(** A refusal by any of them stops the transfer before anything is written; when
    all agree the coins go to the recipient they chose. *)
Theorem C28_refusal_stops B w from to l h :
  be_restr B = foldl restr_do None h →
  run_in_order (expected_order [] h) w from to l = None → b_send_coins B w from to l = (false, w).
Proof. intros HB Hn. unfold b_send_coins. by rewrite HB, C28_restrictions_in_order, Hn. Qed.
Theorem C28_redirect E B w from to to' l h w' :
  chain_calls E (be_call B) → reachable E w → coins_ok w l →
  be_restr B = foldl restr_do None h →
  run_in_order (expected_order [] h) w from to l = Some to' → b_send_coins B w from to l = (true, w') →
  ∀ c a, balance w' c a = balance w c a
     + if_eq a (bytes_to_address to') (amount_in w c l) - if_eq a (bytes_to_address from) (amount_in w c l).
Proof.
  intros Hf Hr Hok HB Hrun Hs. eapply C25_send_moves_exactly; try done.
  by rewrite HB, C28_restrictions_in_order.
Qed.

(** Restriction 1 sends everything for bob to the contract, restriction 2 refuses the
    contract: appended after it refuses, prepended it does not see the redirect. *)
Definition x_r1 : restriction := fun _ _ to _ => Some (if bool_decide (to = x_bob) then x_contract else to).
Definition x_r2 : restriction := fun _ _ to _ => if bool_decide (to = x_contract) then None else Some to.
Example C28_example :
  let go h := fst (b_send_coins (x_bank (foldl restr_do None h)) x_w2 x_alice x_bob [Coin x_stake 5]) in
  go [RAppend (Some x_r1); RAppend (Some x_r2)] = false ∧
  go [RAppend (Some x_r1); RPrepend (Some x_r2)] = true ∧
  go [RAppend (Some x_r1); RAppend (Some x_r2); RClear; RAppend None] = true.
Proof. vm_compute. done. Qed.

(** * C29: SetSendEnabled *)

(** An accepted message: listed denominations get their flag, those in the
    use-default list lose theirs (also when both lists name them), all others and
    the default keep theirs. *)
Theorem C29_exact B p authority entries use_default p' :
  set_send_enabled B p authority entries use_default = Some p' →
  bp_default p' = bp_default p ∧
  (∀ d, d ∈ use_default → bp_entries p' !! d = None) ∧
  (∀ d b, (d, b) ∈ entries → d ∉ use_default → bp_entries p' !! d = Some b) ∧
  (∀ d, d ∉ use_default → d ∉ entries.*1 → bp_entries p' !! d = bp_entries p !! d).
Proof.
  unfold set_send_enabled. destruct (_ && _) eqn:Hc; [|done]. intros [= <-]. simpl.
  apply andb_prop in Hc as [Hc _]. apply andb_prop in Hc as [_ Hc]. apply no_dup_denoms_spec in Hc as [Hnd _].
  split; [done|]. split; [|split].
  - intros d Hd. rewrite delete_all_lookup. by rewrite decide_True.
  - intros d b Hd Hn. rewrite delete_all_lookup, decide_False, set_all_lookup by done.
    by rewrite (elem_of_list_to_map_1 _ _ _ Hnd Hd).
  - intros d Hn Hne. rewrite delete_all_lookup, decide_False, set_all_lookup by done.
    by rewrite not_elem_of_list_to_map_1 by done.
Qed.

(** It is accepted exactly from the authority, without duplicates, and with valid
    denominations only. *)
Theorem C29_accepted_iff B p authority entries use_default :
  is_Some (set_send_enabled B p authority entries use_default) ↔
  authority = be_authority B ∧ NoDup (entries.*1) ∧
  (∀ d, d ∈ entries.*1 ∨ d ∈ use_default → coin_name d).
Proof.
  setoid_rewrite <- valid_denom_name.
  unfold set_send_enabled. destruct (_ && _) eqn:Hc.
  - split; [|eauto]. intros _. apply andb_prop in Hc as [Hc H3]. apply andb_prop in Hc as [H1 H2].
    apply bool_decide_eq_true in H1. apply no_dup_denoms_spec in H2 as [H2 H4].
    split; [done|]. split; [done|]. intros d [Hd|Hd]; [by apply H4|].
    rewrite forallb_forall in H3. by apply H3, elem_of_list_In.
  - split; [by intros [? ?]|]. intros (-> & Hnd & Hv). exfalso. revert Hc.
    rewrite bool_decide_eq_true_2, no_dup_denoms_complete; try done; simpl.
    + intros Hc. assert (forallb valid_denom use_default = true) as Ht; [|congruence].
      apply forallb_forall. intros d Hd. apply Hv. right. by apply elem_of_list_In.
    + intros d Hd. split; [apply not_elem_of_nil|]. apply Hv. by left.
Qed.

(** What MsgSend then sees. *)
Theorem C29_effect_on_sends B p authority entries use_default p' d :
  set_send_enabled B p authority entries use_default = Some p' →
  send_enabled p' d =
    if decide (d ∈ use_default) then bp_default p
    else match list_to_map (M := gmap text bool) entries !! d with
         | Some b => b | None => send_enabled p d end.
Proof.
  unfold set_send_enabled. destruct (_ && _) eqn:Hc; [|done]. intros [= <-]. unfold send_enabled. simpl.
  apply andb_prop in Hc as [Hc _]. apply andb_prop in Hc as [_ Hc]. apply no_dup_denoms_spec in Hc as [Hnd _].
  rewrite delete_all_lookup. destruct (decide (d ∈ use_default)); [done|]. rewrite set_all_lookup by done.
  by destruct (list_to_map entries !! d).
Qed.

Example C29_example :
  let B := x_bank None in let p := BankParams true {[x_foo := false]} in
  ((fun q => (send_enabled q x_stake, send_enabled q x_foo)) <$>
     set_send_enabled B p (txt "gov") [(x_stake, false); (x_foo, true)] [x_foo]) = Some (false, true) ∧
  ((fun q => (send_enabled q x_stake, send_enabled q x_foo)) <$>
     set_send_enabled B p (txt "gov") [(x_stake, false)] []) = Some (false, false) ∧
  set_send_enabled B p (txt "gov") [(x_stake, false); (x_stake, true)] [] = None ∧
  set_send_enabled B p (txt "eve") [(x_stake, false)] [] = None.
Proof. vm_compute. done. Qed.

(** * C30: parameters *)

Lemma validate_params_spec ac p : validate_params ac p = true ↔ params_valid ac p.
Proof.
  unfold validate_params, params_valid, contract_addr_from_string, dec_one.
  rewrite !andb_true_iff, !forallb_forall, !negb_true_iff, orb_false_iff, Z.ltb_ge, Z.ltb_ge, andb_false_iff, negb_false_iff, N.eqb_eq, N.ltb_ge.
  split.
  - intros [[[H1 H2] H3] H4]. split; [|split; [|split; [lia|lia]]].
    + intros a Ha. apply elem_of_list_In in Ha. apply H1, bool_decide_eq_true in Ha as [? ->]. done.
    + intros a Ha. apply elem_of_list_In in Ha. apply H2, bool_decide_eq_true in Ha.
      destruct (is_hex_address a); [by left|]. right. apply fmap_is_Some in Ha as [? ->]. done.
  - intros (H1 & H2 & H3 & H4). split; [split; [split|lia]|lia].
    + intros a Ha. apply elem_of_list_In in Ha. apply bool_decide_eq_true. apply not_eq_None_Some. by apply H1.
    + intros a Ha. apply elem_of_list_In in Ha. apply bool_decide_eq_true.
      destruct (H2 a Ha) as [->|Hn]; [eauto|]. destruct (is_hex_address a); [eauto|].
      apply fmap_is_Some. by apply not_eq_None_Some.
Qed.

(** A message from any other address changes nothing; an accepted one stores
    exactly the proposed parameters, which are valid. *)
Theorem C30_only_authority P w authority p :
  authority ≠ pe_authority P → update_evm_params P w authority p = None.
Proof. intros Hn. unfold update_evm_params. by rewrite bool_decide_eq_false_2. Qed.
Theorem C30_accepted_params_are_valid P w authority p p' :
  update_evm_params P w authority p = Some p' → authority = pe_authority P ∧ p' = p ∧ params_valid (pe_ac P) p.
Proof.
  unfold update_evm_params. case_bool_decide; [|done]. destruct (test_fee_denom _ _ _ _); [|done].
  destruct (validate_params _ _) eqn:Hv; [|done]. intros [= <-]. apply validate_params_spec in Hv. done.
Qed.
(** Starting from valid parameters (the genesis validation checks them), the stored
    parameters stay valid through any sequence of messages and upgrades. *)
Theorem C30_always_valid P p0 msgs :
  params_valid (pe_ac P) p0 → params_valid (pe_ac P) (foldl (params_deliver P) p0 msgs).
Proof.
  revert p0. induction msgs as [|m msgs IH]; intros p0 Hv; [done|]. simpl. apply IH.
  destruct m as [w a p|]; simpl.
  - destruct (update_evm_params P w a p) as [p'|] eqn:Hu; simpl; [|done].
    apply C30_accepted_params_are_valid in Hu as (_ & -> & ?). done.
  - destruct Hv as (H1 & H2 & H3 & H4). split; [exact H1|]. split; [exact H2|]. split; [cbn [params_deliver upgrade_params ep_ratio]; vm_compute; split; discriminate|by left].
Qed.
(** The fee token of accepted parameters supports the mint and burn the EVM needs:
    of the provided tokens only the one with sudoMint and sudoBurn is accepted. *)
Theorem C30_fee_token_supports_mint_burn E P w authority p p' c t :
  chain_calls E (pe_call P) → reachable E w →
  update_evm_params P w authority p = Some p' → denom_to_contract w (ep_fee_denom p) = Some c → is_token w c t →
  t_kind t = KERC20 ∧ supply w c + 1 < two256.
Proof.
  intros Hf Hr Hu Hd Ht. unfold update_evm_params in Hu. case_bool_decide; [|done].
  unfold test_fee_denom in Hu. rewrite Hd in Hu. destruct (load_fee_ok _ _ _); [|done]. simpl in Hu.
  rewrite (chain_calls_token E _ w c _ t Hf Ht) in Hu.
  destruct (call_tok E w c chain_addr (OSudoMint chain_addr 1)) as [ok w1] eqn:Hc.
  destruct ok; [|done]. rewrite (call_token _ _ _ _ _ _ Ht) in Hc. simpl in Hc.
  destruct (t_kind t) eqn:Hk; [|done]. split; [done|].
  assert (fst (call_tok E w c chain_addr (OSudoMint chain_addr 1)) = true) as Hs.
  { rewrite (call_token _ _ _ _ _ _ Ht). simpl. rewrite Hk. by rewrite Hc. }
  apply (sudo_call E w c t (OSudoMint chain_addr 1) (inv_reachable E w Hr) Ht) in Hs; [|by vm_compute|done].
  simpl in Hs. unfold supply. unfold is_token in Ht. by rewrite Ht.
Qed.
(** Observed: a fee denomination naming the zero address passes the test although
    there is no token. *)
Theorem C30_zero_address_fee_accepted P w c : chain_calls c (pe_call P) → w_code w !! null_addr = None →
  test_fee_denom (pe_answers P) (pe_call P) w (denom_prefix ++ hex_enc lower null_addr) = true.
Proof.
  intros Hf Hn. unfold test_fee_denom.
  assert (denom_to_contract w (denom_prefix ++ hex_enc lower null_addr) = Some null_addr) as -> by done.
  unfold load_fee_ok. rewrite bool_decide_eq_true_2 by done. simpl.
  pose proof (Hf w null_addr (OSudoMint chain_addr 1)) as H1. rewrite Hn in H1. unfold call_tok in H1. rewrite Hn in H1. rewrite H1.
  pose proof (Hf w null_addr (OSudoBurn chain_addr 1)) as H2. rewrite Hn in H2. unfold call_tok in H2. rewrite Hn in H2. by rewrite H2.
Qed.
(** Bank parameters likewise. *)
Theorem C30_bank_params B p authority d dep p' :
  update_bank_params B p authority d dep = Some p' ↔
  authority = be_authority B ∧ dep = [] ∧ p' = BankParams d (bp_entries p).
Proof.
  unfold update_bank_params. destruct (_ && _) eqn:Hc.
  - apply andb_prop in Hc as [H1 H2]. apply bool_decide_eq_true in H1, H2. naive_solver.
  - split; [done|]. intros (-> & -> & _). rewrite !bool_decide_eq_true_2 in Hc by done. done.
Qed.

Definition x_params (retain : N) (ratio : Z) : evm_params := EvmParams [] [] true [] x_stake ratio retain.
Definition x_penv : params_env := ParamsEnv (fun _ => None) (fun _ _ => false) x_call (txt "gov").
Example C30_example :
  update_evm_params x_penv x_w2 (txt "gov") (x_params 256 0) = Some (x_params 256 0) ∧
  update_evm_params x_penv x_w2 (txt "eve") (x_params 256 0) = None ∧
  update_evm_params x_penv x_w2 (txt "gov") (x_params 255 0) = None ∧
  update_evm_params x_penv x_w2 (txt "gov") (x_params 0 (10 ^ 18 + 1)) = None ∧
  update_evm_params x_penv x_init (txt "gov") (x_params 0 0) = None.
Proof. vm_compute. done. Qed.
