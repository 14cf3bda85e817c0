(** C106, C107: delegation to module accounts, transfers between modules and the SendEnabled query. *)
From Verif.Base Require Import Prelude Hex.
From Verif.Model Require Import CacheStore Token Bank BankQuery BankDelegate.
From Verif.Spec Require Import TokenSpec BankSpec.
From Verif.Proofs Require Import HexP TokenP BankP TokenMore BankMore.
From Verif.Props Require Import TokenProps BankProps BankQueryProps.
From stdpp Require Import sorting.
Open Scope Z_scope.

(** [w'] is [w] with the coins moved and every supply and denomination as before. *)
Definition moved (w w' : world) (from to : bytes) (l : list coin) : Prop :=
  (∀ c a, balance w' c a = balance w c a
     + if_eq a (bytes_to_address to) (amount_in w c l) - if_eq a (bytes_to_address from) (amount_in w c l)) ∧
  (∀ c, supply w' c = supply w c) ∧ w_denom_of w' = w_denom_of w ∧ w_addr_of w' = w_addr_of w.

Lemma module_account_some E B w m ma ps w1 : module_account B w m = Some (ma, ps, w1) →
  module_of B m = Some (ma, ps) ∧ is_Some (w_accts w1 !! ma) ∧ (∃ m' n', w1 = upd_accts w m' n') ∧ (reachable E w → reachable E w1).
Proof.
  unfold module_account. destruct (module_of B m) as [[a p]|]; [|done]. intros [= <- <- <-]. split; [done|].
  destruct (w_accts w !! a) as [x|] eqn:Ex.
  - split; [eauto|]. split; [exists (w_accts w), (w_nextnum w); rewrite upd_accts_same; done|done].
  - split; [unfold upd_accts; cbn; rewrite lookup_insert; eauto|]. split; [eauto|]. intros Hr.
    eapply reachable_steps; [done|]. apply rtc_once. left. apply ext_account.
Qed.

Section props.
Variable B : bank_env.
Notation E := (be_env B).
Hypothesis Hcalls : chain_calls E (be_call B).

Lemma k_moved w w1 from to l w' m n : w1 = upd_accts w m n → reachable E w1 → coins_ok w l → k_send_coins (be_call B) w1 from to l = (true, w') →
  moved w w' from to l ∧ ∀ c, bytes_to_address from <> bytes_to_address to → amount_in w c l <= balance w c (bytes_to_address from).
Proof.
  intros -> Hr Hok Hs. destruct (k_send_exact E _ _ _ _ _ _ Hcalls Hr Hok Hs) as (A & B0 & (C1 & C2 & _) & _ & F). cbv zeta in *.
  assert (Ea : ∀ c, amount_in (upd_accts w m n) c l = amount_in w c l) by (intros; by apply same_tables_amount).
  split; [|intros c Hne; specialize (F c Hne); rewrite Ea in F; exact F].
  split; [intros c a; rewrite A, Ea; change (balance (upd_accts w m n) c a) with (balance w c a); lia|].
  split; [intros c; rewrite B0; done|]. split; [exact C1|exact C2].
Qed.

(** A delegation goes through only to a module with the staking permission and with valid coins, and
    then moves exactly the coins; otherwise nothing changes. *)
Theorem C106_delegate w from m l w' :
  reachable E w → coins_ok w l → b_delegate B w from m l = (true, w') →
  ∃ ma ps, module_of B m = Some (ma, ps) ∧ PStaking ∈ ps ∧ coins_valid l = true ∧ moved w w' from ma l ∧
    ∀ c, bytes_to_address from <> bytes_to_address ma → amount_in w c l <= balance w c (bytes_to_address from).
Proof.
  intros Hr Hok. unfold b_delegate. destruct (module_account B w m) as [[[ma ps] w1]|] eqn:Em; [|done].
  destruct (module_account_some E B w m ma ps w1 Em) as (Hm & [x Hx] & (m' & n' & Hw1) & Hr1).
  case_bool_decide as Hp; [|done]. unfold delegate_coins. rewrite Hx. destruct (coins_valid l) eqn:Hv; [|done]. intros Hs.
  exists ma, ps. split; [done|]. split; [done|]. split; [done|]. eapply k_moved; eauto.
Qed.
Theorem C106_undelegate w to m l w' :
  reachable E w → coins_ok w l → b_undelegate B w m to l = (true, w') →
  ∃ ma ps, module_of B m = Some (ma, ps) ∧ PStaking ∈ ps ∧ coins_valid l = true ∧ moved w w' ma to l ∧
    ∀ c, bytes_to_address ma <> bytes_to_address to → amount_in w c l <= balance w c (bytes_to_address ma).
Proof.
  intros Hr Hok. unfold b_undelegate. destruct (module_account B w m) as [[[ma ps] w1]|] eqn:Em; [|done].
  destruct (module_account_some E B w m ma ps w1 Em) as (Hm & [x Hx] & (m' & n' & Hw1) & Hr1).
  case_bool_decide as Hp; [|done]. unfold undelegate_coins. rewrite Hx. destruct (coins_valid l) eqn:Hv; [|done]. intros Hs.
  exists ma, ps. split; [done|]. split; [done|]. split; [done|]. eapply k_moved; eauto.
Qed.
(** Delegating what the account has works, and undelegating the same coins from the state after it
    works again and restores every balance. *)
Theorem C106_round_trip w from m ma ps l :
  reachable E w → coins_ok w l → coins_valid l = true → module_of B m = Some (ma, ps) → PStaking ∈ ps →
  length from = 20%nat → length ma = 20%nat → from <> ma → (∀ c, amount_in w c l <= balance w c from) →
  ∃ w1 w2, b_delegate B w from m l = (true, w1) ∧ b_undelegate B w1 m from l = (true, w2) ∧
    (∀ c a, balance w2 c a = balance w c a) ∧ (∀ c, supply w2 c = supply w c).
Proof.
  intros Hr Hok Hv Hm Hp Hlf Hlm Hne Hle.
  assert (Hge : ∀ c, 0 <= balance w c ma).
  { intros c. unfold balance. destruct (w_code w !! c) as [[t|]|] eqn:Ec; [|lia|lia]. eapply bal_range, (iv_tok E w (inv_reachable E w Hr)). exact Ec. }
  assert (Hgo : ∀ w0 a b, reachable E w0 → coins_ok w0 l → length a = 20%nat → length b = 20%nat → a <> b →
    (∀ c, amount_in w0 c l <= balance w0 c a) → fst (k_send_coins (be_call B) w0 a b l) = true).
  { intros w0 a b Hr0 Hok0 Hla Hlb Hab Hle0. unfold k_send_coins. rewrite convert_20 by done. cbv zeta.
    rewrite upd_accts_same, convert_20, upd_accts_same by done.
    apply (send_loop_complete E (be_call B) a b l Hcalls Hab w0 (proj1 Hr0) (inv_reachable E w0 Hr0) Hok0 Hle0). }
  assert (Hacc : ∀ w0, ∃ w1, module_account B w0 m = Some (ma, ps, w1)) by (intros w0; unfold module_account; rewrite Hm; eauto).
  destruct (Hacc w) as [w1 E1]. destruct (module_account_some E B w m ma ps w1 E1) as (_ & [x Hx] & (m' & n' & Hw1) & Hr1). specialize (Hr1 Hr).
  assert (Hok1 : coins_ok w1 l) by (rewrite Hw1; exact Hok).
  assert (Ea : ∀ c, amount_in w1 c l = amount_in w c l) by (intros c; rewrite Hw1; by apply same_tables_amount).
  assert (H1 : fst (k_send_coins (be_call B) w1 from ma l) = true).
  { apply Hgo; try done. intros c. rewrite Ea, Hw1. apply Hle. }
  destruct (k_send_coins (be_call B) w1 from ma l) as [b w2] eqn:Ek. cbn in H1. subst b.
  assert (Hd : b_delegate B w from m l = (true, w2)).
  { unfold b_delegate. rewrite E1, bool_decide_eq_true_2 by done. unfold delegate_coins. rewrite Hx, Hv. done. }
  destruct (k_send_exact E _ _ _ _ _ _ Hcalls Hr1 Hok1 Ek) as (A & B0 & C & D & F). cbv zeta in *.
  assert (Ef : bytes_to_address from = from) by (by apply to_fixed_id). assert (Em : bytes_to_address ma = ma) by (by apply to_fixed_id).
  rewrite Ef, Em in *.
  assert (Hr2 : reachable E w2) by (eapply reachable_steps; [exact Hr1|]; pose proof (send_coins_steps E _ w1 from ma l Hcalls) as Hst; rewrite Ek in Hst; exact Hst).
  destruct (Hacc w2) as [w3 E3]. destruct (module_account_some E B w2 m ma ps w3 E3) as (_ & [y Hy] & (m'' & n'' & Hw3) & Hr3). specialize (Hr3 Hr2).
  assert (Ea3 : ∀ c, amount_in w3 c l = amount_in w c l).
  { intros c. rewrite Hw3. etrans; [apply (same_tables_amount w2); split_and!; reflexivity|]. etrans; [apply (same_tables_amount w1 w2); exact C|apply Ea]. }
  assert (Hok3 : coins_ok w3 l).
  { intros z Hz. destruct (Hok1 z Hz) as (Hz1 & c & t & Hc & Ht). split; [done|]. exists c.
    assert (Hk : code_kind w2 c = Some (Some (t_kind t))) by (rewrite D; apply code_kind_token; eauto).
    apply code_kind_token in Hk as (t' & Ht' & _). exists t'. rewrite Hw3. split; [|exact Ht'].
    etrans; [|exact Hc]. apply (same_tables_d2c w1 w2). exact C. }
  assert (H3 : fst (k_send_coins (be_call B) w3 ma from l) = true).
  { apply Hgo; [exact Hr3|exact Hok3|exact Hlm|exact Hlf|exact (not_eq_sym Hne)|]. intros c. rewrite Ea3. rewrite Hw3. change (balance (upd_accts w2 m'' n'') c ma) with (balance w2 c ma).
    rewrite A, Ea. unfold if_eq. rewrite bool_decide_eq_true_2 by done. rewrite bool_decide_eq_false_2 by congruence.
    rewrite Hw1. change (balance (upd_accts w m' n') c ma) with (balance w c ma). specialize (Hge c). lia. }
  destruct (k_send_coins (be_call B) w3 ma from l) as [b w4] eqn:Ek3. cbn in H3. subst b.
  exists w2, w4. split; [done|]. split.
  { unfold b_undelegate. rewrite E3, bool_decide_eq_true_2 by done. unfold undelegate_coins. rewrite Hy, Hv. done. }
  destruct (k_send_exact E _ _ _ _ _ _ Hcalls Hr3 Hok3 Ek3) as (A3 & B3 & _). cbv zeta in *. rewrite Ef, Em in A3. split.
  - intros c a. rewrite A3, Ea3, Hw3. change (balance (upd_accts w2 m'' n'') c a) with (balance w2 c a). rewrite A, Ea, Hw1.
    change (balance (upd_accts w m' n') c a) with (balance w c a). lia.
  - intros c. rewrite B3, Hw3. change (supply (upd_accts w2 m'' n'') c) with (supply w2 c). rewrite B0, Hw1. done.
Qed.
(** Without permission, with invalid coins or for an unknown module nothing happens. *)
Theorem C106_refused w from m l :
  ¬ (∃ ma ps, module_of B m = Some (ma, ps) ∧ PStaking ∈ ps ∧ coins_valid l = true) →
  run_tx w (b_delegate B w from m l) = w ∧ run_tx w (b_undelegate B w m from l) = w.
Proof.
  intros Hn. unfold run_tx, b_delegate, b_undelegate. destruct (module_account B w m) as [[[ma ps] w1]|] eqn:Em; [|done].
  destruct (module_account_some E B w m ma ps w1 Em) as (Hm & [x Hx] & _ & _).
  case_bool_decide as Hp; [|done]. unfold delegate_coins, undelegate_coins. rewrite Hx.
  destruct (coins_valid l) eqn:Hv; [exfalso; eauto 10|done].
Qed.
(** Transfers between modules move exactly the coins, to the address the send restriction names. *)
Theorem C106_module_to_module w m1 m2 l w' a1 p1 a2 p2 :
  reachable E w → coins_ok w l → module_of B m1 = Some (a1, p1) → module_of B m2 = Some (a2, p2) → be_restr B = None →
  b_module_to_module B w m1 m2 l = (true, w') → moved w w' a1 a2 l.
Proof.
  intros Hr Hok H1 H2 Hre. unfold b_module_to_module. rewrite H1. destruct (module_account B w m2) as [[[ma ps] w1]|] eqn:Em; [|done].
  destruct (module_account_some E B w m2 ma ps w1 Em) as (Hm & _ & (m' & n' & Hw1) & Hr1). specialize (Hr1 Hr). rewrite H2 in Hm. injection Hm as <- <-.
  intros Hs. assert (Hok1 : coins_ok w1 l) by (rewrite Hw1; exact Hok).
  destruct (b_send_exact E B w1 a1 a2 a2 l w' Hcalls Hr1 Hok1 ltac:(by rewrite Hre) Hs) as (A & B0 & (C1 & C2 & _) & _). cbv zeta in *.
  assert (Ea : ∀ c, amount_in w1 c l = amount_in w c l) by (intros; rewrite Hw1; by apply same_tables_amount).
  split; [intros c a; rewrite A, Ea, Hw1; change (balance (upd_accts w m' n') c a) with (balance w c a); lia|].
  split; [intros c; rewrite B0, Hw1; done|]. rewrite C1, C2, Hw1. done.
Qed.
(** Several inputs or outputs are not supported. *)
(** A module account met for the first time is made as any other account: it takes the next account
    number, sequence zero and no key, the counter goes up by one, and nothing else changes. *)
Theorem C106_module_account_made w m ma ps : module_of B m = Some (ma, ps) →
  ∃ w1, module_account B w m = Some (ma, ps, w1) ∧
    (w_accts w !! ma ≠ None → w1 = w) ∧
    (w_accts w !! ma = None →
      w_accts w1 !! ma = Some (Acct (w_nextnum w) 0 false KModule) ∧ w_nextnum w1 = (w_nextnum w + 1)%N ∧
      (∀ a, a ≠ ma → w_accts w1 !! a = w_accts w !! a) ∧ w1 = upd_accts w (w_accts w1) (w_nextnum w1)).
Proof.
  intros Hm. unfold module_account. rewrite Hm. eexists. split; [reflexivity|].
  destruct (w_accts w !! ma) as [x|] eqn:Ex; [split; [done|discriminate]|]. split; [done|]. intros _.
  split; [cbn; by rewrite lookup_insert|]. split; [done|]. split; [intros a Ha; cbn; by rewrite lookup_insert_ne by done|done].
Qed.
(** Unknown modules neither pay nor are paid. *)
Theorem C106_unknown_module w m1 m2 l : module_of B m1 = None ∨ module_of B m2 = None →
  fst (b_module_to_module B w m1 m2 l) = false ∧ run_tx w (b_module_to_module B w m1 m2 l) = w.
Proof.
  unfold b_module_to_module, module_account. intros [-> | ->]; [done|]. by destruct (module_of B m1) as [[? ?]|].
Qed.
Theorem C106_multi_send w i o : fst (b_multi_send w i o) = false ∧ run_tx w (b_multi_send w i o) = w.
Proof. done. Qed.

(** ** C107: delegations do not ask the send restriction nor the list of blocked addresses *)
(** Refuted for every send restriction and every blocked address: undelegation pays them. *)
Theorem C107_blocked_receives_refuted w m ma ps to l :
  reachable E w → coins_ok w l → coins_valid l = true → module_of B m = Some (ma, ps) → PStaking ∈ ps →
  length to = 20%nat → length ma = 20%nat → to <> ma → (∀ c, amount_in w c l <= balance w c ma) → w_accts w !! ma <> None →
  fst (b_undelegate B w m to l) = true ∧ (e_blocked E to = true → fst (b_send_from_module B w m to l) = false).
Proof.
  intros Hr Hok Hv Hm Hp Hlt Hlm Hne Hle Hex. destruct (w_accts w !! ma) as [x|] eqn:Ex; [|done]. split.
  - unfold b_undelegate, module_account. rewrite Hm, Ex, bool_decide_eq_true_2 by done. unfold undelegate_coins. rewrite Ex, Hv.
    unfold k_send_coins. rewrite convert_20 by done. cbv zeta. rewrite upd_accts_same, convert_20, upd_accts_same by done.
    apply (send_loop_complete E (be_call B) ma to l Hcalls (not_eq_sym Hne) w (proj1 Hr) (inv_reachable E w Hr) Hok Hle).
  - intros Hb. unfold b_send_from_module. change (be_modules B !! m) with (module_of B m). rewrite Hm, Hb. done.
Qed.
End props.

(** Refuted: a restriction that refuses every transfer stops sending, but no delegation. *)
Definition with_restriction (B : bank_env) (r : option restriction) : bank_env :=
  BankEnv (be_env B) (be_call B) r (be_mint_restr B) (be_modules B) (be_fee_collector B) (be_authority B).
Theorem C107_restriction_not_asked_refuted B w from to m l :
  let B' := with_restriction B (Some (fun _ _ _ _ => None)) in
  fst (b_send_coins B' w from to l) = false ∧ fst (b_send_to_module B' w from m l) = false ∧
  b_delegate B' w from m l = b_delegate B w from m l ∧ b_undelegate B' w m to l = b_undelegate B w m to l.
Proof.
  split; [done|]. split; [|done]. unfold b_send_to_module. destruct (be_modules _ !! m) as [[a ps]|]; done.
Qed.

(** ** The SendEnabled query (part of C104) *)
(** Asking for denominations gives exactly their entries, in the order asked; following the pages
    gives every entry once. *)
Theorem C104_send_enabled p limit : [] ∉ dom (bp_entries p) →
  (∀ ds r, ds <> [] → ∃ l, q_send_enabled p ds r = Some (PageRes l None 0%N) ∧
     ∀ d b, (d, b) ∈ l ↔ d ∈ ds ∧ bp_entries p !! d = Some b) ∧
  (∃ l, gathers (q_send_enabled p []) limit false [] l) ∧
  ∀ l, gathers (q_send_enabled p []) limit false [] l → NoDup l ∧ ∀ d b, (d, b) ∈ l ↔ bp_entries p !! d = Some b.
Proof.
  intros He. assert (He' : [] ∉ elements (dom (bp_entries p))) by (rewrite elem_of_elements; done).
  pose proof (NoDup_elements (dom (bp_entries p))) as Hnd. split; [|split].
  - intros ds r Hd. unfold q_send_enabled. destruct ds as [|d0 ds]; [done|]. eexists. split; [reflexivity|].
    intros d b. rewrite elem_of_list_omap. split.
    + intros (d' & Hd' & Hx). destruct (bp_entries p !! d') eqn:E; [|done]. injection Hx as <- <-. done.
    + intros [Hin Hb]. exists d. rewrite Hb. done.
  - eexists. apply (C104_pages (elements (dom (bp_entries p)))); [done|done|].
    exists (merge_sort (key_order false) (elements (dom (bp_entries p)))).
    split; [apply merge_sort_Permutation|]. split; [apply (StronglySorted_merge_sort _ _)|reflexivity].
  - intros l Hl. apply (C104_pages (elements (dom (bp_entries p)))) in Hl as (L & HL & _ & ->); [|done|done].
    split.
    + apply NoDup_fmap_2; [intros x y [= -> _]; done|]. rewrite HL. done.
    + intros d b. rewrite elem_of_list_fmap. split.
      * intros (d' & [= -> ->] & Hin). rewrite HL, elem_of_elements, elem_of_dom in Hin. destruct Hin as [b' Hb']. rewrite Hb'. exact Hb'.
      * intros Hb. exists d. match goal with |- context [default false ?t] => change t with (bp_entries p !! d) end. rewrite Hb.
        split; [done|]. rewrite HL, elem_of_elements, elem_of_dom. exists b. exact Hb.
Qed.

(** ** Concrete cases *)
Definition x_pool : bytes := replicate 19 2%N ++ [3%N].
Definition x_sbank : bank_env :=
  BankEnv x_env x_call None (fun _ => true)
    {[ txt "mint" := (x_module, [PMinter; PBurner]); txt "bonded" := (x_pool, [PStaking]); txt "fee_collector" := (x_collector, []) ]}
    (txt "fee_collector") (txt "gov").
Definition x_d1 : world := snd (b_delegate x_sbank x_w2 x_alice (txt "bonded") [Coin x_stake 10]).
Example C106_example :
  fst (b_delegate x_sbank x_w2 x_alice (txt "bonded") [Coin x_stake 10]) = true ∧
  balance x_d1 x_stake_at x_pool = 10 ∧ balance x_d1 x_stake_at x_alice = 50 ∧
  fst (b_delegate x_sbank x_w2 x_alice (txt "bonded") [Coin x_stake 61]) = false ∧
  fst (b_delegate x_sbank x_w2 x_alice (txt "mint") [Coin x_stake 10]) = false ∧
  fst (b_undelegate x_sbank x_d1 (txt "bonded") x_alice [Coin x_stake 10]) = true ∧
  fst (b_undelegate x_sbank x_d1 (txt "bonded") x_alice [Coin x_stake 11]) = false ∧
  fst (b_module_to_module x_sbank x_w2 (txt "mint") (txt "fee_collector") [Coin x_stake 10]) = true ∧
  coins_valid [Coin x_stake 10] = true.
Proof. vm_compute. done. Qed.
Example C107_example : e_blocked x_env x_collector = true ∧
  fst (b_undelegate x_sbank x_d1 (txt "bonded") x_collector [Coin x_stake 10]) = true ∧
  fst (b_send_from_module x_sbank x_d1 (txt "bonded") x_collector [Coin x_stake 10]) = false ∧
  w_accts x_d1 !! x_pool <> None.
Proof. vm_compute. done. Qed.
