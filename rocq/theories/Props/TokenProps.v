(** Tokens, denominations and the registry: C23, C24, C31, C32, C36, C56. *)
From Verif.Base Require Import Prelude Hex.
From Verif.Model Require Import Token Bank.
From Verif.Spec Require Import TokenSpec.
From Verif.Proofs Require Import HexP TokenP BankP TokenMore.
Open Scope Z_scope.

(** * C24: total supply equals the sum of balances *)

(** In every state the chain can reach — whatever users, contracts of unknown code
    and the chain itself have done — every provided token's supply is the sum of
    its balances, fits in 256 bits, and no balance is negative or above it. *)
Theorem C24_supply_is_sum_of_balances E w c t :
  reachable E w → is_token w c t →
  total (t_bal t) = supply w c ∧ 0 <= supply w c < two256 ∧ ∀ a, 0 <= balance w c a <= supply w c.
Proof.
  intros Hr Ht. pose proof (iv_tok E w (inv_reachable E w Hr) c t Ht) as Hok.
  unfold supply, balance. unfold is_token in Ht. rewrite Ht. split_and!.
  - apply Hok.
  - rewrite <- (ok_total t Hok). apply total_nonneg, Hok.
  - apply Hok.
  - intros a. by apply bal_range.
Qed.

(** The coin operations of the keeper and of the bank module lead from such states
    to such states, so the claim covers them too. *)
Theorem C24_bank_operations_stay_reachable B w :
  chain_calls (be_env B) (be_call B) → reachable (be_env B) w →
  (∀ from to l, reachable (be_env B) (snd (b_send_coins B w from to l))) ∧
  (∀ m l, reachable (be_env B) (snd (b_mint_coins B w m l))) ∧
  (∀ m l, reachable (be_env B) (snd (b_burn_coins B w m l))) ∧
  (∀ p from to l, reachable (be_env B) (snd (msg_send B p w from to l))).
Proof.
  intros Hf Hr. split_and!; intros; (eapply reachable_steps; [done|]).
  - by apply b_send_steps.
  - by apply b_mint_steps.
  - by apply b_burn_steps.
  - by apply msg_send_steps.
Qed.

(** Arithmetic never gets in the way: a transfer goes through exactly when the
    sender has the amount and the recipient is not blocked, and a mint by the owner
    exactly when the supply stays below 2^256. *)
Theorem C24_no_overflow E w c t sender to v :
  reachable E w → is_token w c t → amount_ok v →
  (fst (call_tok E w c sender (OTransfer to v)) = true ↔
     is_blocked E w to = false ∧ v <= balance w c sender) ∧
  (fst (call_tok E w c sender (OMint to v)) = true ↔
     is_blocked E w to = false ∧ sender = t_owner t ∧ supply w c + v < two256).
Proof.
  intros Hr Ht Hv. pose proof (inv_reachable E w Hr) as Hi.
  pose proof (iv_tok E w Hi c t Ht) as Hok.
  pose proof (body_covered sender (OTransfer to v) t Hok Hv) as C1.
  pose proof (body_covered sender (OMint to v) t Hok Hv) as C2.
  rewrite !(call_token _ _ _ _ _ _ Ht). unfold is_token in Ht. unfold balance, supply. rewrite Ht.
  unfold guards. cbv zeta. split.
  - destruct (is_blocked E w to) eqn:Hb; [naive_solver|].
    destruct (body sender (OTransfer to v) t) as [t2|]; simpl in *; naive_solver.
  - destruct (is_blocked E w to) eqn:Hb; [naive_solver|].
    case_bool_decide as Hs; [|naive_solver].
    destruct (body sender (OMint to v) t) as [t2|]; simpl in *; naive_solver.
Qed.

(** A chain where the module minted 100 stake and 40 foo and passed on 60. *)
Example C24_example : reachable x_env x_w2 ∧
  balance x_w2 x_stake_at x_module = 40 ∧ balance x_w2 x_stake_at x_alice = 60 ∧
  supply x_w2 x_stake_at = 100 ∧ supply x_w2 x_foo_at = 40.
Proof. split; [apply x_reachable, x_w2_steps|]. vm_compute. done. Qed.

(** * C31: authority over balances, allowances, supply and ownership *)

(** Whatever an outsider does, an account's balance of a provided token goes down
    only in a call of that token made by the account itself, or by a spender whose
    allowance covered the loss and is reduced by it. *)
Theorem C31_balance_needs_authority E w w' c a :
  reachable E w → ext E w w' → balance w' c a < balance w c a →
  ∃ sender o, sender ≠ chain_addr ∧ w' = snd (call_tok E w c sender o) ∧
    (a = sender ∨
     (balance w c a - balance w' c a <= allowance w c a sender ∧
      allowance w' c a sender = allowance w c a sender - (balance w c a - balance w' c a))).
Proof.
  intros Hr Hx Hlt. pose proof (inv_reachable E w Hr) as Hi.
  destruct (ext_cases E w w' Hx) as [(self & s & o & Hs & Ho & ->)|Hk].
  2:{ destruct (ledgers_kept_obs w w' Hk) as (Hb & _). rewrite Hb in Hlt. lia. }
  destruct (call_tok E w self s o) as [ok w'] eqn:Hc. simpl in *.
  destruct ok.
  2:{ apply call_false in Hc. unfold balance in Hlt. rewrite Hc in Hlt. lia. }
  destruct (w_code w !! self) as [[t|]|] eqn:Ht.
  2,3: unfold call_tok in Hc; rewrite Ht in Hc; injection Hc as <-; lia.
  pose proof (call_effect E w self s o w' Hi Ho Hc (ex_intro _ t Ht)) as (Eb & _ & _).
  assert (c = self) as ->.
  { pose proof (Eb c a) as Eb'. case_bool_decide; [done|]. lia. }
  exists s, o. rewrite Hc. split_and!; try done.
  destruct (call_authority E w self s o w' t Hi Ho Ht Hs Hc) as (t' & Ht' & HA & _).
  unfold balance, allowance in *. unfold is_token in Ht'. rewrite Ht, Ht' in *. by apply HA.
Qed.

(** Only the account itself can raise an allowance over its tokens. *)
Theorem C31_allowance_needs_owner E w w' c o s :
  reachable E w → ext E w w' → allowance w' c o s > allowance w c o s →
  w' = snd (call_tok E w c o (OApprove s (allowance w' c o s))).
Proof.
  intros Hr Hx Hlt. pose proof (inv_reachable E w Hr) as Hi.
  destruct (ext_cases E w w' Hx) as [(self & sd & op & Hs & Ho & ->)|Hk].
  2:{ destruct (ledgers_kept_obs w w' Hk) as (_ & _ & Hb). rewrite Hb in Hlt. lia. }
  destruct (call_tok E w self sd op) as [ok w'] eqn:Hc. simpl in *.
  destruct ok.
  2:{ apply call_false in Hc. unfold allowance in Hlt. rewrite Hc in Hlt. lia. }
  destruct (w_code w !! self) as [[t|]|] eqn:Ht.
  2,3: unfold call_tok in Hc; rewrite Ht in Hc; injection Hc as <-; lia.
  destruct (call_authority E w self sd op w' t Hi Ho Ht Hs Hc) as (t' & Ht' & _ & HA & _).
  assert (c = self) as ->.
  { destruct (decide (c = self)); [done|]. exfalso.
    rewrite (call_token _ _ _ _ _ _ Ht) in Hc. destruct (guards _ _ _ _ _); [|done]. cbv zeta in Hc.
    destruct (body _ _ _); [|done]. injection Hc as <-. revert Hlt. unfold allowance. simpl.
    rewrite lookup_insert_ne by done.
    assert (w_code match op_recipient op with Some r => store_modifier w self r | None => w end = w_code w) as ->
      by (destruct (op_recipient op); [apply store_modifier_code|done]). lia. }
  unfold allowance in *. unfold is_token in Ht'. rewrite Ht, Ht' in *.
  destruct (HA o s Hlt) as [-> ->]. by rewrite Hc.
Qed.

(** Only the token's owner can create tokens, and only the owner can hand over the
    ownership. *)
Theorem C31_supply_and_owner_need_owner E w w' c t t' :
  reachable E w → ext E w w' → is_token w c t → is_token w' c t' →
  (t_supply t' > t_supply t → ∃ to v, w' = snd (call_tok E w c (t_owner t) (OMint to v))) ∧
  (t_owner t' ≠ t_owner t → w' = snd (call_tok E w c (t_owner t) (OTransferOwnership (t_owner t')))).
Proof.
  intros Hr Hx Ht Ht'. pose proof (inv_reachable E w Hr) as Hi.
  destruct (ext_cases E w w' Hx) as [(self & sd & op & Hs & Ho & ->)|[Hk _]].
  2:{ apply Hk in Ht. unfold is_token in *. rewrite Ht in Ht'. simplify_eq. split; [lia|done]. }
  destruct (call_tok E w self sd op) as [ok w'] eqn:Hc. simpl in *.
  destruct (decide (c = self)) as [->|Hne].
  2:{ assert (w_code w' !! c = w_code w !! c) as Heq.
      { unfold call_tok in Hc. destruct (w_code w !! self) as [[ts|]|] eqn:Hse; [|by injection Hc as <- <-|by injection Hc as <- <-].
        destruct (guards _ _ _ _ _); [|by injection Hc as <- <-].
        assert (w_code match op_recipient op with Some r => store_modifier w self r | None => w end = w_code w) as Hm
          by (destruct (op_recipient op); [apply store_modifier_code|done]).
        destruct (body _ _ _); injection Hc as <- <-; simpl; rewrite ?Hm; [|done].
        by rewrite lookup_insert_ne by done. }
      unfold is_token in *. rewrite Heq, Ht in Ht'. simplify_eq. split; [lia|done]. }
  destruct ok.
  2:{ apply call_false in Hc. unfold is_token in *. rewrite Hc, Ht in Ht'. simplify_eq. split; [lia|done]. }
  destruct (call_authority E w self sd op w' t Hi Ho Ht Hs Hc) as (t'' & Ht'' & _ & _ & HA & HB).
  unfold is_token in *. rewrite Ht'' in Ht'. simplify_eq. split.
  - intros Hgt. destruct (HA Hgt) as (-> & to & v & ->). exists to, v. by rewrite Hc.
  - intros Hno. destruct (HB Hno) as (-> & ->). by rewrite Hc.
Qed.

(** Bob spends 25 of an allowance of 30 alice gave him. *)
Definition C31_w1 : world := snd (call_tok x_env x_w2 x_stake_at x_alice (OApprove x_bob 30)).
Definition C31_w2 : world := snd (call_tok x_env C31_w1 x_stake_at x_bob (OTransferFrom x_alice x_bob 25)).
Example C31_example :
  balance C31_w1 x_stake_at x_alice = 60 ∧ balance C31_w2 x_stake_at x_alice = 35 ∧
  allowance C31_w1 x_stake_at x_alice x_bob = 30 ∧ allowance C31_w2 x_stake_at x_alice x_bob = 5 ∧
  fst (call_tok x_env C31_w2 x_stake_at x_bob (OTransferFrom x_alice x_bob 25)) = false ∧
  fst (call_tok x_env C31_w2 x_stake_at x_bob (OSudoTransfer x_alice x_bob 1)) = false.
Proof. vm_compute. done. Qed.
Example C31_example_reachable : reachable x_env C31_w1 ∧ ext x_env C31_w1 C31_w2.
Proof.
  split.
  - apply x_reachable. etrans; [apply x_w2_steps|]. apply rtc_once. left. apply ext_call; vm_compute; done.
  - apply ext_call; vm_compute; done.
Qed.

(** * C23: denominations and contracts *)

(** A contract's denomination resolves to that contract, and two contracts never
    have the same denomination. *)
Theorem C23_contract_round_trip E ck w c :
  reachable E w → addr_ok c → denom_to_contract w (contract_to_denom ck w c) = Some c.
Proof. intros Hr Hc. eapply contract_denom_resolves; [|done]. by apply inv_reachable. Qed.

Theorem C23_contracts_do_not_share E ck w c1 c2 :
  reachable E w → addr_ok c1 → addr_ok c2 →
  contract_to_denom ck w c1 = contract_to_denom ck w c2 → c1 = c2.
Proof. intros Hr. apply (contract_denom_inj E). by apply inv_reachable. Qed.

(** A denomination that is not of the form evm/... and resolves to a contract is
    the denomination of that contract; it names a token the chain created. *)
Theorem C23_plain_denom_round_trip E ck w d c :
  reachable E w → is_erc20_denom d = false → denom_to_contract w d = Some c →
  contract_to_denom ck w c = d ∧ ∃ t, is_token w c t ∧ t_kind t = KERC20.
Proof.
  intros Hr Hd Hc. pose proof (inv_reachable E w Hr) as Hi. rewrite plain_denom in Hc by done.
  apply (iv_bij E w Hi) in Hc. split; [unfold contract_to_denom; by rewrite Hc|].
  by destruct (iv_den E w Hi c d Hc) as (_ & _ & _ & ?).
Qed.

(** An evm/<address> denomination names that address, for every spelling the
    decoder accepts (any letter case, with or without 0x). *)
Theorem C23_evm_denom_names_its_address w up a :
  addr_ok a → denom_to_contract w (denom_prefix ++ hex_enc up a) = Some a.
Proof.
  intros [Hl Hb]. unfold denom_to_contract. rewrite cut_prefix_app.
  by rewrite is_hex_address_plain, hex_to_address_plain by done.
Qed.

(** But a token has more than one denomination: besides its own, every spelling of
    evm/<its address> resolves to it, also for the tokens the chain created under a
    name of their own. So "back to itself" fails for those spellings. *)
Theorem C62_alias_refuted : ∃ w c,
  reachable x_env w ∧ contract_to_denom (fun _ _ => true) w c = x_stake ∧
  denom_to_contract w x_stake = Some c ∧
  ∃ d1 d2 d3, d1 ≠ d2 ∧ d1 ≠ d3 ∧ d2 ≠ d3 ∧ d1 ≠ x_stake ∧ d2 ≠ x_stake ∧ d3 ≠ x_stake ∧
    valid_denom d1 = true ∧ valid_denom d2 = true ∧ valid_denom d3 = true ∧
    denom_to_contract w d1 = Some c ∧ denom_to_contract w d2 = Some c ∧ denom_to_contract w d3 = Some c.
Proof.
  (* a chain whose third token (nonce 171, so that its address has letters) is stake *)
  set (w := snd (b_mint_coins (x_bank None) (upd_fnonce x_init 171) (txt "mint") [Coin x_stake 100])).
  exists w, (e_create x_env 171). split; [|split; [|split]].
  - split; [apply x_env_ok|]. exists (upd_fnonce x_init 171). split.
    + split_and!; try done. intros c t. unfold is_token. simpl. intros H%lookup_singleton_Some. naive_solver.
    + apply (b_mint_steps (x_bank None)), x_call_ok.
  - vm_compute. done.
  - vm_compute. done.
  - exists (denom_prefix ++ hex_enc (fun _ => false) (e_create x_env 171)),
           (denom_prefix ++ hex_enc (fun _ => true) (e_create x_env 171)),
           (denom_prefix ++ txt "0x" ++ hex_enc (fun _ => false) (e_create x_env 171)).
    vm_compute. done.
Qed.

Example C23_example : denom_to_contract x_w2 x_stake = Some x_stake_at ∧
  contract_to_denom (fun _ _ => false) x_w2 x_stake_at = x_stake ∧
  contract_to_denom (fun _ _ => false) x_w2 x_alice = txt "evm/010101010101010101010101010101010101010a".
Proof. vm_compute. done. Qed.

(** * C36: the registration policy *)

Lemma register_reg w c x : x ∈ w_reg (snd (register w c)) → x ∉ w_reg w →
  x = c ∧ p_allow_custom (w_policy w) = true ∧ (p_allowed (w_policy w) = [] ∨ c ∈ p_allowed (w_policy w)).
Proof.
  unfold register. destruct (p_allow_custom _) eqn:Ha; simpl; [|done].
  destruct (decide (c ∈ w_reg w)); [done|].
  destruct (p_allowed (w_policy w)) as [|y l] eqn:Hl; simpl.
  - set_solver.
  - destruct (decide _); simpl; [|done]. set_solver.
Qed.
Lemma ext_policy_same E w w' : ext E w w' → w_policy w' = w_policy w.
Proof.
  intros H. destruct H; try done.
  - apply call_frame.
  - apply factory_create_eq in H0 as (-> & Hc & Hs & m & n & ->). done.
  - apply deploy_eq in H0 as (Hc & m & n & ->). done.
  - unfold deploy_initia in H0. destruct (deploy _ _ _) as [w1|] eqn:Hd; [|done]. simpl in H0.
    apply deploy_eq in Hd as (Hc & m & n & ->).
    unfold register in H0. repeat case_match; simplify_eq; done.
  - apply deploy_eq in H0 as (Hc & m & n & ->). done.
  - unfold register. repeat case_match; done.
  - unfold register_from_factory. by case_match.
  - apply register_store_code.
Qed.

(** How a contract may become registered in state [w]. *)
Definition may_register (E : env) (p : policy) (c : bytes) : Prop :=
  (∃ w1 s w2, factory_create E w1 s = Some (c, w2)) ∨
  (p_allow_custom p = true ∧ (p_allowed p = [] ∨ c ∈ p_allowed p)).

Lemma ext_registers E w w' c : ext E w w' → c ∈ w_reg w' → c ∉ w_reg w → may_register E (w_policy w) c.
Proof.
  intros H Hin Hout. destruct H; try done.
  - pose proof (call_frame E w self sender o) as (_ & _ & Hr & _). rewrite Hr in Hin. done.
  - left. assert (H0' := H0). apply factory_create_eq in H0' as (-> & Hc & Hs & m & n & ->). simpl in Hin.
    assert (c = e_create E (w_fnonce w)) as -> by set_solver. eauto.
  - apply deploy_eq in H0 as (Hc & m & n & ->). done.
  - unfold deploy_initia in H0. destruct (deploy _ _ _) as [w1|] eqn:Hd; [|done]. simpl in H0.
    apply deploy_eq in Hd as (Hc & m & n & ->).
    destruct (register _ c0) as [ok w2] eqn:Hr. destruct ok; [|done]. injection H0 as <-.
    assert (w2 = snd (register (upd_code (upd_accts w m n) (insert c0 (CTok (new_token KInitia sender)))) c0)) as -> by by rewrite Hr.
    apply register_reg in Hin as (-> & Ha & Hl); [|done]. right. done.
  - apply deploy_eq in H0 as (Hc & m & n & ->). done.
  - apply register_reg in Hin as (-> & Ha & Hl); [|done]. right. done.
  - unfold register_from_factory in Hin. case_bool_decide; [by subst|done].
  - pose proof (register_store_code w a caller) as (_ & Hr & _). rewrite Hr in Hin. done.
Qed.
Lemma exts_register E w w' c : rtc (ext E) w w' → c ∈ w_reg w' → c ∉ w_reg w → may_register E (w_policy w) c.
Proof.
  intros H Hin. induction H as [|w w1 w' H1 H2 IH]; intros Hout; [done|].
  destruct (decide (c ∈ w_reg w1)) as [Hy|Hn].
  - by eapply ext_registers.
  - rewrite <- (ext_policy_same E w w1 H1). by apply IH.
Qed.

(** A contract becomes registered only as a creation of the factory, or while
    custom tokens are allowed and it is on the list (or there is no list). *)
Theorem C36_registration_obeys_policy E w w' c :
  step E w w' → c ∈ w_reg w' → c ∉ w_reg w → may_register E (w_policy w) c.
Proof.
  intros [H|H] Hin Hout; [by eapply ext_registers|]. destruct H; try done.
  - pose proof (call_frame E w self chain_addr o) as (_ & _ & Hr & _). rewrite Hr in Hin. done.
  - by eapply exts_register.
  - left. unfold create_erc20 in Hin.
    destruct (factory_create E w chain_addr) as [[c' w1]|] eqn:Hf; [|done]. simpl in Hin.
    assert (Hf' := Hf). apply factory_create_eq in Hf' as (-> & Hc & Hs & m & n & ->). simpl in Hin.
    assert (c = e_create E (w_fnonce w)) as -> by set_solver. eauto.
  - unfold create_acct in Hin. by case_match.
Qed.

(** Asking to register an account for a contract changes something only if the
    contract is registered; then the account is listed for it and nothing else. *)
Theorem C36_store_registration w a c :
  (c ∉ w_reg w → register_store w a c = w) ∧
  (c ∈ w_reg w → ∀ x y, (x, y) ∈ w_stores (register_store w a c) ↔ (x, y) ∈ w_stores w ∨ (x = a ∧ y = c)).
Proof.
  unfold register_store. split; intros Hc.
  - by rewrite decide_False by done.
  - rewrite decide_True by done. intros x y. simpl.
    assert (w_stores (create_acct w a) = w_stores w) as -> by (unfold create_acct; by case_match).
    set_solver.
Qed.

(** Only the factory is believed when it registers another contract. *)
Theorem C36_factory_only E w caller c :
  caller ≠ e_factory E → register_from_factory E w caller c = (false, w).
Proof. intros. unfold register_from_factory. case_bool_decide; [congruence|done]. Qed.

Example C36_example :
  let w := upd_policy x_w2 (Policy true [x_bob]) in
  fst (register w x_bob) = true ∧ fst (register w x_contract) = false ∧
  fst (register (upd_policy x_w2 (Policy false [])) x_contract) = false ∧
  fst (register x_w2 x_contract) = true ∧ bool_decide (x_stake_at ∈ w_reg x_w2) = true.
Proof. vm_compute. done. Qed.

(** * C32: every holder is listed *)

(** Listing an account's balances reports every nonzero balance of a registered
    token, no denomination twice, and nothing else. *)
Theorem C32_account_listing E ck w addr a m n l :
  reachable E w → convert_to_evm (w_accts w) (w_nextnum w) addr false = Some (a, m, n) →
  k_account_balances ck w addr = Some l →
  (∀ c t, is_token w c t → c ∈ w_reg w → bal t a ≠ 0 → Coin (contract_to_denom ck w c) (bal t a) ∈ l) ∧
  NoDup (c_denom <$> l) ∧
  (∀ x, x ∈ l → ∃ c t, is_token w c t ∧ c ∈ w_reg w ∧ bal t a ≠ 0 ∧ x = Coin (contract_to_denom ck w c) (bal t a)).
Proof.
  intros Hr Hcv. pose proof (inv_reachable E w Hr) as Hi. unfold k_account_balances. rewrite Hcv. intros [= <-].
  set (g := fun key : bytes * bytes => _).
  assert (Hg : ∀ key x, g key = Some x → key.1 = a ∧ ∃ t, is_token w key.2 t ∧ bal t a ≠ 0 ∧
              x = Coin (contract_to_denom ck w key.2) (bal t a)).
  { intros [k c] x. unfold g. simpl. case_bool_decide; [|done]. subst k. unfold balance_of, is_token.
    destruct (w_code w !! c) as [[t|]|]; simpl; [|done|done].
    destruct (Z.eqb_spec (bal t a) 0); [done|]. intros [= <-]. eauto. }
  split_and!.
  - intros c t Ht Hc Hb. apply elem_of_list_omap. exists (a, c). split.
    + apply elem_of_elements. by eapply iv_list.
    + unfold g. simpl. rewrite bool_decide_eq_true_2 by done. unfold balance_of. unfold is_token in Ht. rewrite Ht. simpl.
      by rewrite (proj2 (Z.eqb_neq _ _) Hb).
  - assert (∀ L, NoDup L → (∀ k c, (k, c) ∈ L → addr_ok c) → NoDup (c_denom <$> omap g L)) as HL.
    { intros L. induction L as [|[k c] L IH]; intros Hnd Hok; simpl; [constructor|].
      apply NoDup_cons in Hnd as [Hni Hnd].
      assert (NoDup (c_denom <$> omap g L)) as Hrec by (apply IH; [done|]; intros; eapply Hok; right; done).
      destruct (g (k, c)) as [x|] eqn:Hx; [|done]. simpl. apply NoDup_cons. split; [|done].
      intros Hin. apply elem_of_list_fmap in Hin as (y & Hd & Hy).
      apply elem_of_list_omap in Hy as ([k' c'] & Hin & Hy).
      apply Hg in Hx as (? & t & Ht & Hb & ->). apply Hg in Hy as (? & t' & Ht' & Hb' & ->). simpl in *. subst.
      apply (contract_denom_inj E ck w) in Hd; [by subst|done| |].
      - eapply Hok. left.
      - eapply Hok. right. done. }
    apply HL; [apply NoDup_elements|]. intros k c Hin. apply elem_of_elements in Hin.
    apply (iv_addr E w Hi). by eapply iv_stores.
  - intros x Hx. apply elem_of_list_omap in Hx as ([k c] & Hin & Hx).
    apply Hg in Hx as (Hk & t & Ht & Hb & ->). simpl in *. subst.
    exists c, t. split_and!; try done. apply elem_of_elements in Hin. by eapply iv_stores.
Qed.

(** Listing supplies reports every registered token exactly once. *)
Theorem C32_supply_listing E ck w :
  reachable E w →
  (∀ c t, is_token w c t → c ∈ w_reg w → Coin (contract_to_denom ck w c) (t_supply t) ∈ k_supplies ck w) ∧
  NoDup (c_denom <$> k_supplies ck w).
Proof.
  intros Hr. pose proof (inv_reachable E w Hr) as Hi. split.
  - intros c t Ht Hc. unfold k_supplies. apply elem_of_list_fmap. exists c. split.
    + unfold is_token in Ht. by rewrite Ht.
    + by apply elem_of_elements.
  - unfold k_supplies. rewrite <- list_fmap_compose.
    assert (∀ L, NoDup L → (∀ c, c ∈ L → addr_ok c) →
       NoDup ((c_denom ∘ (fun c => Coin (contract_to_denom ck w c) match w_code w !! c with Some (CTok t) => t_supply t | _ => 0 end)) <$> L)) as HL.
    { induction L as [|c L IH]; intros Hnd Hok; simpl; [constructor|].
      apply NoDup_cons in Hnd as [Hni Hnd]. apply NoDup_cons. split.
      - intros Hin. apply elem_of_list_fmap in Hin as (c' & Hd & Hin). simpl in Hd.
        apply (contract_denom_inj E ck w) in Hd; [by subst|done| |]; apply Hok; set_solver.
      - apply IH; [done|]. intros; apply Hok; by right. }
    apply HL; [apply NoDup_elements|]. intros c Hin. apply elem_of_elements in Hin. by apply (iv_addr E w Hi).
Qed.

(** x/bank/keeper/view.go 127-141, IterateAllBalances: walk the accounts. *)
Definition all_balances (ck : bytes → nat → bool) (w : world) : list (bytes * coin) :=
  mjoin ((fun a => (a,.) <$> default [] (k_account_balances ck w a)) <$> elements (dom (w_accts w))).

(** Walking all accounts finds every nonzero balance of every account that exists
    (20-byte accounts)... *)
Theorem C32_all_accounts E ck w a c t :
  reachable E w → a ∈ dom (w_accts w) → length a = 20%nat →
  is_token w c t → c ∈ w_reg w → bal t a ≠ 0 →
  (a, Coin (contract_to_denom ck w c) (bal t a)) ∈ all_balances ck w.
Proof.
  intros Hr Ha Hl Ht Hc Hb. unfold all_balances. apply elem_of_list_join.
  exists ((a,.) <$> default [] (k_account_balances ck w a)). split.
  - apply elem_of_list_fmap. eexists. split; [done|].
    assert (Hcv : convert_to_evm (w_accts w) (w_nextnum w) a false = Some (a, w_accts w, w_nextnum w)).
    { unfold convert_to_evm. by rewrite Hl. }
    destruct (k_account_balances ck w a) as [l|] eqn:Hk.
    + simpl. by apply (C32_account_listing E ck w a a _ _ l Hr Hcv Hk).
    + unfold k_account_balances in Hk. by rewrite Hcv in Hk.
  - apply elem_of_list_fmap. exists a. split; [done|]. by apply elem_of_elements.
Qed.

(** ... but an account can hold tokens without existing: a contract that
    self-destructs loses its account record, not its balances of tokens other than
    the fee token. Its balance is then missing from the walk over all accounts (and
    from exported bank genesis) while the supply still counts it. *)
Definition C32_w1 : world := match deploy x_w2 x_contract CCustom with Some w => w | None => x_w2 end.
Definition C32_w2 : world := snd (call_tok x_env C32_w1 x_stake_at x_alice (OTransfer x_contract 7)).
Definition C32_w3 : world :=
  upd_accts (upd_code C32_w2 (delete x_contract)) (delete x_contract (w_accts C32_w2)) (w_nextnum C32_w2).
Theorem C79_all_accounts_refuted : ∃ w c t a,
  reachable x_env w ∧ is_token w c t ∧ c ∈ w_reg w ∧ bal t a = 7 ∧
  ∀ ck x, (a, x) ∉ all_balances ck w.
Proof.
  assert (Ht : ∃ t, is_token C32_w3 x_stake_at t ∧ bal t x_contract = 7).
  { eexists. split; vm_compute; reflexivity. }
  destruct Ht as (t & Ht & Hb). exists C32_w3, x_stake_at, t, x_contract.
  split; [|split; [exact Ht|split; [|split; [exact Hb|]]]].
  - apply x_reachable. etrans; [apply x_w2_steps|].
    eapply rtc_l; [left; eapply (ext_deploy_custom _ _ x_contract C32_w1)|].
    { split; [done|]. repeat constructor. }
    { vm_compute. reflexivity. }
    eapply rtc_l; [left; eapply (ext_call _ _ x_stake_at x_alice (OTransfer x_contract 7))|].
    { discriminate. }
    { vm_compute. split; [discriminate|reflexivity]. }
    apply rtc_once. left. apply (ext_destroy x_env C32_w2 x_contract).
    { vm_compute. reflexivity. }
    { discriminate. }
  - refine (bool_decide_unpack (x_stake_at ∈ w_reg C32_w3) _). vm_compute. exact I.
  - intros ck x Hin. unfold all_balances in Hin. apply elem_of_list_join in Hin as (l & Hx & Hl).
    apply elem_of_list_fmap in Hl as (a & -> & Ha). apply elem_of_list_fmap in Hx as (y & Hy & _).
    injection Hy as <- <-. apply elem_of_elements in Ha. revert Ha. refine (bool_decide_unpack (x_contract ∉ dom (w_accts C32_w3)) _). vm_compute. exact I.
Qed.

Example C32_example : k_account_balances (fun _ _ => false) x_w2 x_module = Some [Coin x_foo 40; Coin x_stake 40].
Proof. vm_compute. done. Qed.

(** * C56: native value *)

(** Moving native value changes the fee token's ledger by exactly that amount,
    from sender to recipient (who may be the same), and touches no supply and no
    other token. *)
Theorem C56_value_conserved E w fee t a1 a2 v w' :
  reachable E w → is_token w fee t → amount_ok v →
  move_value E w fee a1 a2 v = Some w' →
  v <= balance w fee a1 ∧
  (∀ c a, balance w' c a = balance w c a + (if bool_decide (c = fee) then if_eq a a2 v - if_eq a a1 v else 0)) ∧
  (∀ c, supply w' c = supply w c).
Proof.
  intros Hr Ht Hv. pose proof (inv_reachable E w Hr) as Hi. pose proof (iv_tok E w Hi fee t Ht) as Hok.
  unfold move_value, can_transfer, value_transfer, balance_of. unfold balance at 1.
  unfold is_token in Ht. rewrite Ht. destruct (Z.eqb_spec v 0) as [->|Hnz].
  - intros [= <-]. split_and!.
    + by apply bal_range.
    + intros. unfold if_eq. repeat case_bool_decide; lia.
    + done.
  - case_bool_decide; [done|]. destruct (Z.leb_spec v (bal t a1)) as [Hle|]; [|done].
    destruct (call_tok E w fee a1 (OTransfer a2 v)) as [ok w1] eqn:Hc. destruct ok; [|done]. intros [= <-].
    destruct (call_effect E w fee a1 (OTransfer a2 v) w1 Hi Hv Hc (ex_intro _ t Ht)) as (Eb & Es & _).
    split_and!; [done| |].
    + intros c a. rewrite Eb. done.
    + intros c. rewrite Es. simpl. case_bool_decide; lia.
Qed.

(** It is refused exactly when the sender has less than the amount or the
    recipient is blocked; a zero amount always passes and changes nothing. *)
Theorem C56_value_refused E w fee t a1 a2 v :
  reachable E w → is_token w fee t → fee ≠ null_addr → 0 < v < two256 →
  (move_value E w fee a1 a2 v = None ↔ balance w fee a1 < v ∨ is_blocked E w a2 = true) ∧
  move_value E w fee a1 a2 0 = Some w.
Proof.
  intros Hr Ht Hn Hv. split; [|done].
  assert (Hok : amount_ok v) by (unfold amount_ok; lia).
  destruct (C24_no_overflow E w fee t a1 a2 v Hr Ht Hok) as [Hc _].
  unfold move_value, can_transfer, value_transfer, balance_of. unfold balance in *.
  unfold is_token in Ht. rewrite Ht in *. rewrite (proj2 (Z.eqb_neq v 0)) by lia.
  rewrite bool_decide_eq_false_2 by done.
  destruct (Z.leb_spec v (bal t a1)) as [Hle|Hlt]; [|naive_solver].
  destruct (call_tok E w fee a1 (OTransfer a2 v)) as [ok w1]. simpl in Hc.
  destruct (is_blocked E w a2); destruct ok; split; try done; try naive_solver; try lia.
Qed.

(** Without a fee contract only a zero value moves. *)
Theorem C56_no_fee_contract E w a1 a2 v : v ≠ 0 → move_value E w null_addr a1 a2 v = None.
Proof. intros. unfold move_value, can_transfer. by rewrite (proj2 (Z.eqb_neq v 0)). Qed.

Example C56_example :
  (match move_value x_env x_w2 x_stake_at x_alice x_bob 60 with
   | Some w => balance w x_stake_at x_alice = 0 ∧ balance w x_stake_at x_bob = 60
   | None => False
   end) ∧
  move_value x_env x_w2 x_stake_at x_alice x_bob 61 = None ∧
  move_value x_env x_w2 x_stake_at x_alice x_collector 1 = None.
Proof. vm_compute. done. Qed.
