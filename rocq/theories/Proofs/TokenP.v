(** Invariants of the token world. *)
From Verif.Base Require Import Prelude Hex.
From Verif.Model Require Import Token Bank.
From Verif.Spec Require Import TokenSpec.
Open Scope Z_scope.

Lemma total_empty : total ∅ = 0.
Proof. apply map_fold_empty. Qed.
Lemma total_insert_fresh m a v : m !! a = None → total (<[a:=v]> m) = v + total m.
Proof.
  intros H. unfold total. rewrite map_fold_insert_L; [done| |done].
  intros. lia.
Qed.
Lemma total_insert m a v : total (<[a:=v]> m) = total m - default 0 (m !! a) + v.
Proof.
  destruct (m !! a) as [b|] eqn:H; simpl.
  - rewrite <- (insert_delete m a b H) at 2. rewrite <- insert_delete_insert.
    rewrite !total_insert_fresh by apply lookup_delete. lia.
  - rewrite total_insert_fresh by done. lia.
Qed.
Lemma total_nonneg m : (∀ a b, m !! a = Some b → 0 <= b) → 0 <= total m.
Proof.
  induction m as [|a b m Hn IH] using map_ind; intros H.
  - rewrite total_empty. lia.
  - rewrite total_insert_fresh by done.
    assert (0 <= b) by (apply (H a); apply lookup_insert).
    assert (0 <= total m); [|lia].
    apply IH. intros x y Hx. apply (H x). rewrite lookup_insert_ne; [done|]. congruence.
Qed.
Lemma total_ge m a : (∀ a b, m !! a = Some b → 0 <= b) → default 0 (m !! a) <= total m.
Proof.
  intros H. destruct (m !! a) as [b|] eqn:Ha; simpl; [|by apply total_nonneg].
  rewrite <- (insert_delete m a b Ha), total_insert_fresh by apply lookup_delete.
  assert (0 <= total (delete a m)); [|lia].
  apply total_nonneg. intros x y. rewrite lookup_delete_Some. intros [_ ?]. eauto.
Qed.
Lemma total_ge2 m a b : a ≠ b → (∀ a b, m !! a = Some b → 0 <= b) →
  default 0 (m !! a) + default 0 (m !! b) <= total m.
Proof.
  intros Hab H. pose proof (total_insert m a 0) as Ht.
  assert (default 0 (<[a:=0]> m !! b) <= total (<[a:=0]> m)) as Hb.
  { apply total_ge. intros x y. destruct (decide (a = x)) as [->|].
    - rewrite lookup_insert. intros [= <-]. lia.
    - rewrite lookup_insert_ne by done. eauto. }
  rewrite lookup_insert_ne in Hb by done. lia.
Qed.

(** ** Token ledgers *)

Record tok_ok (t : token) : Prop := {
  ok_total : total (t_bal t) = t_supply t;
  ok_bound : t_supply t < two256;
  ok_nonneg : ∀ a b, t_bal t !! a = Some b → 0 <= b;
  ok_allow : ∀ k b, t_allow t !! k = Some b → 0 <= b < two256 }.

Lemma bal_range t a : tok_ok t → 0 <= bal t a <= t_supply t.
Proof.
  intros [H1 H2 H3 H4]. split.
  - unfold bal. destruct (t_bal t !! a) eqn:E; simpl; [eauto|lia].
  - rewrite <- H1. by apply total_ge.
Qed.
Lemma bal_pair t a b : tok_ok t → a ≠ b → bal t a + bal t b <= t_supply t.
Proof. intros [H1 H2 H3 H4] Hab. rewrite <- H1. by apply total_ge2. Qed.
Lemma allow_range t a b : tok_ok t → 0 <= allow t a b < two256.
Proof.
  intros [H1 H2 H3 H4]. unfold allow. destruct (t_allow t !! (a,b)) eqn:E; simpl; [eauto|].
  unfold two256. lia.
Qed.

Lemma bal_set_bal t a v x : bal (set_bal t a v) x = if bool_decide (x = a) then v else bal t x.
Proof.
  unfold bal, set_bal. simpl. case_bool_decide as H.
  - subst. by rewrite lookup_insert.
  - by rewrite lookup_insert_ne by done.
Qed.

Lemma new_token_ok k o : tok_ok (new_token k o).
Proof.
  split; simpl; try done.
Qed.

Lemma add256_some a b c : add256 a b = Some c ↔ c = a + b ∧ a + b < two256.
Proof. unfold add256. case_match eqn:E; [apply Z.ltb_lt in E|apply Z.ltb_ge in E]; split; intros; simplify_eq; try done; try lia; destruct_and!; subst; try done; lia. Qed.
Lemma sub256_some a b c : sub256 a b = Some c ↔ c = a - b ∧ b <= a.
Proof. unfold sub256. case_match eqn:E; [apply Z.leb_le in E|apply Z.leb_gt in E]; split; intros; simplify_eq; try done; destruct_and!; subst; try done; lia. Qed.

Lemma add256_yes a b : a + b < two256 → add256 a b = Some (a + b).
Proof. intros. by apply add256_some. Qed.
Lemma add256_no a b : ¬ a + b < two256 → add256 a b = None.
Proof. intros H. destruct (add256 a b) eqn:E; [|done]. by apply add256_some in E as [_ ?]. Qed.
Lemma sub256_yes a b : b <= a → sub256 a b = Some (a - b).
Proof. intros. by apply sub256_some. Qed.
Lemma sub256_no a b : ¬ b <= a → sub256 a b = None.
Proof. intros H. destruct (sub256 a b) eqn:E; [|done]. by apply sub256_some in E as [_ ?]. Qed.
Lemma bal_set_supply t v x : bal (set_supply t v) x = bal t x.
Proof. done. Qed.
Lemma bal_set_allow t o s v x : bal (set_allow t o s v) x = bal t x.
Proof. done. Qed.
Lemma bal_set_owner t o x : bal (set_owner t o) x = bal t x.
Proof. done. Qed.

(** Exact outcome of the three movements. *)
Lemma tok_transfer_spec t s r v : tok_ok t → amount_ok v →
  tok_transfer t s r v =
    if decide (v <= bal t s)
    then Some (set_bal (set_bal t s (bal t s - v)) r ((if bool_decide (r = s) then bal t s - v else bal t r) + v))
    else None.
Proof.
  intros Hok [Hv Hv']. unfold tok_transfer. destruct (sub256 (bal t s) v) as [b|] eqn:E.
  - apply sub256_some in E as [-> E]. rewrite decide_True by done. simpl.
    rewrite bal_set_bal.
    pose proof (bal_range t s Hok). pose proof (ok_bound t Hok).
    destruct (add256 _ v) as [b'|] eqn:E2.
    + apply add256_some in E2 as [-> E2]. simpl. done.
    + exfalso. revert E2. unfold add256. rewrite (proj2 (Z.ltb_lt _ _)); [done|].
      case_bool_decide; [lia|]. pose proof (bal_pair t s r Hok ltac:(congruence)). lia.
  - rewrite decide_False; [done|]. intros Hle. unfold sub256 in E.
    rewrite (proj2 (Z.leb_le _ _) Hle) in E. done.
Qed.
Lemma tok_mint_spec t r v : tok_ok t → amount_ok v →
  tok_mint t r v =
    if decide (t_supply t + v < two256)
    then Some (set_supply (set_bal t r (bal t r + v)) (t_supply t + v))
    else None.
Proof.
  intros Hok [Hv Hv']. unfold tok_mint. pose proof (bal_range t r Hok).
  destruct (decide _) as [Hd|Hd].
  - rewrite (add256_yes (bal t r)) by lia. simpl. by rewrite add256_yes by done.
  - destruct (add256 (bal t r) v) as [b|] eqn:E; [|done]. simpl. by rewrite add256_no by done.
Qed.
Lemma tok_burn_spec t f v : tok_ok t → amount_ok v →
  tok_burn t f v =
    if decide (v <= bal t f)
    then Some (set_supply (set_bal t f (bal t f - v)) (t_supply t - v))
    else None.
Proof.
  intros Hok [Hv Hv']. unfold tok_burn. pose proof (bal_range t f Hok).
  destruct (decide _) as [Hd|Hd].
  - rewrite (sub256_yes (bal t f)) by done. simpl. rewrite sub256_yes by lia. done.
  - by rewrite sub256_no by done.
Qed.

Lemma set_bal_ok t a v s' : tok_ok t → 0 <= v →
  s' = t_supply t - bal t a + v → s' < two256 →
  tok_ok (set_supply (set_bal t a v) s').
Proof.
  intros [H1 H2 H3 H4] Hv -> Hb. split; simpl.
  - rewrite total_insert. unfold bal. lia.
  - done.
  - intros x b. destruct (decide (a = x)) as [->|].
    + rewrite lookup_insert. congruence.
    + rewrite lookup_insert_ne by done. eauto.
  - done.
Qed.
Lemma set_allow_ok t o s v : tok_ok t → 0 <= v < two256 → tok_ok (set_allow t o s v).
Proof.
  intros [H1 H2 H3 H4] Hv. split; simpl; try done.
  intros k b. destruct (decide ((o,s) = k)) as [->|].
  - rewrite lookup_insert. congruence.
  - rewrite lookup_insert_ne by done. eauto.
Qed.
Lemma set_owner_ok t o : tok_ok t → tok_ok (set_owner t o).
Proof. by intros [H1 H2 H3 H4]; split. Qed.

Lemma tok_transfer_ok t s r v t' : tok_ok t → amount_ok v → tok_transfer t s r v = Some t' → tok_ok t'.
Proof.
  intros Hok Hv. rewrite tok_transfer_spec by done. destruct (decide _) as [Hd|]; [|done].
  intros [= <-]. pose proof (bal_range t s Hok). destruct Hv as [Hv Hv'].
  destruct Hok as [H1 H2 H3 H4]. split; simpl; [| done | | done].
  - rewrite !total_insert. fold (bal t s). destruct (decide (r = s)) as [->|Hrs].
    + rewrite lookup_insert, bool_decide_eq_true_2 by done. simpl. unfold bal in *. lia.
    + rewrite lookup_insert_ne by done. rewrite bool_decide_eq_false_2 by done.
      unfold bal in *. lia.
  - intros x b. destruct (decide (r = x)) as [->|].
    + rewrite lookup_insert. intros [= <-]. case_bool_decide; [lia|].
      assert (0 <= bal t x). { unfold bal. destruct (t_bal t !! x) eqn:E; simpl; [eauto|lia]. } lia.
    + rewrite lookup_insert_ne by done. destruct (decide (s = x)) as [->|].
      * rewrite lookup_insert. intros [= <-]. lia.
      * rewrite lookup_insert_ne by done. eauto.
Qed.
Lemma tok_mint_ok t r v t' : tok_ok t → amount_ok v → tok_mint t r v = Some t' → tok_ok t'.
Proof.
  intros Hok Hv. rewrite tok_mint_spec by done. destruct (decide _) as [Hd|]; [|done].
  intros [= <-]. pose proof (bal_range t r Hok). destruct Hv. apply set_bal_ok; try done; lia.
Qed.
Lemma tok_burn_ok t r v t' : tok_ok t → amount_ok v → tok_burn t r v = Some t' → tok_ok t'.
Proof.
  intros Hok Hv. rewrite tok_burn_spec by done. destruct (decide _) as [Hd|]; [|done].
  intros [= <-]. pose proof (bal_range t r Hok). pose proof (ok_bound t Hok). destruct Hv.
  apply set_bal_ok; try done; lia.
Qed.

Lemma guards_ok E w s o t t' : tok_ok t → op_ok o → guards E w s o t = Some t' → tok_ok t'.
Proof.
  intros Hok Ho. destruct o; simpl in *; repeat case_match; try done; intros; simplify_option_eq; try done.
  all: try (match goal with H : sub256 _ _ = Some _ |- _ => apply sub256_some in H as [-> ?] end;
       apply set_allow_ok; [done|]; pose proof (allow_range t from s Hok); unfold amount_ok in Ho; lia).
Qed.
(** Guards touch only the allowances. *)
Lemma guards_bal E w s o t t' : guards E w s o t = Some t' →
  t_bal t' = t_bal t ∧ t_supply t' = t_supply t ∧ t_kind t' = t_kind t ∧ t_owner t' = t_owner t.
Proof.
  destruct o; simpl; repeat case_match; try done; intros; simplify_option_eq; done.
Qed.
Lemma body_ok s o t t' : tok_ok t → op_ok o → body s o t = Some t' → tok_ok t'.
Proof.
  intros Hok Ho. destruct o; simpl in *; eauto using tok_transfer_ok, tok_mint_ok, tok_burn_ok.
  - intros [= <-]. by apply set_allow_ok.
  - intros [= <-]. by apply set_owner_ok.
Qed.

(** A balance grows only for the recipient the modifier registers. *)
Lemma body_growth s o t t' a : tok_ok t → op_ok o → body s o t = Some t' →
  bal t' a ≠ bal t a → op_recipient o = Some a ∨ bal t' a < bal t a.
Proof.
  intros Hok Ho Hb. destruct o; simpl in *; unfold amount_ok in *;
    rewrite ?tok_transfer_spec, ?tok_mint_spec, ?tok_burn_spec in Hb by done;
    try (destruct (decide _) as [Hd|]; [|done]); injection Hb as <-;
    rewrite ?bal_set_supply, ?bal_set_bal; try done;
    repeat case_bool_decide; subst; try done; try (by left); intros; right; lia.
Qed.

(** ** The invariant of the world *)

Record Inv (E : env) (w : world) : Prop := {
  iv_tok : ∀ c t, is_token w c t → tok_ok t;
  iv_list : ∀ c t a, is_token w c t → c ∈ w_reg w → bal t a ≠ 0 → (a, c) ∈ w_stores w;
  iv_stores : ∀ a c, (a, c) ∈ w_stores w → c ∈ w_reg w;
  iv_bij : ∀ c d, w_denom_of w !! c = Some d ↔ w_addr_of w !! d = Some c;
  iv_den : ∀ c d, w_denom_of w !! c = Some d →
             is_erc20_denom d = false ∧ c ∈ w_reg w ∧ (∃ n, c = e_create E n) ∧
             ∃ t, is_token w c t ∧ t_kind t = KERC20;
  iv_addr : ∀ c, c ∈ w_reg w → addr_ok c }.

Lemma inv_initial E w : initial E w → Inv E w.
Proof.
  intros (H1 & H2 & H3 & H4 & H5). split.
  - intros c t H. by destruct (H1 c t).
  - intros c t a H. by destruct (H1 c t).
  - intros a c. rewrite H3. set_solver.
  - intros c d. rewrite H4, H5, !lookup_empty. done.
  - intros c d. by rewrite H4, lookup_empty.
  - intros c. rewrite H2. set_solver.
Qed.

Lemma inv_accts E w m n : Inv E w → Inv E (upd_accts w m n).
Proof. by intros [H1 H2 H3 H4 H5 H6]; split. Qed.
Lemma inv_fnonce E w n : Inv E w → Inv E (upd_fnonce w n).
Proof. by intros [H1 H2 H3 H4 H5 H6]; split. Qed.
Lemma inv_policy E w p : Inv E w → Inv E (upd_policy w p).
Proof. by intros [H1 H2 H3 H4 H5 H6]; split. Qed.
Lemma inv_create_acct E w a : Inv E w → Inv E (create_acct w a).
Proof. intros. unfold create_acct. case_match; [done|]. by apply inv_accts. Qed.

Lemma inv_update E w c t t' : Inv E w → is_token w c t → tok_ok t' → t_kind t' = t_kind t →
  (∀ a, c ∈ w_reg w → bal t' a ≠ 0 → bal t a ≠ 0 ∨ (a, c) ∈ w_stores w) →
  Inv E (upd_code w (insert c (CTok t'))).
Proof.
  intros [H1 H2 H3 H4 H5 H6] Ht Ht' Hk Hb. split; try done; unfold is_token in *; simpl.
  - intros c' t''. destruct (decide (c = c')) as [->|].
    + rewrite lookup_insert. intros [= <-]. done.
    + rewrite lookup_insert_ne by done. apply H1.
  - intros c' t'' a. destruct (decide (c = c')) as [->|].
    + rewrite lookup_insert. intros [= <-] Hr Hn. destruct (Hb a Hr Hn); eauto.
    + rewrite lookup_insert_ne by done. apply H2.
  - intros c' d Hd. destruct (H5 c' d Hd) as (Ha & Hb' & Hn & t'' & Hc & Hk').
    split_and!; try done. destruct (decide (c = c')) as [->|].
    + rewrite lookup_insert. exists t'. split; [done|]. congruence.
    + rewrite lookup_insert_ne by done. eauto.
Qed.

Lemma inv_register_store E w a c : Inv E w → Inv E (register_store w a c).
Proof.
  intros Hi. unfold register_store. destruct (decide _) as [Hr|]; [|done].
  assert (Inv E (create_acct w a)) as [H1 H2 H3 H4 H5 H6] by by apply inv_create_acct.
  assert (w_reg (create_acct w a) = w_reg w) as Er by (unfold create_acct; by case_match).
  split; try done; simpl.
  - intros c' t x Ht Hc Hb. apply elem_of_union_r. eauto.
  - intros x c'. rewrite elem_of_union, elem_of_singleton. intros [[= -> ->]|Hx]; [by rewrite Er|eauto].
Qed.
Lemma inv_store_modifier E w c a : Inv E w → Inv E (store_modifier w c a).
Proof. intros. unfold store_modifier. case_match; [done|]. by apply inv_register_store. Qed.

Lemma register_store_code w a c : w_code (register_store w a c) = w_code w ∧ w_reg (register_store w a c) = w_reg w
  ∧ w_stores w ⊆ w_stores (register_store w a c)
  ∧ w_denom_of (register_store w a c) = w_denom_of w ∧ w_addr_of (register_store w a c) = w_addr_of w
  ∧ w_fnonce (register_store w a c) = w_fnonce w ∧ w_policy (register_store w a c) = w_policy w.
Proof.
  unfold register_store. destruct (decide _); simpl; [|done].
  unfold create_acct. case_match; simpl; split_and!; try done; set_solver.
Qed.
Lemma store_modifier_code w a c : w_code (store_modifier w c a) = w_code w ∧ w_reg (store_modifier w c a) = w_reg w
  ∧ w_stores w ⊆ w_stores (store_modifier w c a)
  ∧ w_denom_of (store_modifier w c a) = w_denom_of w ∧ w_addr_of (store_modifier w c a) = w_addr_of w
  ∧ w_fnonce (store_modifier w c a) = w_fnonce w ∧ w_policy (store_modifier w c a) = w_policy w.
Proof. unfold store_modifier. destruct (decide _); [done|]. apply register_store_code. Qed.
Lemma store_modifier_in w a c : c ∈ w_reg w → (a, c) ∈ w_stores (store_modifier w c a).
Proof.
  intros. unfold store_modifier. destruct (decide _); [done|].
  unfold register_store. rewrite decide_True by done. simpl. set_solver.
Qed.

Lemma body_kind s o t t' : body s o t = Some t' → t_kind t' = t_kind t.
Proof.
  destruct o; simpl; unfold tok_transfer, tok_mint, tok_burn; intros; simplify_option_eq; done.
Qed.

Lemma inv_call E w self s o : Inv E w → op_ok o → Inv E (snd (call_tok E w self s o)).
Proof.
  intros Hi Ho. unfold call_tok. destruct (w_code w !! self) as [[t|]|] eqn:Hc; try done.
  destruct (guards E w s o t) as [t1|] eqn:Hg; [|done].
  set (w1 := match op_recipient o with Some r => store_modifier w self r | None => w end).
  assert (Inv E w1) as Hi1 by (unfold w1; case_match; [by apply inv_store_modifier|done]).
  assert (w_code w1 = w_code w ∧ w_reg w1 = w_reg w) as [Ec Er].
  { unfold w1. case_match; [|done]. split; apply store_modifier_code. }
  destruct (body s o t1) as [t2|] eqn:Hb; [|done]. simpl.
  pose proof (iv_tok E w Hi self t Hc) as Htok.
  pose proof (guards_ok _ _ _ _ _ _ Htok Ho Hg) as Htok1.
  pose proof (guards_bal _ _ _ _ _ _ Hg) as (Eb & Es & Ek & Eo).
  apply inv_update with (t := t); try done.
  - unfold is_token. by rewrite Ec.
  - by eapply body_ok.
  - rewrite (body_kind _ _ _ _ Hb). done.
  - intros a Hr Hn.
    assert (bal t a = bal t1 a) as -> by (unfold bal; by rewrite Eb).
    destruct (decide (bal t1 a = 0)) as [H0|]; [|by left]. right.
    destruct (body_growth _ _ _ _ a Htok1 Ho Hb ltac:(congruence)) as [Hrc|Hlt].
    + unfold w1. rewrite Hrc. apply store_modifier_in. by rewrite <- Er.
    + pose proof (body_ok _ _ _ _ Htok1 Ho Hb) as Htok2. pose proof (bal_range t2 a Htok2). lia.
Qed.

Definition fresh_code (x : code) : Prop := x = CCustom ∨ ∃ k o, x = CTok (new_token k o).

Lemma contract_acct_eq w c w' : contract_acct w c = Some w' → ∃ m n, w' = upd_accts w m n.
Proof. unfold contract_acct. repeat case_match; intros; simplify_eq; eauto. Qed.

Lemma inv_insert_fresh E w c x : Inv E w → w_code w !! c = None → fresh_code x →
  Inv E (upd_code w (insert c x)).
Proof.
  intros [H1 H2 H3 H4 H5 H6] Hn Hx.
  assert (∀ t, x = CTok t → tok_ok t ∧ ∀ a, bal t a = 0) as Hx'.
  { intros t ->. destruct Hx as [|(k&o&Hx)]; [done|]. injection Hx as ->. split; [apply new_token_ok|done]. }
  split; try done; unfold is_token in *; simpl.
  - intros c' t. destruct (decide (c = c')) as [->|].
    + rewrite lookup_insert. intros [= ->]. by apply Hx'.
    + rewrite lookup_insert_ne by done. apply H1.
  - intros c' t a. destruct (decide (c = c')) as [->|].
    + rewrite lookup_insert. intros [= ->] _ Hb. destruct (Hx' t eq_refl) as [_ H0]. by destruct (Hb (H0 a)).
    + rewrite lookup_insert_ne by done. apply H2.
  - intros c' d Hd. destruct (H5 c' d Hd) as (Ha & Hb & Hnn & t & Ht & Hk).
    split_and!; try done. rewrite lookup_insert_ne by congruence. eauto.
Qed.
Lemma inv_deploy E w c x w' : Inv E w → fresh_code x → deploy w c x = Some w' →
  Inv E w' ∧ w_code w !! c = None ∧ ∃ m n, w' = upd_code (upd_accts w m n) (insert c x).
Proof.
  intros Hi Hx. unfold deploy. destruct (w_code w !! c) eqn:Hc; [done|].
  destruct (contract_acct w c) as [w1|] eqn:Hw1; [|done]. simpl. intros [= <-].
  apply contract_acct_eq in Hw1 as (m & n & ->). split_and!; eauto.
  apply inv_insert_fresh; try done. by apply inv_accts.
Qed.

Lemma inv_register E w c : Inv E w → addr_ok c → (∀ t a, is_token w c t → bal t a = 0) →
  Inv E (upd_reg w (fun s => {[c]} ∪ s)).
Proof.
  intros [H1 H2 H3 H4 H5 H6] Ha Hc. split; try done; simpl.
  - intros c' t a Ht. rewrite elem_of_union, elem_of_singleton. intros [->|Hr] Hb; [|eauto].
    by destruct (Hb (Hc _ _ Ht)).
  - intros a c' Hs. apply elem_of_union_r. eauto.
  - intros c' d Hd. destruct (H5 c' d Hd) as (? & ? & ? & ?). split_and!; try done. set_solver.
  - intros c'. rewrite elem_of_union, elem_of_singleton. intros [->|]; eauto.
Qed.
Lemma inv_register_op E w c : Inv E w → addr_ok c → (∀ t a, is_token w c t → bal t a = 0) →
  Inv E (snd (register w c)).
Proof.
  intros Hi Ha Hc. unfold register. repeat case_match; simpl; try done; by apply inv_register.
Qed.

(** What the factory does, exactly. *)
Lemma factory_create_eq E w s c w' : factory_create E w s = Some (c, w') →
  c = e_create E (w_fnonce w) ∧ w_code w !! c = None ∧ s ≠ null_addr ∧
  ∃ m n, w' = upd_code (upd_reg (upd_code (upd_accts (upd_fnonce w (w_fnonce w + 1)%N) m n)
                 (insert c (CTok (new_token KERC20 (e_factory E))))) (fun r => {[c]} ∪ r))
                 (insert c (CTok (new_token KERC20 s))).
Proof.
  unfold factory_create, deploy. simpl.
  destruct (w_code w !! e_create E (w_fnonce w)) eqn:Hc; [done|].
  destruct (contract_acct _ _) as [w1|] eqn:Hw1; [|done]. simpl.
  apply contract_acct_eq in Hw1 as (m & n & ->).
  unfold register_from_factory. rewrite bool_decide_eq_true_2 by done.
  unfold call_tok. simpl. rewrite lookup_insert. simpl.
  rewrite bool_decide_eq_true_2 by done. simpl. case_bool_decide as Hs; simpl; [done|].
  intros [= <- <-]. split_and!; try done. eauto.
Qed.
Lemma inv_factory E w s c w' : env_ok E → Inv E w → factory_create E w s = Some (c, w') → Inv E w'.
Proof.
  intros HE Hi H. apply factory_create_eq in H as (-> & Hc & Hs & m & n & ->).
  eapply inv_update with (t := new_token KERC20 (e_factory E)).
  - apply inv_register.
    + apply inv_insert_fresh; [by apply inv_accts, inv_fnonce|done|right; eauto].
    + apply HE.
    + unfold is_token. simpl. intros t a. rewrite lookup_insert. intros [= <-]. done.
  - unfold is_token. simpl. by rewrite lookup_insert.
  - apply new_token_ok.
  - done.
  - done.
Qed.

Lemma inv_ext E w w' : env_ok E → Inv E w → ext E w w' → Inv E w'.
Proof.
  intros HE Hi H. destruct H.
  - by apply inv_call.
  - by eapply inv_factory.
  - eapply inv_deploy; [done| |done]. right; eauto.
  - unfold deploy_initia in H0. destruct (deploy _ _ _) as [w1|] eqn:Hd; [|done]. simpl in H0.
    destruct (inv_deploy _ _ _ _ _ Hi ltac:(right; eauto) Hd) as (Hi1 & Hc & m & n & ->).
    destruct (register _ c) as [ok w2] eqn:Hr. destruct ok; [|done]. injection H0 as <-.
    pose proof (inv_register_op E _ c Hi1 H) as Hi2. rewrite Hr in Hi2. apply Hi2.
    unfold is_token. simpl. intros t a. rewrite lookup_insert. intros [= <-]. done.
  - eapply inv_deploy; [done| |done]. by left.
  - apply inv_accts. destruct Hi as [H1 H2 H3 H4 H5 H6]. split; try done; unfold is_token in *; simpl.
    + intros c' t. rewrite lookup_delete_Some. intros [_ ?]. eauto.
    + intros c' t a. rewrite lookup_delete_Some. intros [_ ?]. eauto.
    + intros c' d Hd. destruct (H5 c' d Hd) as (? & ? & ? & t & Ht & Hk). split_and!; try done.
      exists t. split; [|done]. apply lookup_delete_Some. split; [congruence|done].
  - apply inv_register_op; [done|done|]. intros t a Ht. by destruct (H0 t).
  - unfold register_from_factory. case_bool_decide; [congruence|done].
  - by apply inv_register_store.
  - by apply inv_accts.
Qed.
Lemma inv_exts E w w' : env_ok E → Inv E w → rtc (ext E) w w' → Inv E w'.
Proof. intros HE Hi H. induction H; eauto using inv_ext. Qed.

Lemma inv_denom E w c d t : Inv E w → is_token w c t → t_kind t = KERC20 → c ∈ w_reg w →
  (∃ n, c = e_create E n) → w_denom_of w !! c = None → w_addr_of w !! d = None → is_erc20_denom d = false →
  Inv E (upd_denoms w (<[c:=d]> (w_denom_of w)) (<[d:=c]> (w_addr_of w))).
Proof.
  intros [H1 H2 H3 H4 H5 H6] Ht Hk Hr Hcn Hc Hd He. split; try done; simpl.
  - intros c' d'. destruct (decide (c = c')) as [->|Hcc], (decide (d = d')) as [->|Hdd].
    + by rewrite !lookup_insert.
    + rewrite lookup_insert, lookup_insert_ne by done. rewrite <- H4, Hc. split; congruence.
    + rewrite lookup_insert_ne, lookup_insert by done. rewrite H4, Hd. split; congruence.
    + rewrite !lookup_insert_ne by done. apply H4.
  - intros c' d'. destruct (decide (c = c')) as [->|Hcc].
    + rewrite lookup_insert. intros [= <-]. eauto 10.
    + rewrite lookup_insert_ne by done. apply H5.
Qed.
Lemma inv_create E w d : env_ok E → Inv E w → w_addr_of w !! d = None → is_erc20_denom d = false →
  Inv E (snd (create_erc20 E w d)).
Proof.
  intros HE Hi Hd He. unfold create_erc20. destruct (factory_create E w chain_addr) as [[c w1]|] eqn:Hf; [|done].
  simpl. pose proof (inv_factory _ _ _ _ _ HE Hi Hf) as Hi1.
  apply factory_create_eq in Hf as (-> & Hc & Hs & m & n & ->).
  eapply inv_denom; try done; simpl.
  - unfold is_token. simpl. by rewrite lookup_insert.
  - done.
  - set_solver.
  - eauto.
  - destruct (w_denom_of w !! _) as [d0|] eqn:E1; [|done].
    destruct (iv_den E w Hi _ _ E1) as (_ & _ & _ & t & Ht & _). unfold is_token in Ht. congruence.
Qed.
Lemma inv_chain E w w' : env_ok E → Inv E w → chain E w w' → Inv E w'.
Proof.
  intros HE Hi H. destruct H.
  - by apply inv_call.
  - by eapply inv_exts.
  - by apply inv_create.
  - by apply inv_accts.
  - by apply inv_create_acct.
  - by apply inv_policy.
Qed.
Lemma inv_step E w w' : env_ok E → Inv E w → step E w w' → Inv E w'.
Proof. intros HE Hi [H|H]; eauto using inv_ext, inv_chain. Qed.
Lemma inv_reachable E w : reachable E w → Inv E w.
Proof.
  intros (HE & w0 & H0 & H). apply inv_initial in H0. induction H; eauto using inv_step.
Qed.
