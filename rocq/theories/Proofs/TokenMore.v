(** Steps classified; an example chain. *)
From Verif.Base Require Import Prelude Hex.
From Verif.Model Require Import Token Bank.
From Verif.Spec Require Import TokenSpec.
From Verif.Proofs Require Import HexP TokenP BankP.
Open Scope Z_scope.

(** A step by outsiders is a call of a token or leaves all ledgers alone. *)
Definition ledgers_kept (w w' : world) : Prop :=
  (∀ c t, is_token w c t → is_token w' c t) ∧
  (∀ c t, is_token w' c t → is_token w c t ∨ (w_code w !! c = None ∧ ∃ k o, t = new_token k o)).

Lemma ledgers_kept_same w w' : w_code w' = w_code w → ledgers_kept w w'.
Proof. unfold ledgers_kept, is_token. intros ->. split; auto. Qed.
Lemma ledgers_kept_insert w w' c x : w_code w !! c = None → fresh_code x →
  w_code w' = <[c := x]> (w_code w) → ledgers_kept w w'.
Proof.
  intros Hn Hx Hw. unfold ledgers_kept, is_token. rewrite Hw. split; intros c' t.
  - intros H. rewrite lookup_insert_ne; [done|]. congruence.
  - destruct (decide (c = c')) as [->|].
    + rewrite lookup_insert. intros [= ->]. right. split; [done|].
      destruct Hx as [|(k & o & Hx)]; [done|]. injection Hx as ->. eauto.
    + rewrite lookup_insert_ne by done. by left.
Qed.

Lemma register_code w c : w_code (snd (register w c)) = w_code w.
Proof. unfold register. repeat case_match; done. Qed.

Lemma deploy_eq w c x w' : deploy w c x = Some w' → w_code w !! c = None ∧ ∃ m n, w' = upd_code (upd_accts w m n) (insert c x).
Proof.
  unfold deploy. destruct (w_code w !! c) eqn:Hc; [done|].
  destruct (contract_acct w c) as [w1|] eqn:Hw1; [|done]. simpl. intros [= <-].
  apply contract_acct_eq in Hw1 as (m & n & ->). split; eauto.
Qed.

Lemma ext_cases E w w' : ext E w w' →
  (∃ self sender o, sender ≠ chain_addr ∧ op_ok o ∧ w' = snd (call_tok E w self sender o)) ∨ ledgers_kept w w'.
Proof.
  intros H. destruct H.
  - left. eauto 10.
  - right. apply factory_create_eq in H0 as (-> & Hc & Hs & m & n & ->).
    eapply ledgers_kept_insert; [done| |simpl; by rewrite insert_insert]. right; eauto.
  - right. apply deploy_eq in H0 as (Hc & m & n & ->). eapply ledgers_kept_insert; [done| |done]. right; eauto.
  - right. unfold deploy_initia in H0. destruct (deploy _ _ _) as [w1|] eqn:Hd; [|done]. simpl in H0.
    apply deploy_eq in Hd as (Hc & m & n & ->). pose proof (register_code (upd_code (upd_accts w m n) (insert c (CTok (new_token KInitia sender)))) c) as Hr.
    destruct (register _ c) as [ok w2]. destruct ok; [|done]. injection H0 as <-. simpl in Hr.
    eapply ledgers_kept_insert; [done| |done]. right; eauto.
  - right. apply deploy_eq in H0 as (Hc & m & n & ->). eapply ledgers_kept_insert; [done| |done]. by left.
  - right. unfold ledgers_kept, is_token. simpl. split; intros c' t.
    + intros. apply lookup_delete_Some. split; [congruence|done].
    + rewrite lookup_delete_Some. intros [_ ?]. by left.
  - right. apply ledgers_kept_same, register_code.
  - right. apply ledgers_kept_same. unfold register_from_factory. by case_bool_decide.
  - right. apply ledgers_kept_same. apply register_store_code.
  - right. by apply ledgers_kept_same.
Qed.

Lemma ledgers_kept_obs w w' : ledgers_kept w w' →
  (∀ c a, balance w' c a = balance w c a) ∧ (∀ c, supply w' c = supply w c) ∧
  (∀ c o s, allowance w' c o s = allowance w c o s).
Proof.
  intros [H1 H2]. unfold balance, supply, allowance.
  assert (∀ c, w_code w' !! c = w_code w !! c ∨
     ((∀ t, w_code w !! c ≠ Some (CTok t)) ∧ ((∀ t, w_code w' !! c ≠ Some (CTok t)) ∨ ∃ k o, w_code w' !! c = Some (CTok (new_token k o))))) as Hc.
  { intros c. destruct (w_code w !! c) as [[t|]|] eqn:E1.
    - left. apply H1. done.
    - destruct (w_code w' !! c) as [[t|]|] eqn:E2.
      + destruct (H2 c t E2) as [Ht|[Hn _]]; unfold is_token in *; congruence.
      + by left.
      + right. split; [done|]. by left.
    - destruct (w_code w' !! c) as [[t|]|] eqn:E2.
      + destruct (H2 c t E2) as [Ht|[Hn (k & o & ->)]]; unfold is_token in *; [congruence|].
        right. split; [done|]. right. eauto.
      + right. split; [done|]. by left.
      + by left. }
  split_and!; intros c; intros; destruct (Hc c) as [->|[Hx [Hy|(k & ow & ->)]]]; try done;
    repeat case_match; try done; try congruence; try (by destruct (Hx _ eq_refl)); try (by destruct (Hy _ eq_refl)).
Qed.

Lemma body_allow s o t t' : body s o t = Some t' →
  match o with
  | OApprove sp v => t_allow t' = <[(s, sp) := v]> (t_allow t)
  | _ => t_allow t' = t_allow t
  end.
Proof. destruct o; simpl; unfold tok_transfer, tok_mint, tok_burn; intros; simplify_option_eq; done. Qed.

(** The four facts about authority, for one call by an outsider. *)
Lemma call_authority E w self s o w' t : Inv E w → op_ok o → is_token w self t →
  s ≠ chain_addr → call_tok E w self s o = (true, w') → ∃ t', is_token w' self t' ∧
  (∀ a, bal t' a < bal t a → a = s ∨
        (bal t a - bal t' a <= allow t a s ∧ allow t' a s = allow t a s - (bal t a - bal t' a))) ∧
  (∀ ow sp, allow t' ow sp > allow t ow sp → ow = s ∧ o = OApprove sp (allow t' ow sp)) ∧
  (t_supply t' > t_supply t → s = t_owner t ∧ ∃ to v, o = OMint to v) ∧
  (t_owner t' ≠ t_owner t → s = t_owner t ∧ o = OTransferOwnership (t_owner t')).
Proof.
  intros Hi Ho Ht Hs Hc. rewrite (call_token _ _ _ _ _ _ Ht) in Hc.
  destruct (guards E w s o t) as [t1|] eqn:Hg; [|done]. cbv zeta in Hc.
  set (w1 := match op_recipient o with Some r => store_modifier w self r | None => w end) in Hc.
  destruct (body s o t1) as [t2|] eqn:Hb; [|done]. injection Hc as <-.
  exists t2. split; [unfold is_token; simpl; by rewrite lookup_insert|].
  pose proof (iv_tok E w Hi self t Ht) as Htok.
  pose proof (guards_ok _ _ _ _ _ _ Htok Ho Hg) as Htok1.
  pose proof (guards_bal _ _ _ _ _ _ Hg) as (Eb & Es & Ek & Eo).
  pose proof (body_allow _ _ _ _ Hb) as Ea.
  assert (∀ a, bal t2 a = bal t a + credit s o a ∧ t_supply t2 = t_supply t + issue o) as He.
  { intros a. destruct (body_effect _ _ _ _ a Htok1 Ho Hb) as [-> ->].
    unfold bal. rewrite Eb, Es. done. }
  assert (t_owner t2 = match o with OTransferOwnership n => n | _ => t_owner t end) as Eow.
  { rewrite <- Eo. destruct o; simpl in Hb; unfold tok_transfer, tok_mint, tok_burn in Hb; simplify_option_eq; done. }
  split_and!.
  - intros a Hlt. destruct (He a) as [Hba _]. rewrite Hba in *.
    destruct o; simpl in *; unfold if_eq in *; try lia; unfold amount_ok in *;
      try (left; repeat case_bool_decide; subst; try done; lia).
    + (* transferFrom *)
      destruct (is_blocked E w to); [done|].
      destruct (sub256 (allow t from s) v) as [al|] eqn:Hsub; [|done]. injection Hg as <-.
      apply sub256_some in Hsub as [-> Hle]. right.
      repeat case_bool_decide; subst; try lia. split; [lia|].
      unfold allow at 1. rewrite Ea. simpl. rewrite lookup_insert. simpl. lia.
    + destruct (is_module w from); [done|].
      destruct (sub256 (allow t from s) v) as [al|] eqn:Hsub; [|done]. injection Hg as <-.
      apply sub256_some in Hsub as [-> Hle]. right.
      repeat case_bool_decide; subst; try lia. split; [lia|].
      unfold allow at 1. rewrite Ea. simpl. rewrite lookup_insert. simpl. lia.
    + destruct (t_kind t); [|done]. rewrite bool_decide_eq_false_2 in Hg by done. done.
  - intros ow sp Hgt.
    assert (∀ k v v', (0 <= v) → t_allow t1 = <[k := allow t k.1 k.2 - v]> (t_allow t) → t_allow t2 = t_allow t1 →
              allow t2 ow sp > allow t ow sp → v' = v → False) as Hdec.
    { intros k v v' Hv E1 E2 Hg' _. unfold allow at 1 in Hg'. rewrite E2, E1 in Hg'.
      destruct (decide (k = (ow, sp))) as [->|Hk].
      - rewrite lookup_insert in Hg'. simpl in Hg'. lia.
      - rewrite lookup_insert_ne in Hg' by done. unfold allow in Hg'. lia. }
    destruct o; simpl in *; unfold amount_ok in *.
    all: try (rewrite bool_decide_eq_false_2 in Hg by done; done).
    all: try (assert (t1 = t) as -> by (repeat case_match; simplify_eq; done);
              unfold allow in Hgt; rewrite Ea in Hgt; lia).
    + (* approve *) injection Hg as <-. unfold allow in *. rewrite Ea in *.
      destruct (decide ((s, spender) = (ow, sp))) as [[= -> ->]|Hne].
      * rewrite lookup_insert. simpl. done.
      * rewrite lookup_insert_ne in Hgt by done. lia.
    + destruct (is_blocked E w to); [done|].
      destruct (sub256 (allow t from s) v) as [al|] eqn:Hsub; [|done]. injection Hg as <-.
      apply sub256_some in Hsub as [-> Hle].
      destruct (Hdec (from, s) v v); try done; lia.
    + destruct (is_module w from); [done|].
      destruct (sub256 (allow t from s) v) as [al|] eqn:Hsub; [|done]. injection Hg as <-.
      apply sub256_some in Hsub as [-> Hle].
      destruct (Hdec (from, s) v v); try done; lia.
  - intros Hgt. destruct (He s) as [_ Hsu]. rewrite Hsu in Hgt.
    destruct o; simpl in *; unfold amount_ok in *; try lia.
    + destruct (is_blocked E w to); [done|]. case_bool_decide; [|done]. eauto.
    + destruct (t_kind t); [|done]. rewrite bool_decide_eq_false_2 in Hg by done. done.
  - intros Hne. rewrite Eow in *. destruct o; try done. simpl in Hg.
    case_bool_decide; [|done]. done.
Qed.

(** ** An example chain *)

Definition x_factory : bytes := replicate 19 0%N ++ [250%N].
Definition x_alice : bytes := replicate 19 1%N ++ [10%N].
Definition x_bob : bytes := replicate 19 1%N ++ [11%N].
Definition x_module : bytes := replicate 19 2%N ++ [1%N].
Definition x_collector : bytes := replicate 19 2%N ++ [2%N].
Definition x_contract : bytes := replicate 19 3%N ++ [1%N].
Definition x_env : env :=
  Env x_factory (fun n => replicate 12 7%N ++ be 8 n) (fun a => bool_decide (a = x_collector)).
Definition x_init : world :=
  World {[ x_factory := CCustom ]} 1 ∅ ∅
    {[ x_module := Acct 0 0 false KModule; x_collector := Acct 1 0 false KModule ]} 2 ∅ ∅ (Policy true []).
Definition x_call : caller := fun w c o => call_tok x_env w c chain_addr o.
Definition x_stake : text := txt "stake".
Definition x_foo : text := txt "foo".

Lemma x_call_ok : chain_calls x_env x_call.
Proof.
  intros w c o. unfold x_call, call_tok. destruct (w_code w !! c) as [[t|]|]; try done.
Qed.
Lemma be_length k n : length (be k n) = k.
Proof. revert n. induction k; intros n; simpl; [done|]. rewrite app_length, IHk. simpl. lia. Qed.
Lemma be_ok k n : bytes_ok (be k n).
Proof.
  revert n. induction k; intros n; simpl; [constructor|]. apply Forall_app. split; [apply IHk|].
  constructor; [|constructor]. apply N.mod_lt. lia.
Qed.
Lemma x_env_ok : env_ok x_env.
Proof.
  intros n. split.
  - change (length (replicate 12 7%N ++ be 8 n) = 20%nat). rewrite app_length, be_length, replicate_length. done.
  - change (bytes_ok (replicate 12 7%N ++ be 8 n)). apply Forall_app. split; [|apply be_ok]. apply Forall_replicate. lia.
Qed.
Lemma x_initial : initial x_env x_init.
Proof.
  split_and!; try done. intros c t. unfold is_token. simpl. intros H%lookup_singleton_Some. naive_solver.
Qed.
Lemma x_reachable w : rtc (step x_env) x_init w → reachable x_env w.
Proof. intros H. split; [apply x_env_ok|]. exists x_init. split; [apply x_initial|done]. Qed.

(** The module account mints 100 stake and 40 foo and passes 60 stake to alice. *)
Definition x_bank (r : option restriction) : bank_env :=
  BankEnv x_env x_call r (fun _ => true)
    {[ txt "mint" := (x_module, [PMinter; PBurner]); txt "fee_collector" := (x_collector, []) ]}
    (txt "fee_collector") (txt "gov").
Definition x_w1 : world := snd (b_mint_coins (x_bank None) x_init (txt "mint") [Coin x_foo 40; Coin x_stake 100]).
Definition x_w2 : world := snd (b_send_coins (x_bank None) x_w1 x_module x_alice [Coin x_stake 60]).
Lemma x_w1_steps : rtc (step x_env) x_init x_w1.
Proof. apply (b_mint_steps (x_bank None)), x_call_ok. Qed.
Lemma x_w2_steps : rtc (step x_env) x_init x_w2.
Proof. etrans; [apply x_w1_steps|]. apply (b_send_steps x_env (x_bank None)), x_call_ok. Qed.
Definition x_stake_at : bytes := e_create x_env 2.
Definition x_foo_at : bytes := e_create x_env 1.
