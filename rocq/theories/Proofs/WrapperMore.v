(** Allowances given by the wrapper, in any history; unwrap and wrap seen whole. *)
From Verif.Base Require Import Prelude Hex Dec Json.
From Verif.Model Require Import Token Bank Wrapper.
From Verif.Spec Require Import TokenSpec WrapperSpec.
From Verif.Proofs Require Import HexP TokenP BankP TokenMore WrapperP WrapperInv.
Open Scope Z_scope.
Local Arguments ibc_text : simpl never.
Local Arguments execute_cosmos : simpl never.
Local Arguments transfer_text : simpl never.
Local Arguments decode_transfer : simpl never.
Local Arguments dec_of : simpl never.
Local Arguments contract_to_denom : simpl never.

Definition approves (o : op) : Prop := match o with OApprove _ _ => True | _ => False end.
Definition nonneg_from (o : op) : Prop :=
  match o with OTransferFrom _ _ v | OBurnFrom _ v => 0 <= v | _ => True end.

(** A call that is not an approval by [me] leaves [me] without allowances. *)
Lemma allow_zero_body me s o t t1 t2 E w : nonneg_from o → (approves o → s ≠ me) →
  (∀ sp, allow t me sp = 0) → guards E w s o t = Some t1 → body s o t1 = Some t2 → ∀ sp, allow t2 me sp = 0.
Proof.
  intros Hn Ha H0 Hg Hb. pose proof (body_allow _ _ _ _ Hb) as Hal.
  assert (∀ f v, 0 <= v → (a ← sub256 (allow t f s) v; Some (set_allow t f s a)) = Some t1 →
     t_allow t2 = t_allow t1 → ∀ sp, allow t2 me sp = 0) as Hfrom.
  { intros f v Hv Hs E2 sp. destruct (sub256 (allow t f s) v) as [x|] eqn:Es; [|done]. injection Hs as <-.
    apply sub256_some in Es as [-> Hle].
    unfold allow. rewrite E2. simpl. destruct (decide ((f, s) = (me, sp))) as [[= -> ->]|Hne].
    + rewrite lookup_insert. simpl. rewrite H0 in *. lia.
    + rewrite lookup_insert_ne by done. apply H0. }
  unfold allow in *. destruct o; simpl in *.
  - destruct (is_blocked _ _ _); [done|]. injection Hg as <-. rewrite Hal. apply H0.
  - injection Hg as <-. rewrite Hal. intros sp. rewrite lookup_insert_ne by naive_solver. apply H0.
  - destruct (is_blocked _ _ _); [done|]. eauto.
  - destruct (is_blocked _ _ _); [done|]. destruct (bool_decide _); [|done]. injection Hg as <-. rewrite Hal. apply H0.
  - destruct (is_module _ _); [done|]. injection Hg as <-. rewrite Hal. apply H0.
  - destruct (is_module _ _); [done|]. eauto.
  - destruct (bool_decide _); [|done]. injection Hg as <-. rewrite Hal. apply H0.
  - destruct (t_kind t); [|done]. destruct (bool_decide _); [|done]. injection Hg as <-. rewrite Hal. apply H0.
  - destruct (t_kind t); [|done]. destruct (bool_decide _); [|done]. injection Hg as <-. rewrite Hal. apply H0.
  - destruct (_ && _); [|done]. injection Hg as <-. rewrite Hal. apply H0.
Qed.

Definition unspent (me : bytes) (w : world) (c : bytes) : Prop :=
  ∃ t, is_token w c t ∧ ∀ sp, allow t me sp = 0.

Lemma unspent_call me E w c s o x : nonneg_from o → (approves o → s ≠ me) →
  unspent me w x → unspent me (snd (call_tok E w c s o)) x.
Proof.
  intros Hn Ha (t & Ht & H0). destruct (call_tok E w c s o) as [ok w'] eqn:Hc. simpl.
  destruct (call_cases _ _ _ _ _ _ _ Hc) as [Hsame|(_ & tc & t1 & t2 & Htk & Hg & Hb & Hw)].
  - exists t. unfold is_token in *. by rewrite Hsame.
  - unfold unspent, is_token in *. rewrite Hw. destruct (decide (c = x)) as [->|].
    + rewrite lookup_insert. exists t2. split; [done|]. rewrite Htk in Ht. injection Ht as ->.
      by eapply allow_zero_body.
    + rewrite lookup_insert_ne by done. eauto.
Qed.

Section more.
Context (V : wenv) (HV : wenv_ok V).
Notation E := (we_env V).
Notation me := (we_self V).

(** In any history, whatever texts are passed to wrap. *)
Record AI (s : wst) : Prop := {
  ai_tok : ∀ c x, ws_origin s !! c = Some x → unspent me (ws_w s) c;
  ai_cb : ∀ id to d v, ws_cb s !! id = Some (to, d, v) → 0 <= v }.

Lemma ai_world s w' : AI s → (∀ x, unspent me (ws_w s) x → unspent me w' x) → AI (put_w s w').
Proof. intros [] H. split; simpl; eauto. Qed.
Lemma ai_call s c sd o : AI s → nonneg_from o → (approves o → sd ≠ me) →
  AI (put_w s (snd (call_tok E (ws_w s) c sd o))).
Proof. intros HA Hn Ha. apply ai_world; [done|]. intros x. by apply unspent_call. Qed.
Lemma ai_wcall s c o s' : AI s → nonneg_from o → ¬ approves o → wcall V s c o = Some s' → AI s'.
Proof.
  intros HA Hn Hap H. apply wcall_some in H as (w' & Hc & ->).
  pose proof (ai_call s c me o HA Hn ltac:(done)) as H. by rewrite Hc in H.
Qed.
Lemma ai_create s tok s' : AI s → create_wrapped V s tok = Some s' → AI s'.
Proof.
  intros [Ht Hcb] H. unfold create_wrapped in H. destruct (factory_create E (ws_w s) me) as [[c w1]|] eqn:Hf; [|done].
  simpl in H. injection H as <-.
  pose proof (factory_create_eq _ _ _ _ _ Hf) as (Ec & Hnone & _).
  destruct (factory_create_effect _ _ _ _ _ Hf) as (_ & _ & _ & _ & Hoth & Hnew).
  split; simpl; [|done]. intros c' x. destruct (decide (c = c')) as [<-|Hne].
  - intros _. exists (new_token KERC20 me). split; [done|]. intros sp. unfold allow. simpl. by rewrite lookup_empty.
  - rewrite lookup_insert_ne by done. intros Hx. destruct (Ht _ _ Hx) as (t & Htk & Hz).
    exists t. split; [|done]. unfold is_token in *. rewrite Hoth; [done|]. congruence.
Qed.
Lemma ai_exec s t s' : AI s → execute_cosmos V s t = Some s' → AI s'.
Proof.
  intros [] H. unfold execute_cosmos in H. destruct (decode_transfer _ t) as [m|]; [|done]. cbn [mbind option_bind] in H.
  destruct (bool_decide _); [|done]. injection H as <-. done.
Qed.
Lemma ai_finish s sd ch tok rcv v tm s' : AI s → 0 <= v → finish_wrap V s sd ch tok rcv v tm = Some s' → AI s'.
Proof.
  intros HA Hv H. unfold finish_wrap in H. destruct (ws_wrapped s !! tok) as [c|]; [|done]. cbn [mbind option_bind] in H.
  destruct (wcall V s c (OMint me v)) as [s1|] eqn:Hc; [|done]. cbn [mbind option_bind] in H.
  pose proof (ai_wcall _ _ (OMint me v) _ HA I (fun x => x) Hc) as HA1.
  destruct (ws_id s1 + 1 <? two64)%N; [|done]. eapply ai_exec; [|exact H].
  destruct HA1. split; simpl; [done|]. intros id to d v'. destruct (decide ((ws_id s1 + 1)%N = id)) as [<-|].
  - rewrite lookup_insert. intros [= <- <- <-]. done.
  - rewrite lookup_insert_ne by done. apply ai_cb0.
Qed.
Lemma ai_unwrap s sd d r v s' : AI s → 0 <= v → unwrap V s sd d r v = Some s' → AI s'.
Proof.
  intros HA Hv H. unfold unwrap in H. destruct (denom_to_contract (ws_w s) d) as [c|]; [|done]. simpl in H.
  destruct (ws_origin s !! c) as [x|]; [|done]. simpl in H.
  destruct (wcall V s c (OBurnFrom sd v)) as [s1|] eqn:Hb; [|done]. simpl in H.
  destruct (convert_decimal _ _ _) as [a|]; [|done]. simpl in H.
  refine (ai_wcall s1 _ (OTransfer r a) _ _ I (fun x0 => x0) H).
  exact (ai_wcall _ _ (OBurnFrom sd v) _ HA Hv (fun x => x) Hb).
Qed.
Lemma ai_failed s sd id s' : AI s → handle_failed V s sd id = Some s' → AI s'.
Proof.
  intros HA H. unfold handle_failed in H. destruct (ws_cb s !! id) as [[[to d] v]|] eqn:Hcb; simpl in H.
  - refine (ai_unwrap _ _ _ _ _ _ HA _ H). eapply ai_cb; eauto.
  - refine (ai_unwrap _ _ _ _ _ _ HA _ H). lia.
Qed.
Lemma ai_step ok s s' : AI s → wstep V ok s s' → AI s'.
Proof.
  intros HA H. destruct H.
  - unfold wrap in H3. destruct (ensure_wrapped V s tok) as [s1|] eqn:He; [|done]. cbn [mbind option_bind] in H3.
    assert (AI s1) as HA1.
    { unfold ensure_wrapped in He. destruct (ws_wrapped s !! tok); [by injection He as <-|]. by eapply ai_create. }
    destruct (wcall V s1 tok (OTransferFrom sender me a)) as [s2|] eqn:Hc; [|done]. cbn [mbind option_bind] in H3.
    pose proof (ai_wcall _ _ (OTransferFrom sender me a) _ HA1 (proj1 H1) (fun x => x) Hc) as HA2.
    destruct (convert_decimal _ _ _) as [v|] eqn:Hcv; [|done]. cbn [mbind option_bind] in H3.
    refine (ai_finish _ _ _ _ _ _ _ _ HA2 _ H3).
    destruct HV as (_&_&_&_&Hd). specialize (Hd tok).
    eapply (convert_ok a); [| |exact H1|exact Hcv]; [lia|done].
  - exact (ai_unwrap _ _ _ _ _ _ HA (proj1 H) H0).
  - unfold ibc_ack in H. destruct b; [by injection H as <-|]. exact (ai_failed _ _ _ _ HA H).
  - exact (ai_failed _ _ _ _ HA H).
  - unfold dispatch_one in H. destruct (ws_q s) as [|m q]; [done|]. destruct (we_accept V m); [|done].
    destruct (denom_to_contract (ws_w s) (im_denom m)) as [c|]; [|done]. cbn [mbind option_bind] in H.
    match type of H with context [call_tok ?a ?b ?c ?d ?e] => pose proof (ai_call s c d e HA I (fun f => False_ind _ f)) as HA1; destruct (call_tok a b c d e) as [r w'] end.
    destruct r; [|done]. injection H as <-. destruct HA1. done.
  - apply ai_call; [done| |done]. destruct o; simpl in *; try done; by destruct H1.
  - by apply ai_call.
  - by apply ai_call.
  - by apply ai_call.
  - apply ai_world; [done|]. intros x (t & Ht & Hz). exists t. split; [by apply H0|done].
  - by eapply ai_create.
  - exact (ai_finish _ _ _ _ _ _ _ _ HA (proj1 H1) H3).
  - exact (ai_wcall _ _ (OBurnFrom sender v) _ HA (proj1 H) (fun x => x) H2).
Qed.
Lemma ai_steps ok s s' : AI s → rtc (wstep V ok) s s' → AI s'.
Proof. intros HI H. induction H; eauto using ai_step. Qed.
Lemma ai_fresh s : wfresh V s → AI s.
Proof.
  intros (_ & _ & H2 & H3 & _). split.
  - intros c x. by rewrite H2, lookup_empty.
  - intros id to d v. by rewrite H3, lookup_empty.
Qed.

Lemma convert_zero d d' : convert_decimal 0 d d' = None.
Proof.
  destruct (convert_decimal 0 d d') eqn:H; [|done]. by apply convert_pos in H.
Qed.

(** The wrapper cannot redeem its own wrapped tokens. *)
Lemma self_unwrap s d r v : AI s → 0 <= v → unwrap V s me d r v = None.
Proof.
  intros HA Hv. unfold unwrap. destruct (denom_to_contract (ws_w s) d) as [c|]; [|done]. simpl.
  destruct (ws_origin s !! c) as [x|] eqn:Hx; [|done]. simpl.
  destruct (decide (v = 0)) as [->|].
  - destruct (wcall _ _ _ _); [|done]. simpl. by rewrite convert_zero.
  - destruct (ai_tok _ HA _ _ Hx) as (t & Ht & Hz). unfold wcall. rewrite (call_token _ _ _ _ _ _ Ht). simpl.
    destruct (is_module _ _); [done|]. rewrite Hz, sub256_no by lia. done.
Qed.
End more.
