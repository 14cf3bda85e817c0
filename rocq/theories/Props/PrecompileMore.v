(** C96, C97: what each precompile method does and answers (Model/Precompile.v). *)
From Verif.Base Require Import Prelude Hex Layers.
From Verif.Model Require Import Token Bank Precompile.
From Verif.Spec Require Import TokenSpec BankSpec.
From Verif.Proofs Require Import HexP TokenP BankP BankMore TokenMore PrecompileP.
From Verif.Props Require Import BankProps PrecompileProps.
Open Scope N_scope.

(** ** Inverting metered runs *)
Section inv.
Context {S : Type}.
Lemma then_ok {A B} (x : metered S A) (f : A → metered S B) lim u s b u2 s2 :
  mthen x f lim u s = MOk b u2 s2 → ∃ a u1 s1, x lim u s = MOk a u1 s1 ∧ f a lim u1 s1 = MOk b u2 s2.
Proof. unfold mthen. destruct (x lim u s); try done. intros H. eexists _, _, _. split; [reflexivity|exact H]. Qed.
Lemma then_err {A B} (x : metered S A) (f : A → metered S B) lim u s u2 s2 :
  mthen x f lim u s = MErr u2 s2 → x lim u s = MErr u2 s2 ∨ ∃ a u1 s1, x lim u s = MOk a u1 s1 ∧ f a lim u1 s1 = MErr u2 s2.
Proof. unfold mthen. destruct (x lim u s); try done; intros H; [right; eexists _, _, _; split; [reflexivity|exact H]|left; congruence]. Qed.
Lemma charge_ok n lim u (s : S) a u1 s1 : charge n lim u s = MOk a u1 s1 → s1 = s.
Proof. unfold charge. destruct (lim <? u + n); [done|]. congruence. Qed.
Lemma charge_err n lim u (s : S) u1 s1 : charge n lim u s ≠ MErr u1 s1.
Proof. unfold charge. by destruct (lim <? u + n). Qed.
(** An error leaves the state alone. *)
Definition clean {A} (m : metered S A) : Prop := ∀ lim u s u' s', m lim u s = MErr u' s' → s' = s.
Lemma clean_pure {A} (m : metered S A) : pure m → clean m.
Proof. intros H lim u s u' s' E. specialize (H lim u s). rewrite E in H. done. Qed.
(** The continuation of something that does not change the state. *)
Lemma clean_then {A B} (x : metered S A) (f : A → metered S B) : pure x → (∀ a, clean (f a)) → clean (mthen x f).
Proof.
  intros Hx Hf lim u s u' s' [E|(a & u1 & s1 & E1 & E2)]%then_err; [by eapply clean_pure|].
  apply Hf in E2. specialize (Hx lim u s). rewrite E1 in Hx. cbn in Hx. congruence.
Qed.
(** Something without errors. *)
Definition errless {A} (m : metered S A) : Prop := ∀ lim u s u' s', m lim u s ≠ MErr u' s'.
Lemma errless_clean {A} (m : metered S A) : errless m → clean m.
Proof. intros H lim u s u' s' E. by apply H in E. Qed.
Lemma errless_then {A B} (x : metered S A) (f : A → metered S B) : errless x → (∀ a, errless (f a)) → errless (mthen x f).
Proof. intros Hx Hf lim u s u' s' [E|(a & u1 & s1 & _ & E2)]%then_err; [by apply Hx in E|by apply Hf in E2]. Qed.
End inv.

Section props.
Context {msg : Type} (P : penv msg).
Context (rdec : bytes → option rcall) (cdec : bytes → option ccall).
Notation registry := (extended_run (r_body P) rdec).
Notation cosmos := (extended_run (c_body P) cdec).

Lemma acc_ok a lim u (s : pstate msg) x u1 s1 : acc P a lim u s = MOk x u1 s1 → s1 = s.
Proof. unfold acc. apply charge_ok. Qed.
Lemma errless_acc a : errless (acc P a).
Proof. intros lim u s u' s' H. unfold acc in H. by apply charge_err in H. Qed.

(** Peel one step off a successful run. *)
Ltac peel H :=
  let a := fresh "a" in let u := fresh "u" in let s := fresh "s" in let E := fresh "E" in
  apply then_ok in H as (a & u & s & E & H);
  first [apply acc_ok in E; subst s | apply charge_ok in E; subst s
        | unfold look in E; injection E as <- <- <- | unfold change in E; injection E as <- <- <- | idtac].

Lemma run_ok {C} (body : bytes → N → bool → C → metered (pstate msg) pout) dec caller input gas ro s o :
  pr_out (extended_run body dec caller input gas ro s) = Some o →
  ∃ c u, dec input = Some c ∧ body caller (N.of_nat (length input)) ro c gas 0 s = MOk o u (pr_state (extended_run body dec caller input gas ro s)).
Proof.
  unfold extended_run. destruct (dec input) as [c|]; [|done].
  destruct (body caller (N.of_nat (length input)) ro c gas 0 s) as [a u s'|u s'|s'] eqn:E; cbn; [|done|done].
  intros [= <-]. exists c, u. done.
Qed.

(** ** C96: the registry precompile *)
(** registerERC20: a token registers itself, and only where custom tokens are allowed. *)
Theorem C96_register caller input gas ro s : rdec input = Some RRegister →
  let r := registry caller input gas ro s in
  pr_out r ≠ None →
  pr_out r = Some (OBool true) ∧ ro = false ∧ p_allow_custom (w_policy (ps_w s)) = true ∧
  (caller ∈ w_reg (ps_w s) ∨ p_allowed (w_policy (ps_w s)) = [] ∨ caller ∈ p_allowed (w_policy (ps_w s))) ∧
  pr_state r = PState (upd_reg (ps_w s) (fun reg => {[caller]} ∪ reg)) (ps_q s).
Proof.
  intros Hd r Ho. destruct (pr_out r) as [o|] eqn:Eo; [|done]. apply run_ok in Eo as (c & u & Hc & H). fold r in H.
  rewrite Hd in Hc. injection Hc as <-. unfold r_body in H. peel H. peel H. unfold guard_ro in H. destruct ro; [done|].
  peel H. unfold g_register in E. injection H as <- _ Hs. rewrite <- Hs. clear Hs. peel E. peel E. 
  destruct (p_allow_custom (w_policy (ps_w s))) eqn:Ep; [cbn [negb] in E|done]. peel E. peel E.
  destruct (bool_decide (caller ∈ w_reg (ps_w s))) eqn:Er.
  - injection E as _ _ <-. apply bool_decide_eq_true in Er. split_and!; try done; [by left|].
    destruct s as [w q]. cbn in *. f_equal. destruct w; cbn in *; unfold upd_reg; cbn. f_equal. set_solver.
  - destruct (_ || _) eqn:Ea in E; [|done]. peel E. unfold change in E. injection E as _ _ <-.
    split_and!; try done. right. apply orb_true_iff in Ea as [Ea|Ea]; apply bool_decide_eq_true in Ea; auto.
Qed.
(** registerERC20FromFactory: only the factory, for any token. *)
Theorem C96_register_from_factory caller input gas ro s t : rdec input = Some (RFromFactory t) →
  let r := registry caller input gas ro s in
  pr_out r ≠ None →
  pr_out r = Some (OBool true) ∧ ro = false ∧ caller = e_factory (pe_env P) ∧
  pr_state r = PState (upd_reg (ps_w s) (fun reg => {[t]} ∪ reg)) (ps_q s).
Proof.
  intros Hd r Ho. destruct (pr_out r) as [o|] eqn:Eo; [|done]. apply run_ok in Eo as (c & u & Hc & H). fold r in H.
  rewrite Hd in Hc. injection Hc as <-. unfold r_body in H. peel H. peel H. unfold guard_ro in H. destruct ro; [done|].
  peel H. unfold g_register_from_factory in E. injection H as <- _ Hs. rewrite <- Hs. clear Hs. peel E.
  destruct (bool_decide (e_factory (pe_env P) = caller)) eqn:Ef in E; [|done]. apply bool_decide_eq_true in Ef.
  peel E. unfold change in E. injection E as _ _ <-. done.
Qed.
(** registerERC20Store: the calling token makes [a] one of its holders, and nobody else's: a
    missing account is created with the next number; an unregistered caller changes nothing. *)
Theorem C96_register_store caller input gas ro s a : rdec input = Some (RStore a) →
  let r := registry caller input gas ro s in
  pr_out r ≠ None →
  pr_out r = Some (OBool true) ∧ ro = false ∧
  (caller ∉ w_reg (ps_w s) → pr_state r = s) ∧
  (caller ∈ w_reg (ps_w s) →
     let w := ps_w s in let w' := ps_w (pr_state r) in
     ps_q (pr_state r) = ps_q s ∧ w_stores w' = {[(a, caller)]} ∪ w_stores w ∧
     (is_Some (w_accts w !! a) → w_accts w' = w_accts w ∧ w_nextnum w' = w_nextnum w) ∧
     (w_accts w !! a = None → w_accts w' = <[a := Acct (w_nextnum w) 0 false KBase]> (w_accts w) ∧ w_nextnum w' = w_nextnum w + 1)).
Proof.
  intros Hd r Ho. destruct (pr_out r) as [o|] eqn:Eo; [|done]. apply run_ok in Eo as (c & u & Hc & H). fold r in H.
  rewrite Hd in Hc. injection Hc as <-. unfold r_body in H. peel H. peel H. unfold guard_ro in H. destruct ro; [done|].
  peel H. injection H as <- _ Hs. rewrite <- Hs. clear Hs. unfold g_register_store in E. peel E. peel E.
  split; [done|]. split; [done|].
  destruct (bool_decide (caller ∈ w_reg (ps_w s))) eqn:Er; cbn [negb] in E.
  2: { apply bool_decide_eq_false in Er. injection E as _ _ <-. done. }
  apply bool_decide_eq_true in Er. split; [done|]. intros _. peel E. peel E.
  destruct (bool_decide (is_Some (w_accts (ps_w s) !! a))) eqn:Ea.
  - apply bool_decide_eq_true in Ea. apply then_ok in E as (x & ux & sx & Ex & E). injection Ex as _ _ <-. peel E. unfold change in E. injection E as _ _ <-.
    cbn. split; [done|]. split; [done|]. split; [done|]. intros Hn. rewrite Hn in Ea. by destruct Ea.
  - apply bool_decide_eq_false in Ea. apply then_ok in E as (x & ux & sx & Ex & E). peel Ex. peel Ex. peel Ex. peel Ex.
    unfold change in Ex. injection Ex as _ _ <-. peel E. unfold change in E. injection E as _ _ <-. cbn.
    split; [done|]. split; [done|]. split; [done|]. done.
Qed.
(** isRegisteredERC20Store *)
Theorem C96_is_store caller input gas ro s a : rdec input = Some (RIsStore a) →
  let r := registry caller input gas ro s in
  pr_out r ≠ None → pr_state r = s ∧ ∃ b, pr_out r = Some (OBool b) ∧ (b = true ↔ (a, caller) ∈ w_stores (ps_w s)).
Proof.
  intros Hd r Ho. destruct (pr_out r) as [o|] eqn:Eo; [|done]. pose proof Eo as Eo'. apply run_ok in Eo as (c & u & Hc & H). fold r in H.
  rewrite Hd in Hc. injection Hc as <-. unfold r_body in H. peel H. peel H. peel H. peel H. unfold mret in H. injection H as <- _ <-.
  split; [done|]. eexists. split; [done|]. by rewrite bool_decide_eq_true.
Qed.
(** A call refused with an error changes nothing (one that runs out of gas may: C68). *)
Lemma clean_registry caller len ro c : clean (r_body P caller len ro c).
Proof.
  unfold r_body. apply clean_then; [apply pure_charge|]. intros _. apply clean_then; [apply pure_charge|]. intros _.
  destruct c as [|t|a|a]; unfold guard_ro; try (destruct ro; [by apply clean_pure|]).
  - intros lim u s u' s' [E|(? & ? & ? & _ & ?)]%then_err; [|done].
    assert (Hc : clean (g_register P caller)); [|by eapply Hc]. clear. unfold g_register.
    apply clean_then; [apply pure_acc|]. intros _. apply clean_then; [apply pure_look|]. intros pol.
    destruct (negb _); [by apply clean_pure|]. apply clean_then; [apply pure_acc|]. intros _. apply clean_then; [apply pure_look|]. intros f.
    destruct f; [by apply clean_pure|]. destruct (_ || _); [|by apply clean_pure]. apply errless_clean, errless_then; [apply errless_acc|done].
  - intros lim u s u' s' [E|(? & ? & ? & _ & ?)]%then_err; [|done].
    assert (Hc : clean (g_register_from_factory P caller t)); [|by eapply Hc]. clear. unfold g_register_from_factory.
    apply clean_then; [apply pure_acc|]. intros _. destruct (bool_decide _); [|by apply clean_pure]. apply errless_clean, errless_then; [apply errless_acc|done].
  - apply errless_clean. apply errless_then; [|done]. unfold g_register_store. apply errless_then; [apply errless_acc|]. intros _.
    apply errless_then; [done|]. intros []; cbn [negb]; [|done]. apply errless_then; [apply errless_acc|]. intros _. apply errless_then; [done|]. intros has.
    apply errless_then; [|intros _; apply errless_then; [apply errless_acc|done]]. destruct has; [done|].
    apply errless_then; [apply errless_acc|]. intros _. apply errless_then; [done|]. intros n. apply errless_then; [done|]. intros _. apply errless_then; [apply errless_acc|done].
  - apply errless_clean. apply errless_then; [apply errless_acc|]. intros _. apply errless_then; done.
Qed.
Lemma clean_cosmos caller len ro c : clean (c_body P caller len ro c).
Proof.
  assert (Ho : ∀ a, pure (g_origin P a)) by (intros a; apply pure_then; [apply pure_acc|intros; apply pure_look]).
  unfold c_body. apply clean_then; [apply pure_charge|]. intros _. apply clean_then; [apply pure_charge|]. intros _.
  destruct c as [a|a|a|t|t|path req|t|d].
  - apply clean_then; [apply Ho|]. intros. by apply clean_pure.
  - apply clean_then; [apply Ho|]. intros. apply clean_then; [apply pure_acc|]. intros. apply clean_then; [apply pure_look|]. intros. by apply clean_pure.
  - destruct (pe_to_str P a); by apply clean_pure.
  - destruct (pe_of_str P t); [destruct (_ =? _)%nat|]; by apply clean_pure.
  - unfold guard_ro. destruct ro; [by apply clean_pure|]. destruct (pe_decode_msg P t) as [m|]; [|by apply clean_pure].
    destruct (pe_signers P m); [|by apply clean_pure]. apply clean_then; [apply Ho|]. intros o. destruct (forallb _ _); [|by apply clean_pure].
    apply errless_clean, errless_then; done.
  - destruct (negb _); [by apply clean_pure|]. destruct (negb _); [by apply clean_pure|]. apply clean_then; [apply pure_acc|]. intros.
    apply clean_then; [apply pure_look|]. intros []; by apply clean_pure.
  - apply clean_then; [apply pure_acc|]. intros. apply clean_then; [apply pure_look|]. intros. by apply clean_pure.
  - apply clean_then; [apply pure_acc|]. intros. apply clean_then; [apply pure_look|]. intros []; by apply clean_pure.
Qed.
Theorem C96_error_changes_nothing caller input gas ro s :
  (pr_err (registry caller input gas ro s) = true → pr_state (registry caller input gas ro s) = s) ∧
  (pr_err (cosmos caller input gas ro s) = true → pr_state (cosmos caller input gas ro s) = s).
Proof.
  unfold extended_run. split.
  - destruct (rdec input) as [c|]; [|done]. destruct (r_body _ _ _ _ _ _ _ _) eqn:E; cbn; [done| |done]. intros _. by apply clean_registry in E.
  - destruct (cdec input) as [c|]; [|done]. destruct (c_body _ _ _ _ _ _ _ _) eqn:E; cbn; [done| |done]. intros _. by apply clean_cosmos in E.
Qed.

(** A call ends with an error only if there is a reason: otherwise it answers or runs out of
    the supplied gas. *)
Definition registry_allows (s : pstate msg) (caller : bytes) (ro : bool) (c : rcall) : Prop :=
  match c with
  | RRegister => ro = false ∧ p_allow_custom (w_policy (ps_w s)) = true ∧
      (caller ∈ w_reg (ps_w s) ∨ p_allowed (w_policy (ps_w s)) = [] ∨ caller ∈ p_allowed (w_policy (ps_w s)))
  | RFromFactory _ => ro = false ∧ caller = e_factory (pe_env P)
  | RStore _ => ro = false
  | RIsStore _ => True
  end.
Ltac peel_err H :=
  let E := fresh "E" in let a := fresh "a" in let u := fresh "u" in let s := fresh "s" in
  apply then_err in H as [E|(a & u & s & E & H)];
  [first [by apply errless_acc in E | by apply charge_err in E | done]
  |first [apply acc_ok in E; subst s | apply charge_ok in E; subst s | unfold look in E; injection E as <- <- <-]].
Theorem C96_refused_for_a_reason caller input gas ro s c : rdec input = Some c → registry_allows s caller ro c →
  pr_err (registry caller input gas ro s) = false.
Proof.
  intros Hd Ha. unfold extended_run. rewrite Hd. destruct (r_body _ _ _ _ _ _ _ _) as [|u' s'|] eqn:E; [done| |done]. exfalso.
  unfold r_body in E. peel_err E. peel_err E. destruct c as [|t|ad|ad]; unfold guard_ro in E.
  - destruct Ha as (-> & Hp & Hl). apply then_err in E as [E|(? & ? & ? & _ & E)]; [|done]. unfold g_register in E.
    peel_err E. peel_err E. rewrite Hp in E. cbn [negb] in E. peel_err E. peel_err E.
    destruct (bool_decide (caller ∈ w_reg (ps_w s))) eqn:Er; [done|]. apply bool_decide_eq_false in Er.
    assert (bool_decide (p_allowed (w_policy (ps_w s)) = []) || bool_decide (caller ∈ p_allowed (w_policy (ps_w s))) = true)%bool as Hb.
    { apply orb_true_iff. rewrite !bool_decide_eq_true. naive_solver. }
    rewrite Hb in E. peel_err E. done.
  - destruct Ha as [-> ->]. apply then_err in E as [E|(? & ? & ? & _ & E)]; [|done]. unfold g_register_from_factory in E. peel_err E.
    rewrite bool_decide_eq_true_2 in E by done. peel_err E. done.
  - cbn in Ha. subst ro. revert E. match goal with |- ?m _ _ _ = _ → _ => enough (errless m) as Hm by apply Hm end.
    apply errless_then; [|done]. unfold g_register_store. apply errless_then; [apply errless_acc|]. intros _.
    apply errless_then; [done|]. intros []; cbn [negb]; [|done]. apply errless_then; [apply errless_acc|]. intros _. apply errless_then; [done|]. intros has.
    apply errless_then; [|intros _; apply errless_then; [apply errless_acc|done]]. destruct has; [done|].
    apply errless_then; [apply errless_acc|]. intros _. apply errless_then; [done|]. intros n. apply errless_then; [done|]. intros _. apply errless_then; [apply errless_acc|done].
  - peel_err E. peel_err E. done.
Qed.

(** ** C97: the cosmos precompile *)
(** What a successful call answers. Nothing but execute_cosmos changes anything, and that one
    only the queue (C39). A query is passed on only if it is on the chain's whitelist and a
    handler exists. *)
Definition cosmos_answer (s : pstate msg) (caller : bytes) (c : ccall) (o : pout) : Prop :=
  let w := ps_w s in
  match c with
  | CIsBlocked a => o = OBool (e_blocked (pe_env P) (origin_of w a))
  | CIsModule a => ∃ b, o = OBool b ∧ (b = true ↔ ∃ n q i, w_accts w !! origin_of w a = Some (Acct n q i KModule))
  | CToCosmos a => ∃ t, o = OText t ∧ pe_to_str P a = Some t
  | CToEvm t => ∃ a, o = OAddr a ∧ pe_of_str P t = Some a ∧ length a = 20%nat
  | CExecute t => o = OBool true ∧ ∃ m sg, pe_decode_msg P t = Some m ∧ pe_signers P m = Some sg ∧ ∀ x, x ∈ sg → x = origin_of w caller
  | CQuery path req => ∃ t, o = OText t ∧ pe_white P path = true ∧ pe_route P path = true ∧ pe_query P path req s = Some t
  | CToDenom t => o = OText (contract_to_denom (pe_ck P) w t)
  | CToErc20 d => ∃ a, o = OAddr a ∧ denom_to_contract w d = Some a
  end.
Theorem C97_answers caller input gas ro s c : cdec input = Some c →
  let r := cosmos caller input gas ro s in
  ∀ o, pr_out r = Some o →
  cosmos_answer s caller c o ∧
  (∀ t, c = CExecute t → ∃ m, pe_decode_msg P t = Some m ∧ pr_state r = PState (ps_w s) (ps_q s ++ [m])) ∧
  ((∀ t, c ≠ CExecute t) → pr_state r = s).
Proof.
  intros Hd r o Eo. apply run_ok in Eo as (c' & u & Hc & H). fold r in H.
  rewrite Hd in Hc. injection Hc as <-. unfold c_body in H. peel H. peel H.
  destruct c as [addr|addr|addr|t|t|path req|t|d]; cbn [cosmos_answer].
  - unfold g_origin in H. apply then_ok in H as (x & ux & sx & Ex & H). peel Ex. unfold look in Ex. injection Ex as <- _ <-.
    unfold mret in H. injection H as <- _ <-. done.
  - unfold g_origin in H. apply then_ok in H as (x & ux & sx & Ex & H). peel Ex. unfold look in Ex. injection Ex as <- _ <-.
    peel H. peel H. unfold mret in H. injection H as <- _ <-. split; [|done]. eexists. split; [done|].
    destruct (w_accts (ps_w s) !! origin_of (ps_w s) addr) as [[n q i k]|]; [destruct k|]; split; try done; try (intros (? & ? & ? & [=])); eauto.
  - destruct (pe_to_str P addr) as [t|]; [|done]. unfold mret in H. injection H as <- _ <-. split; [|done]. eauto.
  - destruct (pe_of_str P t) as [ad|]; [|done]. destruct (length ad =? 20)%nat eqn:El; [|done]. unfold mret in H. injection H as <- _ <-.
    apply Nat.eqb_eq in El. split; [|done]. eauto.
  - unfold guard_ro in H. destruct ro; [done|]. destruct (pe_decode_msg P t) as [m|] eqn:Em; [|done]. destruct (pe_signers P m) as [sg|] eqn:Es; [|done].
    unfold g_origin in H. apply then_ok in H as (x & ux & sx & Ex & H). peel Ex. unfold look in Ex. injection Ex as <- _ <-.
    destruct (forallb _ sg) eqn:Ef; [|done]. peel H. unfold mret in H. injection H as <- _ <-. split; [|split].
    + split; [done|]. exists m, sg. split; [done|]. split; [done|]. intros y Hy. rewrite forallb_forall in Ef. 
      apply elem_of_list_In in Hy. apply Ef in Hy. by apply bool_decide_eq_true in Hy.
    + intros t' [= <-]. exists m. done.
    + intros Hn. by destruct (Hn t).
  - destruct (pe_route P path) eqn:Er; [cbn [negb] in H|done]. destruct (pe_white P path) eqn:Ew; [cbn [negb] in H|done].
    peel H. peel H. destruct (pe_query P path req s) as [t|] eqn:Eq; [|done]. unfold mret in H. injection H as <- _ <-. split; [|done]. eauto.
  - peel H. peel H. unfold mret in H. injection H as <- _ <-. done.
  - peel H. peel H. destruct (denom_to_contract (ps_w s) d) as [ad|] eqn:Ed; [|done]. unfold mret in H. injection H as <- _ <-. split; [|done]. eauto.
Qed.
Theorem C97_refused_for_a_reason caller input gas ro s c o : cdec input = Some c → cosmos_answer s caller c o →
  ((∃ t, c = CExecute t) → ro = false) → pr_err (cosmos caller input gas ro s) = false.
Proof.
  intros Hd Ha Hro. unfold extended_run. rewrite Hd. destruct (c_body _ _ _ _ _ _ _ _) as [|u' s'|] eqn:E; [done| |done]. exfalso.
  unfold c_body in E. peel_err E. peel_err E.
  destruct c as [addr|addr|addr|t|t|path req|t|d]; cbn [cosmos_answer] in Ha.
  - unfold g_origin in E. apply then_err in E as [E|(? & ? & ? & _ & E)]; [|done]. peel_err E. done.
  - unfold g_origin in E. apply then_err in E as [E|(? & ? & ? & _ & E)]; [peel_err E; done|]. peel_err E. peel_err E. done.
  - destruct Ha as (t & _ & Ht). rewrite Ht in E. done.
  - destruct Ha as (ad & _ & Ht & Hl). rewrite Ht in E. apply Nat.eqb_eq in Hl. rewrite Hl in E. done.
  - destruct Ha as (_ & m & sg & Hm & Hs & Hx). unfold guard_ro in E. rewrite Hro in E by eauto. rewrite Hm, Hs in E.
    unfold g_origin in E. apply then_err in E as [E|(oo & u1 & s1 & Eo & E)]; [peel_err E; done|]. peel Eo. unfold look in Eo. injection Eo as <- _ <-.
    assert (forallb (fun x => bool_decide (origin_of (ps_w s) caller = x)) sg = true) as Hf.
    { apply forallb_forall. intros y Hy. apply elem_of_list_In in Hy. apply Hx in Hy. by apply bool_decide_eq_true. }
    rewrite Hf in E. apply then_err in E as [E|(? & ? & ? & _ & E)]; done.
  - destruct Ha as (t & _ & Hw & Hr & Hq). rewrite Hr, Hw in E. cbn [negb] in E. peel_err E. peel_err E. rewrite Hq in E. done.
  - peel_err E. peel_err E. done.
  - destruct Ha as (ad & _ & Hq). peel_err E. peel_err E. rewrite Hq in E. done.
Qed.
Theorem C97_not_whitelisted caller input gas ro s path req : cdec input = Some (CQuery path req) → pe_white P path = false →
  pr_out (cosmos caller input gas ro s) = None ∧ pr_state (cosmos caller input gas ro s) = s.
Proof.
  intros Hd Hw. destruct (pr_out (cosmos caller input gas ro s)) as [o|] eqn:E.
  - destruct (C97_answers _ _ _ _ _ _ Hd o E) as [(t & _ & H & _) _]. congruence.
  - split; [done|]. unfold extended_run in *. rewrite Hd in *. unfold c_body in *. rewrite then_charge in *. destruct (_ <? _); [done|].
    rewrite then_charge in *. destruct (_ <? _); [done|]. rewrite Hw. destruct (pe_route P path); done.
Qed.
End props.

(** Concrete: a registered token registers a holder who had no account (the hypotheses of
    C96_register_store, including the creation). *)
Theorem C96_example :
  let r := extended_run (r_body x_pre) x_rdec x_stake_at (1 :: x_stranger) 1000 false (x_ps x_w2) in
  match pr_out r with Some (OBool true) => true | _ => false end = true ∧ bool_decide (x_stake_at ∈ w_reg x_w2) = true ∧ w_accts x_w2 !! x_stranger = None.
Proof. vm_compute. done. Qed.
(** alice's message is queued by alice and not by bob. *)
Theorem C97_example :
  let r c := extended_run (c_body x_pre) x_cdec c [0; 1; 77] 1000 false (x_ps x_w2) in
  x_cdec [0; 1; 77] = Some (CExecute [1; 77]) ∧
  match pr_out (r x_alice) with Some (OBool true) => true | _ => false end = true ∧
  ps_q (pr_state (r x_alice)) = [([77], [x_alice])] ∧ pr_err (r x_alice) = false ∧ pr_err (r x_bob) = true.
Proof. vm_compute. done. Qed.
