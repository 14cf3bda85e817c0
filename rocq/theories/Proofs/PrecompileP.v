(** Reasoning about metered computations, and what each precompile method does. *)
From Verif.Base Require Import Prelude Hex.
From Verif.Model Require Import Token Bank Precompile.
Open Scope N_scope.

Section meter.
Context {S : Type}.
Definition st_of {A} (r : mres S A) : S := match r with MOk _ _ s | MErr _ s | MOog s => s end.

(** Never more gas than the limit, never less than before. *)
Definition bounded {A} (m : metered S A) : Prop := ∀ lim u s, u <= lim →
  match m lim u s with MOk _ u' _ | MErr u' _ => u <= u' <= lim | MOog _ => True end.
(** At least [n] more on success. *)
Definition at_least {A} (n : N) (m : metered S A) : Prop := ∀ lim u s,
  match m lim u s with MOk _ u' _ => u + n <= u' | _ => True end.
(** No state change, whatever the outcome. *)
Definition pure {A} (m : metered S A) : Prop := ∀ lim u s, st_of (m lim u s) = s.

Lemma bounded_ret {A} (a : A) : bounded (mret a). Proof. intros lim u s Hu. simpl. lia. Qed.
Lemma bounded_fail {A} : bounded (@mfail S A). Proof. intros lim u s Hu. simpl. lia. Qed.
Lemma bounded_look {A} (f : S → A) : bounded (look f). Proof. intros lim u s Hu. simpl. lia. Qed.
Lemma bounded_change (f : S → S) : bounded (change f). Proof. intros lim u s Hu. simpl. lia. Qed.
Lemma bounded_charge n : bounded (@charge S n).
Proof. intros lim u s Hu. unfold charge. destruct (N.ltb_spec lim (u + n)); [done|lia]. Qed.
Lemma bounded_then {A B} (x : metered S A) (f : A → metered S B) :
  bounded x → (∀ a, bounded (f a)) → bounded (mthen x f).
Proof.
  intros Hx Hf lim u s Hu. unfold mthen. specialize (Hx lim u s Hu).
  destruct (x lim u s) as [a u' s'|u' s'|s']; [|done|done].
  specialize (Hf a lim u' s' (proj2 Hx)). destruct (f a lim u' s'); try done; lia.
Qed.
Lemma pure_ret {A} (a : A) : pure (mret a). Proof. done. Qed.
Lemma pure_fail {A} : pure (@mfail S A). Proof. done. Qed.
Lemma pure_look {A} (f : S → A) : pure (look f). Proof. done. Qed.
Lemma pure_charge n : pure (@charge S n).
Proof. intros lim u s. unfold charge. by destruct (lim <? u + n). Qed.
Lemma pure_then {A B} (x : metered S A) (f : A → metered S B) : pure x → (∀ a, pure (f a)) → pure (mthen x f).
Proof.
  intros Hx Hf lim u s. unfold mthen. specialize (Hx lim u s).
  destruct (x lim u s) as [a u' s'|u' s'|s']; simpl in Hx; subst; [apply Hf|done|done].
Qed.
Lemma at_least_0 {A} (m : metered S A) : bounded m → ∀ lim u s, u <= lim →
  match m lim u s with MOk _ u' _ => u <= u' | _ => True end.
Proof. intros H lim u s Hu. specialize (H lim u s Hu). destruct (m lim u s); try done. lia. Qed.

(** Running the rest after a charge. *)
Lemma then_charge {A} n (f : unit → metered S A) lim u s :
  mthen (charge n) f lim u s = if lim <? u + n then MOog s else f tt lim (u + n) s.
Proof. unfold mthen, charge. by destruct (lim <? u + n). Qed.
End meter.

Section pre.
Context {msg : Type} (P : penv msg).
Notation M := (metered (pstate msg)).

Lemma bounded_acc a : bounded (acc P a).
Proof. intros lim u s Hu. apply (bounded_charge _ lim u s Hu). Qed.
Lemma pure_acc a : pure (acc P a).
Proof. intros lim u s. apply pure_charge. Qed.

Ltac bnd := repeat first
  [ apply bounded_then; [|intros ?] | apply bounded_ret | apply bounded_fail | apply bounded_look
  | apply bounded_change | apply bounded_charge | apply bounded_acc
  | match goal with |- bounded (if ?b then _ else _) => destruct b end
  | match goal with |- bounded (match ?x with _ => _ end) => destruct x end ].

Lemma bounded_r_body caller len ro c : bounded (r_body P caller len ro c).
Proof. destruct c, ro; unfold r_body, guard_ro, g_register, g_register_from_factory, g_register_store; bnd. Qed.
Lemma bounded_c_body caller len ro c : bounded (c_body P caller len ro c).
Proof. destruct c, ro; unfold c_body, guard_ro, g_origin; bnd. Qed.

Ltac pur := repeat first
  [ apply pure_then; [|intros ?] | apply pure_ret | apply pure_fail | apply pure_look
  | apply pure_charge | apply pure_acc
  | match goal with |- pure (if ?b then _ else _) => destruct b end
  | match goal with |- pure (match ?x with _ => _ end) => destruct x end ].
Lemma pure_r_body_ro caller len c : pure (r_body P caller len true c).
Proof. destruct c; unfold r_body, guard_ro; pur. Qed.
Lemma pure_c_body_ro caller len c : pure (c_body P caller len true c).
Proof. destruct c; unfold c_body, guard_ro, g_origin; pur. Qed.
(** Every method except execute_cosmos leaves the state alone anyway. *)
Lemma pure_c_body caller len ro c : (∀ t, c ≠ CExecute t) → pure (c_body P caller len ro c).
Proof. intros Hc. destruct c as [| | | |t| | |]; try (by destruct (Hc t)); unfold c_body, g_origin; pur. Qed.

(** The effects with enough gas are those of the plain model. *)
Lemma g_register_ok c lim u s u' s' : g_register P c lim u s = MOk tt u' s' →
  register (ps_w s) c = (true, ps_w s') ∧ ps_q s' = ps_q s.
Proof.
  unfold g_register, acc, mthen, charge, look, change, mret, mfail. unfold register.
  destruct (lim <? _); [done|]. destruct (p_allow_custom _); cbn [negb]; [|done].
  destruct (lim <? _); [done|]. 
  destruct (decide (c ∈ w_reg (ps_w s))) as [Hin|Hin].
  { rewrite bool_decide_eq_true_2 by done. intros [= <- <-]. done. }
  rewrite bool_decide_eq_false_2 by done.
  destruct (p_allowed (w_policy (ps_w s))) as [|x l] eqn:Hl.
  - rewrite bool_decide_eq_true_2 by done. cbn [orb]. destruct (lim <? _); [done|]. intros [= <- <-]. done.
  - rewrite bool_decide_eq_false_2 by done. cbn [orb]. destruct (decide (c ∈ x :: l)) as [H|H].
    + rewrite bool_decide_eq_true_2 by done. destruct (lim <? _); [done|]. intros [= <- <-]. done.
    + by rewrite bool_decide_eq_false_2 by done.
Qed.
Lemma g_register_store_ok a c lim u s u' s' : g_register_store P a c lim u s = MOk tt u' s' →
  ps_w s' = register_store (ps_w s) a c ∧ ps_q s' = ps_q s.
Proof.
  unfold g_register_store, acc, mthen, charge, look, change, mret, mfail, register_store.
  destruct (lim <? _); [done|]. destruct (decide (c ∈ w_reg (ps_w s))) as [Hin|Hin].
  2: { rewrite bool_decide_eq_false_2 by done. cbn [negb]. intros [= <- <-]. done. }
  rewrite bool_decide_eq_true_2 by done. cbn [negb]. destruct (lim <? _); [done|].
  unfold create_acct. destruct (w_accts (ps_w s) !! a) as [x|] eqn:Ha.
  { rewrite bool_decide_eq_true_2 by done. destruct (lim <? _); [done|]. intros [= <- <-]. done. }
  rewrite bool_decide_eq_false_2 by (intros [? ?]; done).
  destruct (lim <? _); [done|]. destruct (lim <? _); [done|]. destruct (lim <? _); [done|].
  intros [= <- <-]. done.
Qed.
Lemma g_register_factory_ok caller c lim u s u' s' : g_register_from_factory P caller c lim u s = MOk tt u' s' →
  register_from_factory (pe_env P) (ps_w s) caller c = (true, ps_w s') ∧ ps_q s' = ps_q s.
Proof.
  unfold g_register_from_factory, acc, mthen, charge, look, change, mret, mfail, register_from_factory.
  destruct (lim <? _); [done|]. case_bool_decide; [|done]. destruct (lim <? _); [done|]. intros [= <- <-]. done.
Qed.

(** Whatever happens in the registry, the queue stays as it is. *)
Definition q_same {A} (m : M A) : Prop := ∀ lim u s, ps_q (st_of (m lim u s)) = ps_q s.
Lemma q_pure {A} (m : M A) : pure m → q_same m.
Proof. intros H lim u s. by rewrite H. Qed.
Lemma q_then {A B} (x : M A) (f : A → M B) : q_same x → (∀ a, q_same (f a)) → q_same (mthen x f).
Proof.
  intros Hx Hf lim u s. unfold mthen. specialize (Hx lim u s).
  destruct (x lim u s) as [a u' s'|u' s'|s']; simpl in *; [by rewrite Hf|done|done].
Qed.
Lemma q_on_w f : q_same (change (on_w f)). Proof. done. Qed.
Lemma q_r_body caller len ro c : q_same (r_body P caller len ro c).
Proof.
  destruct c, ro; unfold r_body, guard_ro, g_register, g_register_from_factory, g_register_store;
  repeat first [ apply q_then; [|intros ?] | apply q_on_w | apply q_pure; solve [pur]
    | match goal with |- q_same (if ?b then _ else _) => destruct b end ].
Qed.

(** execute_cosmos: the world is never changed, and the queue grows at most by the
    decoded message, all of whose signers are the caller's origin. *)
Lemma c_body_queue caller len ro c lim u s : let r := c_body P caller len ro c lim u s in
  ps_w (st_of r) = ps_w s ∧
  (ps_q (st_of r) = ps_q s ∨
   ∃ t m sg, c = CExecute t ∧ ro = false ∧ pe_decode_msg P t = Some m ∧ pe_signers P m = Some sg ∧
     (∀ x, x ∈ sg → x = origin_of (ps_w s) caller) ∧ ps_q (st_of r) = ps_q s ++ [m] ∧ is_Some (match r with MOk o _ _ => Some o | _ => None end)).
Proof.
  assert ((∃ t, c = CExecute t) ∨ ∀ t, c ≠ CExecute t) as [[t ->]|Hc] by (destruct c; eauto; right; done).
  2: { cbv zeta. rewrite (pure_c_body caller len ro c); [eauto|done]. }
  destruct ro.
  { cbv zeta. rewrite (pure_c_body_ro caller len (CExecute t)). eauto. }
  cbv zeta. unfold c_body, guard_ro. rewrite then_charge. destruct (lim <? _); [by eauto|].
  rewrite then_charge. destruct (lim <? _); [by eauto|].
  destruct (pe_decode_msg P t) as [m|] eqn:Hm; [|by eauto].
  destruct (pe_signers P m) as [sg|] eqn:Hs; [|by eauto].
  unfold g_origin, acc, mthen, charge, look, change, mret, mfail. destruct (lim <? _); [by eauto|].
  destruct (forallb _ sg) eqn:Hf; [|by eauto]. simpl. split; [done|]. right.
  exists t, m, sg. split_and!; try done.
  intros x Hx. rewrite forallb_forall in Hf. apply elem_of_list_In in Hx. apply Hf, bool_decide_eq_true in Hx. done.
Qed.
End pre.
