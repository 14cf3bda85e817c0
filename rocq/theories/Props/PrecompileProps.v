(** The stateful precompiles and Cosmos messages: C38, C39, C40, C55. *)
From Verif.Base Require Import Prelude Hex Layers.
From Verif.Model Require Import Token Bank Precompile.
From Verif.Spec Require Import TokenSpec BankSpec.
From Verif.Proofs Require Import HexP TokenP BankP BankMore TokenMore PrecompileP.
From Verif.Props Require Import BankProps.
Open Scope N_scope.

Section props.
Context {msg : Type} (P : penv msg).
Context (rdec : bytes → option rcall) (cdec : bytes → option ccall).
Notation registry := (extended_run (r_body P) rdec).
Notation cosmos := (extended_run (c_body P) cdec).

(** * C38 *)

(** In a static call neither precompile changes anything: not the chain state, not
    the message queue — for every input, gas amount, caller and gas schedule. *)
Theorem C38_read_only_no_change caller input gas s :
  pr_state (registry caller input gas true s) = s ∧ pr_state (cosmos caller input gas true s) = s.
Proof.
  unfold extended_run. split.
  - destruct (rdec input) as [c|]; [|done].
    pose proof (pure_r_body_ro P caller (N.of_nat (length input)) c gas 0 s) as H.
    destruct (r_body _ _ _ _ _ _ _ _); done.
  - destruct (cdec input) as [c|]; [|done].
    pose proof (pure_c_body_ro P caller (N.of_nat (length input)) c gas 0 s) as H.
    destruct (c_body _ _ _ _ _ _ _ _); done.
Qed.
(** The writing methods never succeed in a static call. *)
Theorem C38_writes_refused_read_only caller input gas s :
  (∀ a, rdec input ≠ Some (RIsStore a)) → pr_out (registry caller input gas true s) = None.
Proof.
  intros H. unfold extended_run. destruct (rdec input) as [c|]; [|done].
  destruct c as [| | |a]; [| | |by destruct (H a)];
    unfold r_body, guard_ro; rewrite then_charge; destruct (gas <? _); try done; rewrite then_charge; by destruct (gas <? _).
Qed.
Theorem C38_execute_refused_read_only caller input gas s t :
  cdec input = Some (CExecute t) → pr_out (cosmos caller input gas true s) = None.
Proof.
  intros H. unfold extended_run. rewrite H. unfold c_body, guard_ro.
  rewrite then_charge; destruct (gas <? _); try done. rewrite then_charge; by destruct (gas <? _).
Qed.

(** Gas: a run reports at most the supplied gas, or one unit more than supplied with
    neither output nor error, which the EVM takes for out of gas. (With 2^64-1 supplied, using more would overflow
    the meter, a different panic that fails the transaction.) *)
Definition gas_ok (supplied : N) (r : pres msg) : Prop :=
  pr_used r <= supplied ∨ (pr_used r = supplied + 1 ∧ pr_out r = None ∧ pr_err r = false).
Theorem C38_gas_bound caller input gas ro s : gas + 1 < two64 →
  gas_ok gas (registry caller input gas ro s) ∧ gas_ok gas (cosmos caller input gas ro s).
Proof.
  intros Hg. assert (Hw : u64_add gas 1 = gas + 1) by (unfold u64_add, u64; by apply N.mod_small).
  unfold gas_ok, extended_run. split.
  - destruct (rdec input) as [c|]; [|left; simpl; lia].
    pose proof (bounded_r_body P caller (N.of_nat (length input)) ro c gas 0 s ltac:(lia)) as H.
    destruct (r_body _ _ _ _ _ _ _ _); simpl; [left; lia|left; lia|right]. by rewrite Hw.
  - destruct (cdec input) as [c|]; [|left; simpl; lia].
    pose proof (bounded_c_body P caller (N.of_nat (length input)) ro c gas 0 s ltac:(lia)) as H.
    destruct (c_body _ _ _ _ _ _ _ _); simpl; [left; lia|left; lia|right]. by rewrite Hw.
Qed.
(** A run that succeeds has paid at least one unit per input byte and the method's
    fixed price. *)
Theorem C38_minimum_price caller input gas ro s :
  (pr_out (registry caller input gas ro s) ≠ None →
   N.of_nat (length input) + 200 <= pr_used (registry caller input gas ro s)) ∧
  (pr_out (cosmos caller input gas ro s) ≠ None →
   N.of_nat (length input) + 100 <= pr_used (cosmos caller input gas ro s)).
Proof.
  unfold extended_run. split; intros Hne.
  - destruct (rdec input) as [c|]; [|done]. revert Hne. unfold r_body. rewrite then_charge.
    destruct (N.ltb_spec gas (0 + N.of_nat (length input))); [done|]. rewrite then_charge.
    destruct (N.ltb_spec gas (0 + N.of_nat (length input) + 200)) as [|Hle]; [done|]. 
    match goal with |- context[?m gas (0 + N.of_nat (length input) + 200) s] =>
      assert (Hb : bounded m); [|pose proof (Hb gas _ s Hle) as Hx; destruct (m gas (0 + N.of_nat (length input) + 200) s); simpl; try done; intros _; lia] end.
    destruct c, ro; unfold guard_ro, g_register, g_register_from_factory, g_register_store;
    repeat first [ apply bounded_then; [|intros ?] | apply bounded_ret | apply bounded_fail | apply bounded_look
      | apply bounded_change | apply bounded_charge | apply bounded_acc
      | match goal with |- bounded (if ?b then _ else _) => destruct b end ].
  - destruct (cdec input) as [c|]; [|done]. revert Hne. unfold c_body. rewrite then_charge.
    destruct (N.ltb_spec gas (0 + N.of_nat (length input))); [done|]. rewrite then_charge.
    destruct (N.ltb_spec gas (0 + N.of_nat (length input) + c_gas c)) as [|Hle]; [done|].
    assert (100 <= c_gas c) by (destruct c; simpl; lia).
    match goal with |- context[?m gas (0 + N.of_nat (length input) + c_gas c) s] =>
      assert (Hb : bounded m); [|pose proof (Hb gas _ s Hle) as Hx; destruct (m gas (0 + N.of_nat (length input) + c_gas c) s); simpl; try done; intros _; lia] end.
    destruct c, ro; unfold guard_ro, g_origin;
    repeat first [ apply bounded_then; [|intros ?] | apply bounded_ret | apply bounded_fail | apply bounded_look
      | apply bounded_change | apply bounded_charge | apply bounded_acc
      | match goal with |- bounded (if ?b then _ else _) => destruct b end
      | match goal with |- bounded (match ?x with _ => _ end) => destruct x end ].
Qed.
(** Undecodable input is an error that costs nothing and changes nothing. *)
Theorem C38_bad_input caller input gas ro s :
  rdec input = None → registry caller input gas ro s = PRes None 0 true s.
Proof. intros H. unfold extended_run. by rewrite H. Qed.

(** * C39 *)

(** One call of either precompile: the queue grows by at most one message, only
    through execute_cosmos outside static calls, and every signer of that message is
    the caller, or the long address the caller is the shorthand of. *)
Theorem C39_queue_step caller input gas ro s :
  ps_q (pr_state (registry caller input gas ro s)) = ps_q s ∧
  (ps_q (pr_state (cosmos caller input gas ro s)) = ps_q s ∨
   ∃ m sg, pe_signers P m = Some sg ∧ (∀ x, x ∈ sg → x = origin_of (ps_w s) caller) ∧ ro = false ∧
     ps_q (pr_state (cosmos caller input gas ro s)) = ps_q s ++ [m] ∧ pr_out (cosmos caller input gas ro s) ≠ None).
Proof.
  unfold extended_run. split.
  - destruct (rdec input) as [c|]; [|done].
    pose proof (q_r_body P caller (N.of_nat (length input)) ro c gas 0 s) as H.
    destruct (r_body _ _ _ _ _ _ _ _); done.
  - destruct (cdec input) as [c|]; [|by left].
    pose proof (c_body_queue P caller (N.of_nat (length input)) ro c gas 0 s) as [_ [H|H]].
    + left. by destruct (c_body _ _ _ _ _ _ _ _).
    + right. destruct H as (t & m & sg & -> & -> & Hm & Hs & Hall & Hq & Ho). exists m, sg.
      destruct (c_body _ _ _ _ _ _ _ _); simpl in *; by destruct Ho.
Qed.
(** A message whose signer is somebody else is refused. *)
Theorem C39_other_signer_refused caller input gas ro s t m sg x :
  cdec input = Some (CExecute t) → pe_decode_msg P t = Some m → pe_signers P m = Some sg →
  x ∈ sg → x ≠ origin_of (ps_w s) caller →
  pr_out (cosmos caller input gas ro s) = None ∧ pr_state (cosmos caller input gas ro s) = s.
Proof.
  intros Hc Hm Hs Hx Hne.
  assert (Hf : forallb (fun y => bool_decide (origin_of (ps_w s) caller = y)) sg = false).
  { apply not_true_iff_false. rewrite forallb_forall. intros H. apply elem_of_list_In in Hx.
    apply H, bool_decide_eq_true in Hx. congruence. }
  unfold extended_run. rewrite Hc. unfold c_body, guard_ro. rewrite then_charge.
  destruct (gas <? _); [done|]. rewrite then_charge. destruct (gas <? _); [done|]. destruct ro; [done|].
  rewrite Hm, Hs. unfold g_origin, acc, mthen, charge, look, change, mret, mfail.
  destruct (gas <? _); [done|]. rewrite Hf. done.
Qed.

(** Whole executions: every message in the queue was asked for by some caller in the
    call tree that is its only signer. [asked a c] is "the tree calls the Cosmos
    precompile as [c]". *)
Fixpoint asked (c : bytes) (a : act) {struct a} : Prop :=
  match a with
  | PReg _ _ _ => False
  | PCos c' _ _ => c' = c
  | PFrame _ _ l => (fix go l := match l with [] => False | a :: l' => asked c a ∨ go l' end) l
  end.
(** Accounts that stand for a long address keep doing so during an execution. *)
Definition run_acts (ro : bool) (l : list act) (s : pstate msg) : pstate msg :=
  fold_left (fun s a => run_act P rdec cdec ro a s) l s.
Lemma run_frame ro st ok l s : run_act P rdec cdec ro (PFrame st ok l) s = run_acts (ro || st) l s.
Proof. simpl. revert s. induction l as [|a l IH]; intros s; [done|]. simpl. apply IH. Qed.
Lemma act_ind' (Q : act → Prop) :
  (∀ c i g, Q (PReg c i g)) → (∀ c i g, Q (PCos c i g)) →
  (∀ st ok l, Forall Q l → Q (PFrame st ok l)) → ∀ a, Q a.
Proof.
  intros H1 H2 H3. fix IH 1. intros [c i g|c i g|st ok l]; [apply H1|apply H2|apply H3].
  induction l as [|a l IHl]; constructor; [apply IH|apply IHl].
Qed.
(** The message's signers are all [o], the origin of caller [c] in some state. *)
Definition own_message (m : msg) (c : bytes) : Prop :=
  ∃ sg (w : world), pe_signers P m = Some sg ∧ ∀ x, x ∈ sg → x = origin_of w c.
Lemma run_act_queue a : ∀ ro s, ∃ ms, ps_q (run_act P rdec cdec ro a s) = ps_q s ++ ms ∧
  ∀ m, m ∈ ms → ∃ c, asked c a ∧ own_message m c.
Proof.
  induction a as [c i g|c i g|st ok l IH] using act_ind'; intros ro s.
  - exists []. rewrite app_nil_r. split; [apply (C39_queue_step c i g ro s)|]. intros m Hm. by apply elem_of_nil in Hm.
  - destruct (C39_queue_step c i g ro s) as [_ [H|(m & sg & Hs & Hall & _ & Hq & _)]].
    + exists []. rewrite app_nil_r. split; [done|]. intros m Hm. by apply elem_of_nil in Hm.
    + exists [m]. split; [done|]. intros m' ->%elem_of_list_singleton. exists c. split; [done|]. by exists sg, (ps_w s).
  - rewrite run_frame. generalize (ro || st)%bool as ro'. intros ro'.
    assert (∃ ms, ps_q (run_acts ro' l s) = ps_q s ++ ms ∧
      ∀ m, m ∈ ms → ∃ c, (∃ a, a ∈ l ∧ asked c a) ∧ own_message m c) as (ms & Hq & Hms).
    { revert s. induction IH as [|a l Ha Hl IHl]; intros s; simpl.
      - exists []. rewrite app_nil_r. split; [done|]. intros m Hm. by apply elem_of_nil in Hm.
      - destruct (Ha ro' s) as (ms1 & Hq1 & H1). destruct (IHl (run_act P rdec cdec ro' a s)) as (ms2 & Hq2 & H2).
        exists (ms1 ++ ms2). split.
        { unfold run_acts in *. simpl. rewrite Hq2, Hq1. by rewrite app_assoc. }
        intros m [Hm|Hm]%elem_of_app.
        + destruct (H1 m Hm) as (c & Hc & Ho). exists c. split; [|done]. exists a. split; [by left|done].
        + destruct (H2 m Hm) as (c & (a' & Ha' & Hc) & Ho). exists c. split; [|done]. exists a'. split; [by right|done]. }
    exists ms. split; [done|]. intros m Hm. destruct (Hms m Hm) as (c & (a & Ha & Hc) & Ho). exists c. split; [|done].
    simpl. clear -Ha Hc. induction l as [|b l IHl]; [by apply elem_of_nil in Ha|].
    apply elem_of_cons in Ha as [->|Ha]; [by left|right; by apply IHl].
Qed.
Theorem C39_only_own_messages static ok l w :
  ∀ m, m ∈ ps_q (run_act P rdec cdec false (PFrame static ok l) (PState w [])) →
  ∃ c, asked c (PFrame static ok l) ∧ own_message m c.
Proof.
  intros m Hm. destruct (run_act_queue (PFrame static ok l) false (PState w [])) as (ms & Hq & H).
  rewrite Hq in Hm. simpl in Hm. apply H. done.
Qed.

(** The queue is executed after a successful execution, in the order of the
    requests, all of it; if one message fails the whole call is an error. *)
Fixpoint in_order {S} (handle : msg → S → option S) (l : list msg) (s s' : S) : Prop :=
  match l with
  | [] => s' = s
  | m :: l' => ∃ s1, handle m s = Some s1 ∧ in_order handle l' s1 s'
  end.
Theorem C39_dispatch_in_order handle static ok l w s' :
  evm_call P rdec cdec handle static ok l w = Some s' ↔
  ok = true ∧ let s := run_act P rdec cdec false (PFrame static ok l) (PState w []) in
              in_order handle (ps_q s) s s'.
Proof.
  unfold evm_call. set (s := run_act _ _ _ _ _ _). cbv zeta.
  assert (Hd : ∀ q t t', dispatch handle q t = Some t' ↔ in_order handle q t t').
  { induction q as [|m q IH]; intros t t'; simpl; [split; congruence|].
    destruct (handle m t) as [t1|] eqn:Hm; simpl.
    - rewrite IH. split; [eauto|]. intros (t2 & [= <-] & H). done.
    - split; [done|]. intros (t2 & H & _). done. }
  destruct ok; [rewrite Hd; naive_solver|split; [done|intros [? _]; done]].
Qed.
Theorem C39_one_failure_fails_all handle static l w q1 m q2 s1 :
  let s := run_act P rdec cdec false (PFrame static true l) (PState w []) in
  ps_q s = q1 ++ m :: q2 → in_order handle q1 s s1 → handle m s1 = None →
  evm_call P rdec cdec handle static true l w = None.
Proof.
  intros s Hq Hin Hm. unfold evm_call. fold s. rewrite Hq. clear Hq.
  revert Hin. generalize s as t. induction q1 as [|x q1 IH]; intros t; simpl.
  - intros ->. by rewrite Hm.
  - intros (t1 & Hx & H). rewrite Hx. simpl. by apply IH.
Qed.

(** * C40 *)

(** What should happen: a failed frame leaves nothing behind. *)
Fixpoint spec_act (ro : bool) (a : act) (s : pstate msg) {struct a} : pstate msg :=
  match a with
  | PReg c i g => pr_state (registry c i g ro s)
  | PCos c i g => pr_state (cosmos c i g ro s)
  | PFrame st ok l =>
      let s' := (fix go (l : list act) (s : pstate msg) : pstate msg :=
         match l with [] => s | a :: l' => go l' (spec_act (ro || st) a s) end) l s in
      if ok then s' else s
  end.
(** No frame of the tree fails. *)
Fixpoint no_failure (a : act) : bool :=
  match a with
  | PFrame _ ok l => ok && (fix go l := match l with [] => true | a :: l' => no_failure a && go l' end) l
  | _ => true
  end.
Theorem C40_no_failing_frame_partial a : ∀ ro s, no_failure a = true →
  run_act P rdec cdec ro a s = spec_act ro a s.
Proof.
  induction a as [c i g|c i g|st ok l IH] using act_ind'; intros ro s; [done|done|].
  simpl. intros [Hok H]%andb_prop. rewrite Hok. generalize (ro || st)%bool as ro'. intros ro'.
  revert s. induction IH as [|a l Ha Hl IHl]; intros s; [done|].
  apply andb_prop in H as [H1 H2]. rewrite (Ha ro' s H1). apply IHl, H2.
Qed.
(** The code ignores the outcome of frames altogether: flipping any outcome inside
    the tree does not change what is written and queued. *)
Fixpoint same_but_outcomes (a b : act) {struct a} : Prop :=
  match a, b with
  | PReg c i g, PReg c' i' g' => c = c' ∧ i = i' ∧ g = g'
  | PCos c i g, PCos c' i' g' => c = c' ∧ i = i' ∧ g = g'
  | PFrame st _ l, PFrame st' _ l' =>
      st = st' ∧ (fix go l l' := match l, l' with
                  | [], [] => True | a :: l, b :: l' => same_but_outcomes a b ∧ go l l' | _, _ => False end) l l'
  | _, _ => False
  end.
Theorem C40_outcomes_ignored a : ∀ b ro s, same_but_outcomes a b →
  run_act P rdec cdec ro a s = run_act P rdec cdec ro b s.
Proof.
  induction a as [c i g|c i g|st ok l IH] using act_ind'; intros [c' i' g'|c' i' g'|st' ok' l'] ro s; simpl; try done.
  - by intros (-> & -> & ->).
  - by intros (-> & -> & ->).
  - intros [-> H]. generalize (ro || st')%bool as ro'. intros ro'.
    revert l' s H. induction IH as [|a l Ha Hl IHl]; intros [|b l'] s; simpl; try done.
    intros [H1 H2]. rewrite (Ha b ro' s H1). apply IHl, H2.
Qed.
(** In a static frame nothing is written or queued in any case. *)
Theorem C40_static_frame_no_effect a : ∀ s, run_act P rdec cdec true a s = s.
Proof.
  induction a as [c i g|c i g|st ok l IH] using act_ind'; intros s.
  - apply (C38_read_only_no_change c i g s).
  - apply (C38_read_only_no_change c i g s).
  - rewrite run_frame. simpl. unfold run_acts. revert s. induction IH as [|a l Ha Hl IHl]; intros s; [done|].
    simpl. rewrite Ha. apply IHl.
Qed.
(** When the outermost frame fails the call is an error and nothing is dispatched. *)
Theorem C40_outermost_failure handle static l w : evm_call P rdec cdec handle static false l w = None.
Proof. done. Qed.
End props.

(** * Concrete cases *)

(** Messages are pairs of a text and their signers; store accesses cost 10; inputs
    are decoded by their first byte. *)
Definition x_msg : Type := bytes * list bytes.
Definition x_pre : penv x_msg :=
  PEnv x_env (fun _ _ => 10) (fun _ _ => false) (fun _ => None) (fun _ => None)
    (fun t => match t with 1 :: r => Some (r, [x_alice]) | 2 :: r => Some (r, [x_bob]) | _ => None end)
    (fun m => Some (snd m)) (fun _ => false) (fun _ => false) (fun _ _ _ => None).
Definition x_rdec (i : bytes) : option rcall :=
  match i with 0 :: _ => Some RRegister | 1 :: a => Some (RStore a) | 2 :: a => Some (RIsStore a) | _ => None end.
Definition x_cdec (i : bytes) : option ccall :=
  match i with 0 :: t => Some (CExecute t) | 1 :: a => Some (CIsBlocked a) | _ => None end.
Definition x_ps (w : world) : pstate x_msg := PState w [].
Definition x_stranger : bytes := replicate 19 4 ++ [9].

Example C38_example :
  let reg i g ro := extended_run (r_body x_pre) x_rdec x_stake_at i g ro (x_ps x_w2) in
  (pr_used (reg (1 :: x_stranger) 1000 false) =? 221 + 50) = true ∧
  bool_decide ((x_stranger, x_stake_at) ∈ w_stores (ps_w (pr_state (reg (1 :: x_stranger) 1000 false)))) = true ∧
  pr_out (reg (1 :: x_stranger) 1000 true) = None ∧ pr_err (reg (1 :: x_stranger) 1000 true) = true ∧
  pr_used (reg (1 :: x_stranger) 250 false) = 251 ∧ pr_err (reg (1 :: x_stranger) 250 false) = false.
Proof. vm_compute. repeat split. Qed.

(** "A precompile call that runs out of gas has no effect" is false: a registration
    that runs out at the last step has already created the account. *)
Theorem C68_out_of_gas_no_effect_refuted : ∃ w caller input gas,
  reachable x_env w ∧
  let r := extended_run (r_body x_pre) x_rdec caller input gas false (x_ps w) in
  pr_used r = gas + 1 ∧ pr_out r = None ∧
  w_accts w !! x_stranger = None ∧ is_Some (w_accts (ps_w (pr_state r)) !! x_stranger) ∧
  (x_stranger, caller) ∉ w_stores (ps_w (pr_state r)).
Proof.
  exists x_w2, x_stake_at, (1 :: x_stranger), 265. split; [apply x_reachable, x_w2_steps|].
  split; [vm_compute; reflexivity|]. split; [vm_compute; reflexivity|]. split; [vm_compute; reflexivity|].
  split; [eexists; vm_compute; reflexivity|]. refine (bool_decide_unpack _ _). vm_compute. exact I.
Qed.

Example C39_example :
  let cos c i := extended_run (c_body x_pre) x_cdec c i 1000 false (x_ps x_w2) in
  ps_q (pr_state (cos x_alice [0; 1; 77])) = [([77], [x_alice])] ∧
  pr_err (cos x_bob [0; 1; 77]) = true ∧ ps_q (pr_state (cos x_bob [0; 1; 77])) = [] ∧
  ps_q (pr_state (cos x_bob [0; 2; 77])) = [([77], [x_bob])].
Proof. vm_compute. repeat split. Qed.
(** Two contracts queue; the messages run in the order asked; one that fails fails all. *)
Example C39_example_dispatch :
  let tree := [PCos x_alice [0; 1; 5] 1000; PFrame false true [PCos x_bob [0; 2; 6] 1000]] in
  let note (m : x_msg) (s : pstate x_msg) := if bool_decide (fst m = [9]) then None else Some (PState (ps_w s) (ps_q s ++ [m])) in
  (s ← evm_call x_pre x_rdec x_cdec note false true tree x_w2; Some (ps_q s)) =
    Some [([5], [x_alice]); ([6], [x_bob]); ([5], [x_alice]); ([6], [x_bob])] ∧
  evm_call x_pre x_rdec x_cdec note false true (tree ++ [PCos x_bob [0; 2; 9] 1000]) x_w2 = None.
Proof. split; vm_compute; reflexivity. Qed.

(** A message queued in a reverted frame is dispatched when the outer call succeeds. *)
Theorem C40_queued_message_refuted : ∃ w tree,
  reachable x_env w ∧
  ps_q (spec_act x_pre x_rdec x_cdec false (PFrame false true tree) (x_ps w)) = [] ∧
  ps_q (run_act x_pre x_rdec x_cdec false (PFrame false true tree) (x_ps w)) = [([7], [x_bob])] ∧
  (∀ handle s', evm_call x_pre x_rdec x_cdec handle false true tree w = Some s' →
     ∃ s, handle ([7], [x_bob]) s = Some s').
Proof.
  exists x_w2, [PFrame false false [PCos x_bob [0; 2; 7] 1000]].
  split; [apply x_reachable, x_w2_steps|]. split; [vm_compute; reflexivity|]. split; [vm_compute; reflexivity|].
  intros handle s'. rewrite C39_dispatch_in_order. intros [_ H]. cbv zeta in H.
  set (s := run_act _ _ _ _ _ _) in H.
  assert (Hq : ps_q s = [([7], [x_bob])]) by (vm_compute; reflexivity). rewrite Hq in H. simpl in H.
  destruct H as (s1 & H & ->). by exists s.
Qed.
(** A registration made in a reverted frame stays. *)
Theorem C40_registration_refuted : ∃ w tree,
  reachable x_env w ∧
  x_contract ∉ w_reg (ps_w (spec_act x_pre x_rdec x_cdec false (PFrame false true tree) (x_ps w))) ∧
  x_contract ∈ w_reg (ps_w (run_act x_pre x_rdec x_cdec false (PFrame false true tree) (x_ps w))).
Proof.
  exists x_w2, [PFrame false false [PReg x_contract [0] 1000]].
  split; [apply x_reachable, x_w2_steps|].
  split; refine (bool_decide_unpack _ _); vm_compute; exact I.
Qed.
Example C40_example :
  no_failure (PFrame false true [PFrame false true [PReg x_contract [0] 1000]; PCos x_alice [0; 1; 3] 1000]) = true.
Proof. reflexivity. Qed.
