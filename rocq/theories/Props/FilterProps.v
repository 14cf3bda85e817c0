(** C44: polling a filter (Filters.v). *)
From Verif.Base Require Import Prelude.
From Verif.Model Require Import EthLog Indexer Filters.
From Verif.Spec Require Import IndexerSpec.
From Verif.Proofs Require Import FiltersP.
From Verif.Props Require Import LogProps.
Open Scope nat_scope.

(** ** What a log filter selects *)
Definition filter_matches (c : fcrit) (l : placed_log) : Prop :=
  (∀ from, fc_from c = Some from → (0 <= from)%Z → (from <= Z.of_N (pl_number l))%Z) ∧
  (∀ to, fc_to c = Some to → (0 <= to)%Z → (Z.of_N (pl_number l) <= to)%Z) ∧
  log_matches (fc_crit c) (pl_log l).
Theorem C44_selects c ls l :
  ILog l ∈ select (KLogs c) (FLogs ls) ↔ l ∈ ls ∧ filter_matches c l.
Proof.
  cbn. rewrite elem_of_list_fmap. unfold filter_matches. rewrite <- C43_check_is_match.
  assert (Hw : fwanted c l = true ↔ (∀ from, fc_from c = Some from → (0 <= from)%Z → (from <= Z.of_N (pl_number l))%Z) ∧
     (∀ to, fc_to c = Some to → (0 <= to)%Z → (Z.of_N (pl_number l) <= to)%Z) ∧ check_log (fc_crit c) (pl_log l) = true).
  { unfold fwanted, in_bounds. rewrite !andb_true_iff. split.
    - intros [[H1 H2] H3]. split_and!; [| |done].
      + intros from E. rewrite E in H1. intros. apply negb_true_iff, andb_false_iff in H1. destruct H1; lia.
      + intros to E. rewrite E in H2. intros. apply negb_true_iff, andb_false_iff in H2. destruct H2; lia.
    - intros (H1 & H2 & H3). split; [|done]. split.
      + destruct (fc_from c) as [f|]; [|done]. specialize (H1 _ eq_refl). apply negb_true_iff, andb_false_iff.
        destruct (Z.leb_spec 0 f); [right; lia|by left].
      + destruct (fc_to c) as [t|]; [|done]. specialize (H2 _ eq_refl). apply negb_true_iff, andb_false_iff.
        destruct (Z.leb_spec 0 t); [right; lia|by left]. }
  rewrite <- Hw. split.
  - intros (l' & [= <-] & Hin). apply elem_of_list_In, filter_In in Hin as [Hin ?]. by apply elem_of_list_In in Hin.
  - intros [Hin ?]. exists l. split; [done|]. apply elem_of_list_In, filter_In. split; [by apply elem_of_list_In|done].
Qed.
(** NewFilter accepts exactly the criteria with at most four topic positions and a range that
    is latest..latest, or starts at a block and ends at a block not before it or at latest. *)
Theorem C44_accepted_criteria c :
  new_filter_ok c = true ↔
  length (cr_topics (fc_crit c)) <= 4 ∧
  let from := default latest (fc_from c) in let to := default latest (fc_to c) in
  (from = latest ∧ to = latest) ∨ (0 <= from ∧ from <= to)%Z ∨ ((0 <= from)%Z ∧ to = latest).
Proof.
  unfold new_filter_ok. rewrite andb_true_iff, Nat.leb_le, !orb_true_iff, !andb_true_iff, !Z.leb_le, !Z.eqb_eq.
  cbn. split; intros [? H]; (split; [done|]); unfold latest in *; lia.
Qed.

(** ** Exactly once, in order *)

(** Items on their way: of the event the filter's goroutine holds, then of the event the loop
    is handing out. *)
Definition on_the_way (s : fstate) (id : fid) (k : kind) : list fitem :=
  match f_gor s !! id with Some (Holding e) => select k e | _ => [] end ++
  match f_loop s with Some (e, r) => if decide (id ∈ r) then select k e else [] | None => [] end.

(** C44. For every filter that exists, at every moment of every schedule: the answers so far,
    what the next poll would answer, and what is on its way are together exactly the items
    selected from the events the loop took since the filter was installed, in that order,
    each once. *)
Theorem C44_exactly_once timeout s id f :
  freach timeout s → f_filters s !! id = Some f →
  ∃ n, f_start s !! id = Some n ∧ n <= length (f_taken s) ∧
    concat (default [] (f_answers s !! id)) ++ fl_buf f ++ on_the_way s id (fl_kind f)
    = concat (select (fl_kind f) <$> drop n (snd <$> f_taken s)).
Proof.
  intros Hr Hf. destruct (FI_view _ (finv_reach _ _ Hr) id) as [ | | |f' n| |]; try congruence.
  rewrite Hf in Hf0. injection Hf0 as <-. exists n. split; [done|]. split.
  { unfold tk in Hle. by rewrite fmap_length in Hle. }
  change (concat (default [] (f_answers s !! id)) ++ fl_buf f ++ on_the_way s id (fl_kind f) = due (fl_kind f) n (tk s)).
  rewrite <- Hq. f_equal. f_equal. unfold on_the_way. f_equal.
  unfold flying, fly. destruct (f_loop s) as [[e r]|]; [|done]. by destruct (decide _).
Qed.

(** C44. In particular, when nothing is on its way, a poll completes the answers. *)
Theorem C44_poll_completes timeout s id f n :
  freach timeout s → f_filters s !! id = Some f → f_start s !! id = Some n →
  f_loop s = None → f_gor s !! id = Some Listening →
  ∀ a, poll_answer s id = Some a →
  concat (default [] (f_answers s !! id)) ++ a = concat (select (fl_kind f) <$> drop n (snd <$> f_taken s)).
Proof.
  intros Hr Hf Hn Hl Hg a Ha. destruct (C44_exactly_once _ _ _ _ Hr Hf) as (m & Hm & _ & E).
  rewrite Hn in Hm. injection Hm as <-. rewrite <- E. unfold on_the_way. rewrite Hl, Hg. cbn. rewrite app_nil_r.
  unfold poll_answer in Ha. rewrite Hf in Ha. cbn in Ha. injection Ha as <-. done.
Qed.

(** C44. The counting starts within the creation call: after the call was made and before it
    returns; and it never moves. *)
Lemma start_step timeout w s s' id n : finv s → fstep timeout w s s' → f_start s !! id = Some n → f_start s' !! id = Some n.
Proof.
  intros Hi Hs Hn. destruct Hs; cbn; try done. destruct (decide (id0 = id)) as [->|]; [|by rewrite lookup_insert_ne].
  destruct (FI_view _ Hi id); try congruence; destruct Hc as [[? ?]|]; try congruence; destruct H1; congruence.
Qed.
Lemma reach_steps timeout b s s' : freach timeout s → fsteps timeout b s s' → freach timeout s'.
Proof. intros Hr Hs. induction Hs as [|w s1 s2 s3 H1 H2 H3 IH]; [done|]. apply IH. eapply FR_step; eauto. Qed.
Lemma taken_step timeout w s s' : fstep timeout w s s' → length (f_taken s) <= length (f_taken s').
Proof. intros Hs. destruct Hs; cbn; rewrite ?app_length; lia. Qed.
Lemma taken_steps timeout b s s' : fsteps timeout b s s' → length (f_taken s) <= length (f_taken s').
Proof. induction 1 as [|w s1 s2 s3 H1 H2 H3 IH]; [done|]. apply taken_step in H1. lia. Qed.
Theorem C44_from_creation timeout s s' id k n :
  freach timeout s → f_create s !! id = Some (CInstall k) → fsteps timeout false s s' → f_start s' !! id = Some n →
  length (f_taken s) <= n ∧
  (∀ s1, fsteps timeout false s s1 → fsteps timeout false s1 s' → f_create s1 !! id = None → n <= length (f_taken s1)).
Proof.
  intros Hr Hc Hs Hn. split.
  - assert (G : ∀ s1 s2, freach timeout s1 → fsteps timeout false s1 s2 → f_start s2 !! id = Some n →
       f_start s1 !! id = Some n ∨ length (f_taken s1) <= n).
    { clear. intros s1 s2 Hr Hs Hn. induction Hs as [|w s1 s2 s3 H1 H2 H3 IH]; [by left|].
      specialize (IH (FR_step _ _ _ _ Hr H1) Hn). destruct IH as [IH|IH].
      - destruct H1; cbn in IH; auto. destruct (decide (id0 = id)) as [->|]; [|rewrite lookup_insert_ne in IH by done; auto].
        rewrite lookup_insert in IH. injection IH as <-. right. done.
      - right. apply taken_step in H1. lia. }
    destruct (G s s' Hr Hs Hn) as [E|?]; [|done].
    destruct (FI_view _ (finv_reach _ _ Hr) id); try congruence.
    + destruct Hc0 as [[? ?]|[? ?]]; congruence.
    + destruct Hc0 as [[? ?]|[? ?]]; congruence.
    + destruct Hc0 as [[? ?]|?]; congruence.
  - intros s1 H1 H2 Hc1.
    assert (Hr1 : freach timeout s1) by (eapply reach_steps; eauto).
    assert (Hkeep : ∀ a b m, freach timeout a → fsteps timeout false a b → f_start a !! id = Some m → f_start b !! id = Some m).
    { clear. intros a b m Hr Hs. induction Hs as [|w s1 s2 s3 H1 H2 H3 IH]; [done|]. intros Hm. apply IH; [eapply FR_step; eauto|].
      eapply start_step; eauto. by eapply finv_reach. }
    assert (Hused : ∀ a b, fsteps timeout false a b → id ∈ f_used a → id ∈ f_used b).
    { clear. intros a b Hs. induction Hs as [|w s1 s2 s3 H1 H2 H3 IH]; [done|]. intros Hm. apply IH. destruct H1; cbn; set_solver. }
    assert (Hu : id ∈ f_used s1).
    { eapply Hused; [exact H1|]. destruct (FI_view _ (finv_reach _ _ Hr) id); try done. congruence. }
    assert (Hle : ∀ m, f_start s1 !! id = Some m → m <= length (f_taken s1)).
    { clear -Hr1. induction Hr1 as [|w s1 s2 Hr IH Hs]; [done|]. intros m Hm.
      pose proof (taken_step _ _ _ _ Hs). destruct Hs; cbn in *; try (specialize (IH _ Hm); rewrite ?app_length; lia).
      destruct (decide (id0 = id)) as [->|]; [rewrite lookup_insert in Hm; by injection Hm as <-|].
      rewrite lookup_insert_ne in Hm by done. apply IH. done. }
    assert (Hx : ∃ m, f_start s1 !! id = Some m).
    { destruct (FI_view _ (finv_reach _ _ Hr1) id); eauto; try done. congruence. }
    destruct Hx as [m Hm]. pose proof (Hkeep _ _ _ Hr1 H2 Hm) as E. rewrite Hn in E. injection E as ->. by apply Hle.
Qed.

(** C44. An emitter's events are taken in the order it sends them, each once. *)
Definition taken_of (i : nat) (s : fstate) : list fevent := snd <$> filter (λ p : nat * fevent, p.1 = i) (f_taken s).
Theorem C44_emitter_order timeout b s s' i es :
  fsteps timeout b s s' → f_emit s !! i = Some es →
  ∃ es', f_emit s' !! i = Some es' ∧ taken_of i s' ++ es' = taken_of i s ++ es.
Proof.
  intros Hs. revert es. induction Hs as [|w s1 s2 s3 H1 H2 H3 IH]; intros es He; [eauto|].
  assert (∃ es', f_emit s2 !! i = Some es' ∧ taken_of i s2 ++ es' = taken_of i s1 ++ es) as (es' & He' & E).
  { destruct H1; cbn; eauto.
    - exists es. split; [|done]. rewrite lookup_app_l; [done|]. by eapply lookup_lt_Some.
    - destruct (decide (i0 = i)) as [->|Hne].
      + rewrite He in H0. injection H0 as ->. exists es0. split.
        * apply list_lookup_insert. by eapply lookup_lt_Some.
        * unfold taken_of. cbn [f_taken]. rewrite filter_app, filter_cons, decide_True by done. rewrite filter_nil, fmap_app, <- app_assoc. done.
      + exists es. split; [by rewrite list_lookup_insert_ne|].
        unfold taken_of. cbn [f_taken]. rewrite filter_app, filter_cons, decide_False by done. by rewrite filter_nil, app_nil_r. }
  destruct (IH _ He') as (es2 & ? & E2). exists es2. split; [done|]. congruence.
Qed.

(** ** Nothing gets stuck *)

Lemma steps_trans timeout b s1 s2 s3 : fsteps timeout b s1 s2 → fsteps timeout b s2 s3 → fsteps timeout b s1 s3.
Proof. induction 1; [done|]. intros. econstructor; eauto. Qed.
Lemma steps_one timeout s s' : fstep timeout Inside s s' → fsteps timeout true s s'.
Proof. intros. econstructor; [eauto|done|constructor]. Qed.

(** An inside step keeps every filter, its kind and its answers, and uses up no more than it
    takes from the emitters. *)
Definition kept (s s' : fstate) : Prop :=
  f_answers s' = f_answers s ∧ f_start s ⊆ f_start s' ∧
  ∀ id f, f_filters s !! id = Some f → ∃ f', f_filters s' !! id = Some f' ∧ fl_kind f' = fl_kind f.
Lemma kept_refl s : kept s s.
Proof. split; [done|]. split; [done|]. eauto. Qed.
Lemma kept_trans s1 s2 s3 : kept s1 s2 → kept s2 s3 → kept s1 s3.
Proof.
  intros (A & B & C) (A' & B' & C'). split; [congruence|]. split; [by etransitivity|].
  intros id f Hf. destruct (C _ _ Hf) as (f' & Hf' & E). destruct (C' _ _ Hf') as (f'' & ? & ?). exists f''. split; [done|congruence].
Qed.
Lemma kept_step timeout s s' : finv s → fstep timeout Inside s s' → kept s s'.
Proof.
  intros Hi Hs. split; [by inversion Hs|]. split.
  - apply map_subseteq_spec. intros id n Hn. eapply start_step; eauto.
  - intros id f Hf. inversion Hs; subst; cbn; eauto.
    + destruct (decide (id0 = id)) as [->|]; [|rewrite lookup_insert_ne by done; eauto].
      rewrite lookup_insert. eexists. split; [done|]. cbn. congruence.
    + destruct (decide (id0 = id)) as [->|]; [|rewrite lookup_insert_ne by done; eauto].
      destruct (FI_view _ Hi id); try congruence. destruct Hc as [[? ?]|[? ?]]; congruence.
Qed.
Lemma kept_steps timeout s s' : freach timeout s → fsteps timeout true s s' → kept s s'.
Proof.
  intros Hr Hs. remember true as b eqn:Eb. induction Hs as [|w s1 s2 s3 H1 H2 H3 IH]; [apply kept_refl|].
  specialize (H2 Eb). subst w. eapply kept_trans; [eapply kept_step; eauto; by eapply finv_reach|].
  apply IH. eapply FR_step; eauto.
Qed.

Lemma then_step timeout s s1 e r : fstep timeout Inside s s1 → f_emit s1 = f_emit s →
  (∃ s', fsteps timeout true s1 s' ∧ f_loop s' = rest e r ∧ f_emit s' = f_emit s1) →
  ∃ s', fsteps timeout true s s' ∧ f_loop s' = rest e r ∧ f_emit s' = f_emit s.
Proof.
  intros St E (s' & H1 & H2 & H3). exists s'. split; [eapply steps_trans; [by apply steps_one|done]|]. split; [done|congruence].
Qed.

(** C44. The loop never blocks: the subscription it is handing an event to always comes to
    receive it, without any help from clients. *)
Theorem C44_loop_not_stuck timeout s e id r :
  freach timeout s → f_loop s = Some (e, id :: r) →
  ∃ s', fsteps timeout true s s' ∧ f_loop s' = rest e r ∧ f_emit s' = f_emit s.
Proof.
  intros Hr Hl. destruct (finv_reach _ _ Hr) as [V L]. destruct (L _ _ Hl) as (_ & _ & Hin).
  destruct (Hin id) as (k & Hk & _); [by left|].
  assert (G1 : ∀ s, f_loop s = Some (e, id :: r) → f_gor s !! id = Some Listening →
     ∃ s', fsteps timeout true s s' ∧ f_loop s' = rest e r ∧ f_emit s' = f_emit s).
  { intros s1 H1 H2. eexists. split; [apply steps_one; eapply S_deliver; eauto|]. done. }
  assert (G2 : ∀ s, f_loop s = Some (e, id :: r) → f_gor s !! id ≠ None →
     ∃ s', fsteps timeout true s s' ∧ f_loop s' = rest e r ∧ f_emit s' = f_emit s).
  { intros s1 H1 H2. destruct (f_gor s1 !! id) as [[|e']|] eqn:Eg; [by apply G1| |done].
    destruct (f_filters s1 !! id) as [f|] eqn:Ef.
    - pose proof (S_append timeout s1 e' id f Eg Ef) as St. eapply then_step; [exact St|done|]. apply G1; cbn; [done|]. by rewrite lookup_insert.
    - pose proof (S_append_gone timeout s1 e' id Eg Ef) as St. eapply then_step; [exact St|done|]. apply G1; cbn; [done|]. by rewrite lookup_insert. }
  assert (G3 : ∀ s, f_loop s = Some (e, id :: r) → f_create s !! id = Some CRegistered →
     ∃ s', fsteps timeout true s s' ∧ f_loop s' = rest e r ∧ f_emit s' = f_emit s).
  { intros s1 H1 H2. pose proof (S_return timeout s1 id H2) as St. eapply then_step; [exact St|done|]. apply G2; cbn; [done|]. by rewrite lookup_insert. }
  destruct (V id); try congruence.
  - pose proof (S_register timeout s id k0 Hc) as St. eapply then_step; [exact St|done|]. apply G3; cbn; [done|]. by rewrite lookup_insert.
  - destruct Hc as [[? ?]|[? ?]]; [by apply G3|by apply G2].
  - eexists. split; [apply steps_one; eapply S_drain; eauto|]. done.
Qed.
Lemma loop_idle timeout s : freach timeout s → ∃ s', fsteps timeout true s s' ∧ f_loop s' = None ∧ f_emit s' = f_emit s.
Proof.
  intros Hr. destruct (f_loop s) as [[e r]|] eqn:El; [|exists s; split; [constructor|done]].
  revert s Hr El. induction r as [|id r IH]; intros s Hr El.
  { destruct (FI_loop _ (finv_reach _ _ Hr) _ _ El) as [? _]. done. }
  destruct (C44_loop_not_stuck _ _ _ _ _ Hr El) as (s1 & H1 & H2 & H3). destruct r as [|id' r].
  - exists s1. done.
  - destruct (IH s1) as (s2 & ? & ? & ?); [by eapply reach_steps|done|].
    exists s2. split; [by eapply steps_trans|]. split; [done|congruence].
Qed.
Lemma can_take timeout s i e es : f_loop s = None → f_emit s !! i = Some (e :: es) →
  ∃ s', fstep timeout Inside s s' ∧ f_emit s' = <[i := es]> (f_emit s).
Proof.
  intros Hl He. pose (ids := (map_to_list (filter (λ p : fid * kind, wants p.2 e = true) (f_subs s))).*1).
  eexists. split; [eapply (S_take timeout s i e es ids); eauto|done].
  - apply NoDup_fst_map_to_list.
  - intros id. unfold ids. rewrite elem_of_list_fmap. split.
    + intros ([id' k] & -> & Hin). apply elem_of_map_to_list in Hin. apply map_filter_lookup_Some in Hin. eauto.
    + intros (k & Hk & Hw). exists (id, k). split; [done|]. apply elem_of_map_to_list. by apply map_filter_lookup_Some.
Qed.
Definition left_to_send (s : fstate) : nat := length (concat (f_emit s)).
Lemma emit_drained timeout s : freach timeout s →
  ∃ s', fsteps timeout true s s' ∧ f_loop s' = None ∧ ∀ i es, f_emit s' !! i = Some es → es = [].
Proof.
  remember (left_to_send s) as m eqn:Em. revert s Em. induction (lt_wf m) as [m _ IH]; intros s Em Hr.
  destruct (loop_idle _ _ Hr) as (s1 & H1 & L1 & E1).
  destruct (decide (Forall (λ es : list fevent, es = []) (f_emit s1))) as [Hall|Hno].
  { exists s1. split; [done|]. split; [done|]. intros i es Hi. rewrite Forall_lookup in Hall. eauto. }
  apply not_Forall_Exists in Hno; [|apply _]. apply Exists_exists in Hno as (es & Hin & Hne).
  apply elem_of_list_lookup in Hin as [i Hi]. destruct es as [|e es]; [by destruct Hne|].
  destruct (can_take timeout s1 i e es L1 Hi) as (s2 & St & E2).
  assert (Hm : left_to_send s2 < m).
  { subst m. unfold left_to_send. rewrite E2, <- E1. rewrite <- (take_drop_middle _ _ _ Hi) at 2.
    rewrite insert_take_drop by (by eapply lookup_lt_Some). rewrite !concat_app. cbn. rewrite !app_length. cbn. rewrite !app_length. lia. }
  destruct (IH _ Hm s2 eq_refl) as (s3 & H3 & L3 & E3).
  { eapply FR_step; [eapply reach_steps; eauto|exact St]. }
  exists s3. split; [|done]. eapply steps_trans; [exact H1|]. eapply steps_trans; [apply steps_one, St|exact H3].
Qed.

(** C44. Everything emitted can reach every filter without help from clients: from any
    reachable state the system can go on, by itself, to one where no emitter has anything
    left and the filter's next poll completes its answers. *)
Theorem C44_delivered timeout s id f :
  freach timeout s → f_filters s !! id = Some f →
  ∃ s' n a, fsteps timeout true s s' ∧ (∀ i es, f_emit s' !! i = Some es → es = []) ∧
    f_start s !! id = Some n ∧ poll_answer s' id = Some a ∧ f_answers s' = f_answers s ∧
    concat (default [] (f_answers s !! id)) ++ a = concat (select (fl_kind f) <$> drop n (snd <$> f_taken s')).
Proof.
  intros Hr Hf. destruct (emit_drained _ _ Hr) as (s1 & H1 & L1 & E1).
  assert (Hr1 : freach timeout s1) by (eapply reach_steps; eauto).
  pose proof (kept_steps _ _ _ Hr H1) as (A1 & B1 & C1). destruct (C1 _ _ Hf) as (f1 & Hf1 & K1).
  destruct (C44_exactly_once _ _ _ _ Hr Hf) as (n & Hn & _ & _).
  assert (G : ∀ t ft, freach timeout t → fsteps timeout true s1 t → f_loop t = None → f_emit t = f_emit s1 → f_filters t !! id = Some ft → fl_kind ft = fl_kind f →
     f_gor t !! id = Some Listening →
     ∃ s' n a, fsteps timeout true s s' ∧ (∀ i es, f_emit s' !! i = Some es → es = []) ∧
       f_start s !! id = Some n ∧ poll_answer s' id = Some a ∧ f_answers s' = f_answers s ∧
       concat (default [] (f_answers s !! id)) ++ a = concat (select (fl_kind f) <$> drop n (snd <$> f_taken s'))).
  { intros t ft Ht St Lt Et Hft Kt Gt. exists t, n, (fl_buf ft).
    assert (Hst : fsteps timeout true s t) by (eapply steps_trans; eauto).
    pose proof (kept_steps _ _ _ Hr Hst) as (A2 & B2 & C2).
    assert (Hn' : f_start t !! id = Some n) by (eapply map_subseteq_spec in B2; eauto).
    split_and!; [done|by rewrite Et|done|unfold poll_answer; by rewrite Hft|done|].
    rewrite <- A2, <- Kt. eapply (C44_poll_completes timeout t id ft n); eauto. unfold poll_answer. by rewrite Hft. }
  assert (G2 : ∀ t ft, freach timeout t → fsteps timeout true s1 t → f_loop t = None → f_emit t = f_emit s1 → f_filters t !! id = Some ft → fl_kind ft = fl_kind f →
     f_gor t !! id ≠ None →
     ∃ s' n a, fsteps timeout true s s' ∧ (∀ i es, f_emit s' !! i = Some es → es = []) ∧
       f_start s !! id = Some n ∧ poll_answer s' id = Some a ∧ f_answers s' = f_answers s ∧
       concat (default [] (f_answers s !! id)) ++ a = concat (select (fl_kind f) <$> drop n (snd <$> f_taken s'))).
  { intros t ft Ht St Lt Et Hft Kt Gt. destruct (f_gor t !! id) as [[|e']|] eqn:Eg; [by eapply G| |done].
    pose proof (S_append timeout t e' id ft Eg Hft) as Sx.
    eapply G; [eapply FR_step; [exact Ht|exact Sx]|eapply steps_trans; [exact St|apply steps_one, Sx]|done|done|cbn; by rewrite lookup_insert|done|cbn; by rewrite lookup_insert]. }
  destruct (FI_view _ (finv_reach _ _ Hr1) id); try congruence.
  destruct Hc as [[Hc Hg]|[Hc Hg]].
  - pose proof (S_return timeout s1 id Hc) as Sx.
    eapply G2; [eapply FR_step; [exact Hr1|exact Sx]|apply steps_one, Sx|done|done|cbn; exact Hf1|done|cbn; by rewrite lookup_insert].
  - eapply G2; [exact Hr1|constructor|done|done|exact Hf1|done|done].
Qed.

(** ** Filters that are gone *)

(** C44. A filter that was removed, by request or by expiry, is never found again. *)
Theorem C44_gone_for_good timeout s id s' :
  freach timeout s → id ∈ f_used s → f_filters s !! id = None → (∀ k, f_create s !! id ≠ Some (CInstall k)) →
  (∀ k, f_create s !! id ≠ Some (CInstalled k)) → fsteps timeout false s s' → poll_answer s' id = None.
Proof.
  intros Hr Hu Hf H1 H2 Hs.
  induction Hs as [|w s1 s2 s3 St _ H3 IH]; [unfold poll_answer; by rewrite Hf|].
  assert (Hi : finv s1) by (by eapply finv_reach).
  apply IH; clear IH.
  - eapply FR_step; eauto.
  - destruct St; cbn; set_solver.
  - destruct St; cbn; try done.
    + destruct (decide (id0 = id)) as [->|]; [congruence|by rewrite lookup_insert_ne].
    + destruct (decide (id0 = id)) as [->|]; [|by rewrite lookup_insert_ne]. by destruct (H2 k).
    + destruct (decide (id0 = id)) as [->|]; [congruence|by rewrite lookup_insert_ne].
    + rewrite lookup_delete_None. auto.
    + apply map_filter_lookup_None. auto.
  - intros k. destruct St; cbn; try done.
    + destruct (decide (id0 = id)) as [->|]; [done|by rewrite lookup_insert_ne].
    + destruct (decide (id0 = id)) as [->|]; [by rewrite lookup_insert|by rewrite lookup_insert_ne].
    + destruct (decide (id0 = id)) as [->|]; [by rewrite lookup_insert|by rewrite lookup_insert_ne].
    + destruct (decide (id0 = id)) as [->|]; [by rewrite lookup_delete|by rewrite lookup_delete_ne].
  - intros k. destruct St; cbn; try done.
    + destruct (decide (id0 = id)) as [->|]; [done|by rewrite lookup_insert_ne].
    + destruct (decide (id0 = id)) as [->|]; [by destruct (H1 k0)|by rewrite lookup_insert_ne].
    + destruct (decide (id0 = id)) as [->|]; [by rewrite lookup_insert|by rewrite lookup_insert_ne].
    + destruct (decide (id0 = id)) as [->|]; [by rewrite lookup_delete|by rewrite lookup_delete_ne].
Qed.

(** C44. Only a request for it or a tick removes a filter; and a log filter is removed by a
    tick only if it was neither created nor polled for longer than the timeout. *)
Lemma used_active timeout s id f :
  freach timeout s → f_filters s !! id = Some f →
  ∃ t, f_active s !! id = Some t ∧ (t <= f_now s)%N ∧ (fl_used f = Some t ∨ (fl_used f = None ∧ ∀ c, fl_kind f ≠ KLogs c)).
Proof.
  intros Hr. revert f. induction Hr as [|w s s' Hr IH Hs]; [done|]. intros f Hf.
  destruct Hs; cbn in *; eauto.
  - destruct (IH _ Hf) as (t' & ? & ? & ?). exists t'. split; [done|]. split; [lia|done].
  - destruct (decide (id0 = id)) as [->|]; [|rewrite lookup_insert_ne in Hf by done; eauto].
    rewrite lookup_insert in Hf. injection Hf as <-. cbn. eauto.
  - destruct (decide (id0 = id)) as [->|].
    + rewrite lookup_insert in Hf; rewrite lookup_insert. injection Hf as <-. cbn. exists (f_now s). split; [done|]. split; [lia|].
      destruct k; [by left|right..]; done.
    + rewrite lookup_insert_ne in Hf by done; rewrite lookup_insert_ne by done. eauto.
  - destruct (decide (id0 = id)) as [->|].
    + rewrite lookup_insert in Hf; rewrite lookup_insert. injection Hf as <-. cbn. exists (f_now s). split; [done|]. split; [lia|]. by left.
    + rewrite lookup_insert_ne in Hf by done; rewrite lookup_insert_ne by done. eauto.
  - apply lookup_delete_Some in Hf as [_ Hf]. eauto.
  - apply map_filter_lookup_Some in Hf as [Hf _]. eauto.
Qed.
Theorem C44_log_filter_lives timeout w s s' id f c :
  freach timeout s → fstep timeout w s s' → f_filters s !! id = Some f → fl_kind f = KLogs c → f_filters s' !! id = None →
  (s' = mkF (f_now s) (f_emit s) (f_loop s) (f_subs s) (delete id (f_filters s)) (f_create s) (f_gor s)
        ({[id]} ∪ f_uninst s) (f_closed s) (f_used s) (f_taken s) (f_start s) (f_answers s) (f_active s)) ∨
  (∃ t, f_active s !! id = Some t ∧ (t + timeout < f_now s)%N).
Proof.
  intros Hr Hs Hf Hk Hn. destruct (used_active _ _ _ _ Hr Hf) as (t & Ht & Hle & Hu).
  destruct Hs; cbn in Hn; try congruence.
  - destruct (decide (id0 = id)) as [->|]; [by rewrite lookup_insert in Hn|rewrite lookup_insert_ne in Hn by done; congruence].
  - destruct (decide (id0 = id)) as [->|]; [by rewrite lookup_insert in Hn|rewrite lookup_insert_ne in Hn by done; congruence].
  - destruct (decide (id0 = id)) as [->|]; [by rewrite lookup_insert in Hn|rewrite lookup_insert_ne in Hn by done; congruence].
  - destruct (decide (id0 = id)) as [->|]; [by left|rewrite lookup_delete_ne in Hn by done; congruence].
  - right. exists t. split; [done|]. apply map_filter_lookup_None in Hn as [Hn|Hn]; [congruence|].
    specialize (Hn f Hf). cbn in Hn. unfold expired in Hn. destruct Hu as [E|[_ E]]; [|by destruct (E c)].
    rewrite E in Hn. destruct (N.ltb_spec timeout (f_now s - t)); [lia|done].
Qed.

(** ** Where the property's wording and the code differ *)
Lemma only_sub k e : ∀ id : fid, id ∈ (if wants k e then [0] else []) ↔ ∃ k', (<[0 := k]> (∅ : gmap fid kind)) !! id = Some k' ∧ wants k' e = true.
Proof.
  intros id. destruct (wants k e) eqn:Ew.
  - rewrite elem_of_list_singleton. split.
    + intros ->. exists k. by rewrite lookup_insert.
    + intros (k' & Hk & _). destruct (decide (id = 0)); [done|]. by rewrite lookup_insert_ne in Hk.
  - rewrite elem_of_nil. split; [done|]. intros (k' & Hk & Hw). destruct (decide (id = 0)) as [->|].
    + rewrite lookup_insert in Hk. congruence.
    + by rewrite lookup_insert_ne in Hk.
Qed.
Lemma only_nodup (b : bool) : NoDup (if b then [0] else []).
Proof. destruct b; [apply NoDup_singleton|apply NoDup_nil_2]. Qed.
Ltac taking i k := eapply (S_take _ _ i _ _ (if wants k _ then [0] else [])); [reflexivity|reflexivity|apply only_nodup|apply only_sub].
(** Walk a schedule forwards, keeping the state in normal form. *)
Ltac step H tac :=
  match type of H with freach ?t ?s =>
    let H' := fresh "H'" in
    eassert (H' : fstep t _ s _); [tac|];
    apply (FR_step _ _ _ _ H) in H'; clear H; rename H' into H;
    cbn [f_now f_emit f_loop f_subs f_filters f_create f_gor f_uninst f_closed f_used f_taken f_start f_answers f_active
         rest app insert list_insert wants] in H
  end.

Definition ex_h1 : bytes := replicate 32 1%N.
Definition ex_h2 : bytes := replicate 32 2%N.

(** C44, order between blocks: each block has its own emitter goroutine, so the events of two
    blocks may be taken, and answered, in the opposite order. *)
Theorem C72_block_order_refuted : ∃ timeout s f,
  freach timeout s ∧ f_filters s !! 0 = Some f ∧ fl_kind f = KBlocks ∧ f_gor s !! 0 = Some Listening ∧
  f_answers s !! 0 = Some [[IHash ex_h2; IHash ex_h1]] ∧
  taken_of 0 s = block_events [] ex_h1 ∧ taken_of 1 s = block_events [] ex_h2.
Proof.
  assert (H : freach 300 f_init) by constructor.
  step H ltac:(apply (S_new _ _ 0 KBlocks); [set_solver|done]).
  step H ltac:(apply (S_install _ _ 0 KBlocks); reflexivity).
  step H ltac:(apply (S_register _ _ 0 KBlocks); reflexivity).
  step H ltac:(apply (S_return _ _ 0); reflexivity).
  step H ltac:(apply (S_emit _ _ (block_events [] ex_h1))).
  step H ltac:(apply (S_emit _ _ (block_events [] ex_h2))).
  step H ltac:(taking 1 KBlocks).
  step H ltac:(taking 1 KBlocks).
  step H ltac:(apply (S_deliver _ _ (FHeader ex_h2) 0 []); reflexivity).
  step H ltac:(eapply (S_append _ _ (FHeader ex_h2) 0); reflexivity).
  step H ltac:(taking 0 KBlocks).
  step H ltac:(taking 0 KBlocks).
  step H ltac:(apply (S_deliver _ _ (FHeader ex_h1) 0 []); reflexivity).
  step H ltac:(eapply (S_append _ _ (FHeader ex_h1) 0); reflexivity).
  step H ltac:(eapply (S_poll _ _ 0); reflexivity).
  exists 300%N. eexists _, _. split; [exact H|].
  split; [reflexivity|]. split_and!; reflexivity.
Qed.

(** C44, expiry: block and pending-transaction filters are created without a time of use, so
    a clean-up tick removes one that was created at that very moment. *)
Theorem C72_new_block_filter_expires_refuted : ∃ timeout s s' f,
  freach timeout s ∧ fstep timeout Client s s' ∧ f_filters s !! 0 = Some f ∧ f_active s !! 0 = Some (f_now s) ∧
  (0 < timeout)%N ∧ f_filters s' !! 0 = None.
Proof.
  assert (H : freach 300 f_init) by constructor.
  step H ltac:(apply (S_new _ _ 0 KBlocks); [set_solver|done]).
  step H ltac:(apply (S_install _ _ 0 KBlocks); reflexivity).
  step H ltac:(apply (S_register _ _ 0 KBlocks); reflexivity).
  step H ltac:(apply (S_return _ _ 0); reflexivity).
  exists 300%N. eexists _, _, _. split; [exact H|].
  split; [apply S_tick|]. split; [reflexivity|]. split; [reflexivity|]. split; [lia|]. reflexivity.
Qed.

(** C44, criteria: a block hash in the criteria of eth_newFilter is ignored, so the filter
    answers logs of other blocks. *)
Theorem C72_block_hash_ignored_refuted : ∃ c l h,
  fc_hash c = Some h ∧ new_filter_ok c = true ∧ pl_block_hash l ≠ h ∧ ILog l ∈ select (KLogs c) (FLogs [l]).
Proof.
  exists (mkFC (Some ex_h1) None None (mkCrit [] [])), (mkPlaced (ELog (replicate 20 7%N) [] []) ex_h2 5 ex_h1 0 0), ex_h1.
  split; [done|]. split; [done|]. split; [discriminate|]. apply C44_selects. split; [left|]. split_and!; try discriminate.
  split; [by left|]. intros i sub H. cbn in H. by rewrite lookup_nil in H.
Qed.

(** A concrete schedule: a log filter installed between two batches of a block, polled
    twice; the second batch is answered once, the first not at all. *)
Definition ex_log (n : N) : placed_log := mkPlaced (ELog (replicate 20 n) [] []) ex_h1 1 ex_h2 0 0.
Definition ex_all : fcrit := mkFC None None None (mkCrit [] []).
Example C44_polling : ∃ s, freach 300 s ∧ f_answers s !! 0 = Some [[ILog (ex_log 2); ILog (ex_log 3)]; []] ∧
  taken_of 0 s = block_events [[ex_log 1]; [ex_log 2; ex_log 3]] ex_h1.
Proof.
  assert (H : freach 300 f_init) by constructor.
  step H ltac:(apply (S_emit _ _ (block_events [[ex_log 1]; [ex_log 2; ex_log 3]] ex_h1))).
  step H ltac:((eapply (S_take _ _ 0 _ _ []); [reflexivity|reflexivity|apply NoDup_nil_2|]; intros id; rewrite elem_of_nil; (split; [done|]); intros (k & Hk & _); by destruct (lookup_empty_Some id k Hk))).
  step H ltac:(apply (S_new _ _ 0 (KLogs ex_all)); [set_solver|done]).
  step H ltac:(apply (S_install _ _ 0 (KLogs ex_all)); reflexivity).
  step H ltac:(apply (S_register _ _ 0 (KLogs ex_all)); reflexivity).
  step H ltac:(apply (S_return _ _ 0); reflexivity).
  step H ltac:(taking 0 (KLogs ex_all)).
  step H ltac:(apply (S_deliver _ _ (FLogs [ex_log 2; ex_log 3]) 0 []); reflexivity).
  step H ltac:(eapply (S_append _ _ (FLogs [ex_log 2; ex_log 3]) 0); reflexivity).
  step H ltac:(taking 0 (KLogs ex_all)).
  step H ltac:(taking 0 (KLogs ex_all)).
  step H ltac:(eapply (S_poll _ _ 0); reflexivity).
  step H ltac:(eapply (S_poll _ _ 0); reflexivity).
  eexists. split; [exact H|].
  split; reflexivity.
Qed.
