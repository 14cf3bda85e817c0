(** C90-C93: websocket subscriptions and the mempool wrapper (Model/Subs.v). *)
From Verif.Base Require Import Prelude.
From Verif.Model Require Import EthLog Indexer Filters Subs.
From Verif.Proofs Require Import FiltersP SubsP.
Open Scope nat_scope.

(** What a subscription installed after the first [n] events is owed. *)
Definition owed (k : kind) (n : nat) (taken : list fevent) : list fitem := concat (select k <$> drop n taken).
(** The subscription's kind and start. *)
Definition sub_of (p : phase) : option (kind * nat) :=
  match p with PWait _ => None | PStart k n | PListen k n | PNotify k n _ | PLeave k n | PGone k n => Some (k, n) end.

(** ** C90 *)
(** What a client got is, at every moment of every schedule, an initial part of what its
    subscription selects from the events since it was installed: nothing twice, nothing out
    of order, nothing else. *)
Theorem C90_nothing_else s id p k n : wreach s → w_ph s !! id = Some p → sub_of p = Some (k, n) →
  n <= length (w_taken s) ∧ ∃ later, owed k n (w_taken s) = sent s id ++ later.
Proof.
  intros Hr Hp Hs. pose proof (WI_ph s (winv_reach s Hr) id p Hp) as H.
  destruct p as [k'|k' n'|k' n'|k' n' e|k' n'|k' n']; cbn in Hs; try done; injection Hs as -> ->; cbn in H.
  1-3: destruct H as [Hn H]; split; [done|]; eexists; symmetry; exact H.
  - done.
  - destruct H as (? & _ & ?). done.
Qed.
(** And nothing is left out: a subscription that is waiting for events while the loop is idle
    has notified its client of everything. *)
Theorem C90_complete s id k n : wreach s → w_ph s !! id = Some (PListen k n) → w_loop s = None →
  sent s id = owed k n (w_taken s).
Proof.
  intros Hr Hp Hl. destruct (WI_ph s (winv_reach s Hr) id _ Hp) as [_ H]. cbn in H. unfold wfly in H. rewrite Hl in H. cbn in H.
  by rewrite app_nil_r in H.
Qed.
(** Before it is installed it gets nothing, and neither does an id never given out. *)
Theorem C90_not_before s id : wreach s → (w_ph s !! id = None ∨ ∃ k, w_ph s !! id = Some (PWait k)) → sent s id = [].
Proof.
  intros Hr [H|(k & H)].
  - by apply (WI_new s (winv_reach s Hr)).
  - by destruct (WI_ph s (winv_reach s Hr) id _ H).
Qed.

(** After the client has left, it gets nothing any more. *)
Definition left (p : phase) : Prop := match p with PLeave _ _ | PGone _ _ => True | _ => False end.
Lemma left_step w s s' id p : wstep w s s' → w_ph s !! id = Some p → left p →
  sent s' id = sent s id ∧ ∃ p', w_ph s' !! id = Some p' ∧ left p'.
Proof.
  intros Hs Hp Hlf.
  destruct Hs as [s m|s i m e es ids Hl Hm He Hnd Hids|s i Hi|s i t Hi|s e x r k n Hl Hq|s e x r k n Hl Hq|s x k n e Hq|s x k n e pre post Hq Hpp|s x k Hq Hk|s x k Hl Hq|s x k n Hq|s x k n Hq|s x k n Hl Hq];
    unfold sent; cbn [w_ph w_sent]; try (split; [done|by eauto]);
    (destruct (decide (x = id)) as [->|Hx];
     [rewrite Hq in Hp; first [discriminate Hp|injection Hp as <-]; try done
     |rewrite ?lookup_insert_ne by done; split; [done|by eauto]]).
  rewrite lookup_insert. split; [done|by eauto].
Qed.
Theorem C90_silent_after_leaving ok s s' id p : wsteps ok s s' → w_ph s !! id = Some p → left p →
  sent s' id = sent s id.
Proof.
  intros H. revert p. induction H as [|w s s' s'' Hw Hs Hss IH]; [done|]. intros p Hp Hl.
  destruct (left_step _ _ _ _ _ Hs Hp Hl) as (E & p' & Hp' & Hl'). by rewrite (IH p' Hp' Hl').
Qed.

(** Without new blocks, transactions, subscribers and departures, every schedule comes to
    an end... *)
Theorem C90_terminates (run : nat → wstate) :
  ¬ (∀ i, ∃ w, w ≠ World ∧ wstep w (run i) (run (S i))).
Proof.
  intros H. assert (Hd : ∀ i, i + wwork (run i) <= wwork (run 0)).
  { induction i as [|i IH]; [done|]. destruct (H i) as (w & Hw & Hs). pose proof (wwork_dec _ _ _ Hw Hs). lia. }
  specialize (Hd (S (wwork (run 0)))). lia.
Qed.
(** ... and where it ends, the loop is idle, all emitters have finished, every client got
    everything it was owed, and all who left are gone. *)
Theorem C90_finished s : wreach s → (∀ w s', w ≠ World → ¬ wstep w s s') →
  w_loop s = None ∧ (∀ i m, w_emit s !! i = Some m → m = None) ∧
  ∀ id p, w_ph s !! id = Some p →
    (∃ k n, p = PListen k n ∧ sent s id = owed k n (w_taken s)) ∨ (∃ k n, p = PGone k n).
Proof.
  intros Hr Hst. destruct (wstuck s Hr Hst) as (Hl & He & Hp). split; [done|]. split; [done|].
  intros id p H. destruct (Hp id p H) as [(k & n & ->)|?]; [|by right]. left. exists k, n. split; [done|]. by apply C90_complete.
Qed.
(** A transaction being inserted reaches the wrapped mempool in all of them. *)
Definition handed (s : wstate) (i : nat) (t : bytes) : Prop := (∃ es, w_emit s !! i = Some (Some (EInsert t es))) ∨ t ∈ w_pool s.
Lemma handed_step w s s' i t : wstep w s s' → handed s i t → handed s' i t.
Proof.
  intros Hs [(es0 & He0)|Hin].
  2: { right. destruct Hs; cbn; try done. apply elem_of_app. by left. }
  destruct Hs as [s m|s j m e es ids Hl Hm He Hnd Hids|s j Hi|s j u Hi|s e x r k n Hl Hq|s e x r k n Hl Hq|s x k n e Hq|s x k n e pre post Hq Hpp|s x k Hq Hk|s x k Hl Hq|s x k n Hq|s x k n Hq|s x k n Hl Hq];
    unfold handed; cbn [w_emit w_pool]; try (left; by eauto).
  - left. exists es0. by apply lookup_app_l_Some.
  - destruct (decide (i = j)) as [->|Hij]; [|left; exists es0; by rewrite list_lookup_insert_ne].
    rewrite Hm in He0. injection He0 as ->. left. exists es. cbn. apply list_lookup_insert. apply lookup_lt_Some in Hm. done.
  - destruct (decide (i = j)) as [->|Hij]; [congruence|]. left; exists es0; by rewrite list_lookup_insert_ne.
  - destruct (decide (i = j)) as [->|Hij]; [|left; exists es0; by rewrite list_lookup_insert_ne].
    right. rewrite Hi in He0. injection He0 as -> _. apply elem_of_app. right. by left.
Qed.
Theorem C90_insert_returns ok s s' i t es : wreach s' → wsteps ok s s' → w_emit s !! i = Some (Some (EInsert t es)) →
  (∀ w s'', w ≠ World → ¬ wstep w s' s'') → t ∈ w_pool s'.
Proof.
  intros Hr Hss He Hst. assert (H : handed s' i t).
  { assert (H0 : handed s i t) by (left; eauto). clear -Hss H0. induction Hss as [|w s s' s'' Hw Hs Hss IH]; [done|]. apply IH. by eapply handed_step. }
  destruct H as [(es' & H)|?]; [|done]. destruct (wstuck s' Hr Hst) as (_ & Hn & _). by apply Hn in H.
Qed.

(** ** C91: one slow client *)
(** While one client does not take a notification and the loop has the next event for it, no
    step of the server or of new work moves the loop: nobody is notified of anything new,
    nobody is installed or uninstalled, no emitter gets rid of an event and no transaction
    with an announcement left reaches the mempool - however many other clients there are. *)
Definition stalled (s : wstate) (id : fid) : Prop :=
  ∃ e r k n e', w_loop s = Some (e, id :: r) ∧ w_ph s !! id = Some (PNotify k n e').
Lemma stalled_step w s s' id : w ≠ Reader → wstep w s s' → stalled s id →
  stalled s' id ∧ w_taken s' = w_taken s ∧ w_sent s' = w_sent s ∧
  (∀ i t e es, w_emit s !! i = Some (Some (EInsert t (e :: es))) → w_emit s' !! i = Some (Some (EInsert t (e :: es)))).
Proof.
  intros Hw Hs (e0 & r0 & k0 & n0 & e0' & Hl0 & Hp0).
  destruct Hs as [s m|s j m e es ids Hl Hm He Hnd Hids|s j Hi|s j u Hi|s e x r k n Hl Hq|s e x r k n Hl Hq|s x k n e Hq|s x k n e pre post Hq Hpp|s x k Hq Hk|s x k Hl Hq|s x k n Hq|s x k n Hq|s x k n Hl Hq];
    try done; try congruence;
    unfold stalled; cbn [w_emit w_loop w_ph w_taken w_sent w_pool];
    (split; [exists e0, r0, k0, n0, e0'; (split; [done|]); first [done|(rewrite lookup_insert_ne; [done|intros ->; congruence])]|]);
    (split; [done|]); (split; [done|]); try done;
    intros i t ee es0 H.
  - by apply lookup_app_l_Some.
  - rewrite list_lookup_insert_ne; [done|]. intros ->. congruence.
  - rewrite list_lookup_insert_ne; [done|]. intros ->. congruence.
Qed.
Theorem C91_slow_client_refuted s s' id : stalled s id → wsteps (fun w => w ≠ Reader) s s' →
  stalled s' id ∧ w_taken s' = w_taken s ∧ w_sent s' = w_sent s ∧
  (∀ i t e es, w_emit s !! i = Some (Some (EInsert t (e :: es))) → w_emit s' !! i = Some (Some (EInsert t (e :: es)))).
Proof.
  intros Hst H. induction H as [|w s s' s'' Hw Hs Hss IH]; [done|].
  destruct (stalled_step _ _ _ _ Hw Hs Hst) as (H1 & H2 & H3 & H4). destruct (IH H1) as (I1 & I2 & I3 & I4).
  split; [done|]. split; [congruence|]. split; [congruence|]. eauto.
Qed.
(** Such a state is reached: subscriber 0 has not taken the first pending transaction, the
    second is waiting for it, and a third is inside Insert. Subscriber 1, of new blocks, will
    not hear of the block that has been committed either. *)
Definition ph1 : gmap fid phase := <[0 := PWait KTxHashes]> ∅.
Definition ph2 : gmap fid phase := <[0 := PStart KTxHashes 0]> ph1.
Definition ph3 : gmap fid phase := <[0 := PListen KTxHashes 0]> ph2.
Definition ph4 : gmap fid phase := <[1 := PWait KBlocks]> ph3.
Definition ph5 : gmap fid phase := <[1 := PStart KBlocks 0]> ph4.
Definition ph6 : gmap fid phase := <[1 := PListen KBlocks 0]> ph5.
Definition ph7 : gmap fid phase := <[0 := PNotify KTxHashes 0 (FTx [1%N])]> ph6.
Definition em1 : option emitter := Some (EInsert [1%N] [FTx [1%N]]).
Definition em2 : option emitter := Some (EInsert [2%N] [FTx [2%N]]).
Definition em3 : option emitter := Some (EInsert [3%N] [FTx [3%N]]).
Definition em4 : option emitter := Some (EBlock [FLogs []; FHeader [9%N]]).
Definition st_all : wstate := mkW [em1; em2; em3; em4] None ph6 [] ∅ [].
Definition st_took : wstate := mkW [Some (EInsert [1%N] []); em2; em3; em4] (Some (FTx [1%N], [0])) ph6 [FTx [1%N]] ∅ [].
Definition st_note : wstate := mkW [Some (EInsert [1%N] []); em2; em3; em4] None ph7 [FTx [1%N]] ∅ [].
Definition st_took2 : wstate := mkW [Some (EInsert [1%N] []); Some (EInsert [2%N] []); em3; em4] (Some (FTx [2%N], [0])) ph7 [FTx [1%N]; FTx [2%N]] ∅ [].
Definition st_in1 : wstate := mkW [None; Some (EInsert [2%N] []); em3; em4] (Some (FTx [2%N], [0])) ph7 [FTx [1%N]; FTx [2%N]] ∅ [[1%N]].
Definition st_stall : wstate := mkW [None; None; em3; em4] (Some (FTx [2%N], [0])) ph7 [FTx [1%N]; FTx [2%N]] ∅ [[1%N]; [2%N]].
Lemma ph6_cases id p : ph6 !! id = Some p → id = 0 ∨ p = PListen KBlocks 0.
Proof.
  destruct id as [|[|id]]; [by left| |].
  - intros H. right. change (ph6 !! 1) with (Some (PListen KBlocks 0)) in H. congruence.
  - intros H. exfalso. unfold ph6, ph5, ph4, ph3, ph2, ph1 in H. rewrite !lookup_insert_ne in H by done. by rewrite lookup_empty in H.
Qed.
Lemma st_ids (m : gmap fid phase) p0 h : (∀ id, id ≠ 0 → m !! id = ph6 !! id) → m !! 0 = Some p0 → installed p0 = Some KTxHashes →
  ∀ id, id ∈ [0] ↔ ∃ p k, m !! id = Some p ∧ installed p = Some k ∧ wants k (FTx h) = true.
Proof.
  intros Hm H0 Hi id. rewrite elem_of_list_singleton. split.
  - intros ->. exists p0, KTxHashes. done.
  - intros (p & k & Hp & Hk & Hw). destruct (decide (id = 0)) as [->|Hne]; [done|]. rewrite Hm in Hp by done.
    destruct (ph6_cases _ _ Hp) as [->| ->]; [done|]. injection Hk as <-. done.
Qed.
Lemma st_stall_reach : wreach st_stall.
Proof.
  assert (R : wreach st_all).
  { eapply (WR_step World (mkW [em1; em2; em3] None ph6 [] ∅ [])); [|exact (W_emit (mkW [em1; em2; em3] None ph6 [] ∅ []) (EBlock [FLogs []; FHeader [9%N]]))].
    eapply (WR_step World (mkW [em1; em2] None ph6 [] ∅ [])); [|exact (W_emit (mkW [em1; em2] None ph6 [] ∅ []) (EInsert [3%N] [FTx [3%N]]))].
    eapply (WR_step World (mkW [em1] None ph6 [] ∅ [])); [|exact (W_emit (mkW [em1] None ph6 [] ∅ []) (EInsert [2%N] [FTx [2%N]]))].
    eapply (WR_step World (mkW [] None ph6 [] ∅ [])); [|exact (W_emit (mkW [] None ph6 [] ∅ []) (EInsert [1%N] [FTx [1%N]]))].
    eapply (WR_step Server (mkW [] None ph5 [] ∅ [])); [|exact (W_start (mkW [] None ph5 [] ∅ []) 1 KBlocks 0 eq_refl)].
    eapply (WR_step Server (mkW [] None ph4 [] ∅ [])); [|exact (W_install (mkW [] None ph4 [] ∅ []) 1 KBlocks eq_refl eq_refl)].
    eapply (WR_step World (mkW [] None ph3 [] ∅ [])); [|exact (W_subscribe (mkW [] None ph3 [] ∅ []) 1 KBlocks eq_refl I)].
    eapply (WR_step Server (mkW [] None ph2 [] ∅ [])); [|exact (W_start (mkW [] None ph2 [] ∅ []) 0 KTxHashes 0 eq_refl)].
    eapply (WR_step Server (mkW [] None ph1 [] ∅ [])); [|exact (W_install (mkW [] None ph1 [] ∅ []) 0 KTxHashes eq_refl eq_refl)].
    eapply (WR_step World w_init); [apply WR_init|exact (W_subscribe w_init 0 KTxHashes eq_refl I)]. }
  assert (R1 : wreach st_took).
  { eapply (WR_step Server st_all); [exact R|].
    refine (W_take st_all 0 (EInsert [1%N] [FTx [1%N]]) (FTx [1%N]) [] [0] eq_refl eq_refl eq_refl (NoDup_singleton _) _).
    apply (st_ids ph6 (PListen KTxHashes 0)); done. }
  assert (R2 : wreach st_note) by (eapply (WR_step Server st_took); [exact R1|exact (W_deliver st_took (FTx [1%N]) 0 [] KTxHashes 0 eq_refl eq_refl)]).
  assert (R3 : wreach st_took2).
  { eapply (WR_step Server st_note); [exact R2|].
    refine (W_take st_note 1 (EInsert [2%N] [FTx [2%N]]) (FTx [2%N]) [] [0] eq_refl eq_refl eq_refl (NoDup_singleton _) _).
    apply (st_ids ph7 (PNotify KTxHashes 0 (FTx [1%N]))); [|done|done]. intros id Hid. unfold ph7. by rewrite lookup_insert_ne. }
  eapply (WR_step Server st_in1); [|exact (W_insert st_in1 1 [2%N] eq_refl)].
  eapply (WR_step Server st_took2); [exact R3|exact (W_insert st_took2 0 [1%N] eq_refl)].
Qed.
Theorem C91_stall_is_reachable : ∃ s, wreach s ∧ stalled s 0 ∧
  w_ph s !! 1 = Some (PListen KBlocks 0) ∧ sent s 1 = [] ∧ w_pool s = [[1%N]; [2%N]] ∧
  (∃ i, w_emit s !! i = Some (Some (EInsert [3%N] [FTx [3%N]]))) ∧
  (∃ i, w_emit s !! i = Some (Some (EBlock [FLogs []; FHeader [9%N]]))).
Proof.
  exists st_stall. split; [apply st_stall_reach|]. split; [exists (FTx [2%N]), [], KTxHashes, 0, (FTx [1%N]); split; reflexivity|].
  split; [reflexivity|]. split; [reflexivity|]. split; [reflexivity|]. split; [exists 2; reflexivity|exists 3; reflexivity].
Qed.

(** From there the client reads: it gets both transactions, in order. *)
Definition nx1 : wstate := mkW (w_emit st_stall) (w_loop st_stall) (<[0 := PListen KTxHashes 0]> (w_ph st_stall)) (w_taken st_stall)
  (<[0 := sent st_stall 0 ++ select KTxHashes (FTx [1%N])]> (w_sent st_stall)) (w_pool st_stall).
Definition nx2 : wstate := mkW (w_emit nx1) None (<[0 := PNotify KTxHashes 0 (FTx [2%N])]> (w_ph nx1)) (w_taken nx1) (w_sent nx1) (w_pool nx1).
Definition nx3 : wstate := mkW (w_emit nx2) None (<[0 := PListen KTxHashes 0]> (w_ph nx2)) (w_taken nx2)
  (<[0 := sent nx2 0 ++ select KTxHashes (FTx [2%N])]> (w_sent nx2)) (w_pool nx2).
Example C90_example : wreach nx3 ∧ w_ph nx3 !! 0 = Some (PListen KTxHashes 0) ∧ w_loop nx3 = None ∧ sent nx3 0 = owed KTxHashes 0 (w_taken nx3) ∧ length (sent nx3 0) = 2.
Proof.
  split; [|split_and!; reflexivity].
  assert (R1 : wreach nx1) by (eapply (WR_step Reader st_stall); [apply st_stall_reach|exact (W_notified st_stall 0 KTxHashes 0 (FTx [1%N]) eq_refl)]).
  assert (R2 : wreach nx2) by (eapply (WR_step Server nx1); [exact R1|exact (W_deliver nx1 (FTx [2%N]) 0 [] KTxHashes 0 eq_refl eq_refl)]).
  eapply (WR_step Reader nx2); [exact R2|exact (W_notified nx2 0 KTxHashes 0 (FTx [2%N]) eq_refl)].
Qed.

(** ** C92: inserting into the mempool *)
(** A transaction is accepted exactly if the wrapped mempool accepts it, unless someone
    listens and it is not convertible; an Ethereum transaction is announced once, by its
    hash, and nothing else is. *)
Theorem C92_insert subscribers conversion inner :
  (mempool_insert subscribers conversion inner).1 = inner ∧
    (mempool_insert subscribers conversion inner).2 = (if subscribers then match conversion with Some (Some h) => [FTx h] | _ => [] end else [])
  ∨ subscribers = true ∧ conversion = None ∧ mempool_insert subscribers conversion inner = (false, []).
Proof. unfold mempool_insert. destruct subscribers, conversion as [[h|]|]; auto. Qed.
Theorem C92_each_announced_once h inner :
  (mempool_insert true (Some (Some h)) inner).2 = [FTx h] ∧ ∀ k, wants k (FTx h) = true ↔ k = KTxHashes ∨ k = KTxs.
Proof. split; [done|]. intros []; cbn; naive_solver. Qed.
(** ** C93: what an announcement does not mean *)
(** Announced before it is inserted, whatever the mempool then says. *)
Theorem C93_announced_but_refused_refuted h : mempool_insert true (Some (Some h)) false = (false, [FTx h]).
Proof. done. Qed.
(** Whether a node admits a transaction depends on whether its JSON-RPC is on. *)
Theorem C93_admission_depends_on_rpc_refuted : mempool_insert true None true = (false, []) ∧ mempool_insert false None true = (true, []).
Proof. done. Qed.
