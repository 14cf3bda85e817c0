(** Properties C01-C12 and C56: the EVM state database (x/evm/state/statedb.go).

    [exec p m]: outcome and persistent state after running the call tree [p] from the
    persistent state [m] with the repository's StateDB (Model/Snapshots.v);
    [exec_spec p m]: what it should be (Spec/Frames.v).
    [reach m s], [reach_outer m s], [op_ok], [last_store], …: Spec/StateDBSpec.v. *)
From Verif.Base Require Import Prelude Layers.
From Verif.Model Require Import Snapshots StateDB Paths.
From Verif.Spec Require Import Frames StateDBSpec.
From Verif.Proofs Require Import LayersP SnapshotsP PathsP JournalP StateDBP StateDBHist StateDBMore.

(** ** C01 *)
(** Full statement: [forall p m, exec p m = Some (exec_spec p m)]. It is false of the code
    (next theorem). Proved: it holds whenever no inner frame fails. *)
Theorem C01_commit_publishes_unreverted_frames_partial :
  forall (K V : Type) `{Countable K} (p : prog K V) (m : gmap K V),
    inner_ok p m = true -> exec p m = Some (exec_spec p m).
Proof. intros. apply exec_with_good. auto. Qed.

(** Counterexample: one inner frame reverts, the outer writes are lost. *)
Theorem C01_commit_publishes_unreverted_frames_refuted :
  exists (p : prog nat nat) (m : gmap nat nat) r, exec p m = Some r /\ r <> exec_spec p m.
Proof.
  exists (Write 1 (Some 7) (Call (Done false) (fun _ => Done true))), ∅.
  eexists. split; [vm_compute; reflexivity|].
  intros Heq. apply (f_equal (fun r => snd r !! 1)) in Heq. vm_compute in Heq. discriminate.
Qed.

(** The defect in general: any writes of the top frame made before one failing inner call
    are lost although the transaction succeeds. *)
Theorem C01_outer_writes_lost_after_inner_revert :
  forall (K V : Type) `{Countable K} (ws : list (K * V)) (bad rest : prog K V) (m : gmap K V),
    let w := after_writes ws m in
    inner_ok bad w = true -> fst (sem bad w) = false ->
    inner_ok rest w = true -> fst (sem rest w) = true ->
    exec (writes ws (Call bad (fun _ => rest))) m = Some (true, m) /\
    fst (exec_spec (writes ws (Call bad (fun _ => rest))) m) = true.
Proof.
  intros K V ? ? ws bad rest m w H1 H2 H3 H4. split; [apply inner_revert_loses; done|].
  unfold exec_spec. enough (fst (sem (writes ws (Call bad (fun _ => rest))) m) = true) as He.
  { destruct (sem _ m) as [[] ?]; done. }
  subst w. clear H1 H3. revert m H2 H4. induction ws as [|[k v] ws IH]; intros m; cbn.
  - intros H2 H4. destruct (sem bad m) as [[] ?]; cbn in *; [discriminate|exact H4].
  - apply IH.
Qed.

(** With the one-line repair ([snaps[:i+1]]) the full statement holds. *)
Theorem C01_repaired_revert_is_correct :
  forall (K V : Type) `{Countable K} (p : prog K V) (m : gmap K V),
    exec_repaired p m = Some (exec_spec p m).
Proof. intros. apply exec_with_good. auto. Qed.

(** What the snapshots do in every case, repaired or not: a trace of writes, snapshots and reverts
    behaves as on a path (Model/Paths.v) of contexts of which only the newest is written. Both
    panic at the same revert; otherwise the same state is read and the same state is committed. *)
Theorem C01_paths :
  forall (K V : Type) `{Countable K} (t : list (dbop K V)) (m : gmap K V),
    match db_run revert_to (new_sdb m) t with
    | None => path_run (Path m []) t = None
    | Some s => exists p, path_run (Path m []) t = Some p /\ db_view s = pt_cur p /\
        m_base (db_store (flush_all s)) = pt_commit p
    end.
Proof.
  intros K V ? ? t m. pose proof (walks_run t (new_sdb m) (Path m []) (walks_new m)) as H'.
  destruct (db_run revert_to (new_sdb m) t) as [s|]; [|done]. destruct H' as (p & Hp & Hw).
  exists p. split; [done|]. split; [by apply walks_view|by apply walks_commit].
Qed.
(** Two snapshots, a write, a revert to the first of them, a write: the second write is read but
    not committed, because the branch it went to is no longer in the list. *)
Example C01_paths_example :
  let t := [OSnapshot; OPut 1 (Some 7); OSnapshot; OPut 2 (Some 8); ORevert 0; OPut 3 (Some 9)] in
  exists p, path_run (Path (∅ : gmap nat nat) []) t = Some p /\ pt_cur p !! 3 = Some 9 /\ pt_cur p !! 2 = None /\
    pt_commit p !! 3 = None /\ pt_commit p !! 1 = None.
Proof. eexists. split; [reflexivity|]. vm_compute. auto. Qed.

Example C01_partial_nontrivial :
  let p := Write 1 (Some 7) (Call (Write 2 (Some 8) (Call (Write 1 (Some 9) (Done true)) (fun _ => Done true)))
             (fun b => if b then Read 2 (fun v => Write 3 v (Done true)) else Done false)) in
  inner_ok p (∅ : gmap nat nat) = true /\ snd (exec_spec p ∅) !! 3 = Some 8 /\ snd (exec_spec p (∅:gmap nat nat)) !! 1 = Some 9.
Proof. vm_compute. auto. Qed.
Example C01_lost_nontrivial :
  inner_ok (Write 5 (Some 5) (Done false)) (after_writes [(1,7)] (∅ : gmap nat nat)) = true.
Proof. reflexivity. Qed.

(** ** C02 *)
(** Full statement: for every [t], [jrun (Journal m []) t = Some j] implies
    [db_run revert_to (new_sdb m) t = Some s] with [db_view s = j_cur j]. Proved for traces
    in which only the last revert goes to an inner snapshot. *)
Theorem C02_revert_restores_view_partial :
  forall (K V : Type) `{Countable K} (m : gmap K V) (t : list (dbop K V)) (i : Z) j',
    only_outer t = true ->
    jrun (Journal m []) (t ++ [ORevert i]) = Some j' ->
    exists s', db_run revert_to (new_sdb m) (t ++ [ORevert i]) = Some s' /\ db_view s' = j_cur j'.
Proof. intros. eapply first_revert_ok; eauto. Qed.

(** Two inner reverts: the second one restores the wrong state. *)
Theorem C02_revert_restores_view_refuted :
  exists (t : list (dbop nat nat)) j s,
    jrun (Journal ∅ []) t = Some j /\ db_run revert_to (new_sdb ∅) t = Some s /\ db_view s <> j_cur j.
Proof.
  exists [OSnapshot; OPut 1 (Some 7); OSnapshot; ORevert 0; OSnapshot; OPut 2 (Some 9); ORevert 0].
  do 2 eexists. split; [vm_compute; reflexivity|]. split; [vm_compute; reflexivity|].
  intros Heq. apply (f_equal (fun m => m !! 2)) in Heq. vm_compute in Heq. discriminate.
Qed.
(** … and the id handed out after an inner revert is the one of the outermost snapshot, so
    the reverting caller gets the state before the whole execution. *)
Theorem C02_id_reused_after_inner_revert :
  forall (m : gmap nat nat) k v,
    exists s1 s2, db_run revert_to (new_sdb m) [OSnapshot; OPut k (Some v); OSnapshot; ORevert 0] = Some s1 /\
      snd (snapshot s1) = (-1)%Z /\ db_view s1 = <[k := v]> m /\
      revert_to (fst (snapshot s1)) (snd (snapshot s1)) = Some s2 /\ db_view s2 = m.
Proof.
  intros m k v. do 2 eexists. split; [reflexivity|]. split; [reflexivity|]. split; [|split; reflexivity].
  unfold db_view. cbn. apply map_eq. intros k'. unfold apply_delta. rewrite lookup_merge.
  destruct (decide (k = k')) as [->|Hne].
  - rewrite !lookup_insert. destruct (m !! k'); reflexivity.
  - rewrite !lookup_insert_ne by done. rewrite lookup_empty. destruct (m !! k'); reflexivity.
Qed.

(** The same property for whole frames of StateDB commands. *)
Theorem C02_frame_revert_partial :
  forall fee_log keccak (m : world) s e l s2 s3,
    reach_outer fee_log keccak m s ->
    steps fee_log keccak e (fst (snapshot s)) l = Some s2 ->
    revert_to s2 (snd (snapshot s)) = Some s3 ->
    vw s3 = vw s.
Proof. intros. eapply frame_revert; eauto. Qed.

Theorem C02_repaired_revert_restores_view :
  forall (K V : Type) `{Countable K} (m : gmap K V) (t : list (dbop K V)) j',
    jrun (Journal m []) t = Some j' ->
    exists s', db_run revert_to_repaired (new_sdb m) t = Some s' /\ db_view s' = j_cur j'.
Proof.
  intros. destruct (run_repaired t _ _ _ (rel_new m) H0) as (s' & Hr & _ & Hv & _). eauto.
Qed.
Example C02_nontrivial :
  only_outer [OSnapshot; OPut 1 (Some 7); OSnapshot; OPut 1 (Some 8)] = true /\
  jrun (Journal (∅ : gmap nat nat) []) ([OSnapshot; OPut 1 (Some 7); OSnapshot; OPut 1 (Some 8)] ++ [ORevert 0])
    = Some (Journal {[1 := 7]} [∅]).
Proof. vm_compute. auto. Qed.

(** ** C03 *)
(** Full statement: [fst r = false -> snd r = m] for every [exec p m = Some r]. *)
Theorem C03_failed_execution_has_no_effect_partial :
  forall (K V : Type) `{Countable K} (p : prog K V) (m : gmap K V),
    inner_ok p m = true -> fst (sem p m) = false -> exec p m = Some (false, m).
Proof.
  intros K V ? ? p m Hi Hf. rewrite (C01_commit_publishes_unreverted_frames_partial K V p m Hi).
  unfold exec_spec. destruct (sem p m) as [[] ?]; [discriminate|reflexivity].
Qed.
(** The same at the level of StateDB commands: whatever commands the execution runs after
    its first snapshot and whatever inner snapshots it reverts to, as long as none of these
    reverts uses the id of the outermost snapshot, the persistent state is unchanged before
    and after the final revert. *)
Theorem C03_failed_commands_have_no_effect_partial :
  forall fee_log keccak (m : world) s,
    inner_trace fee_log keccak (fst (snapshot (new_sdb m))) s ->
    m_base (db_store s) = m /\
    exists s', revert_to s (-1) = Some s' /\ vw s' = m /\ m_base (db_store s') = m.
Proof. intros. eapply failed_exec_base; eauto. Qed.

(** Counterexample: two inner frames fail, then a write, then the whole call fails; the
    write stays in the chain's state. *)
Theorem C03_failed_execution_has_no_effect_refuted :
  exists (p : prog nat nat) (m m' : gmap nat nat), exec p m = Some (false, m') /\ m' <> m.
Proof.
  exists (Call (Done false) (fun _ => Call (Done false) (fun _ => Write 1 (Some 7) (Done false)))), ∅.
  eexists. split; [vm_compute; reflexivity|].
  intros Heq. apply (f_equal (fun r => r !! 1)) in Heq. vm_compute in Heq. discriminate.
Qed.
Theorem C03_repaired_failed_execution_has_no_effect :
  forall (K V : Type) `{Countable K} (p : prog K V) (m m' : gmap K V),
    exec_repaired p m = Some (false, m') -> m' = m.
Proof.
  intros K V ? ? p m m'. rewrite C01_repaired_revert_is_correct. unfold exec_spec.
  destruct (sem p m) as [[] ?]; congruence.
Qed.
Example C03_nontrivial : inner_ok (Write 1 (Some 7) (Call (Write 2 None (Done true)) (fun _ => Done false))) ({[2:=3]} : gmap nat nat) = true
  /\ fst (sem (Write 1 (Some 7) (Call (Write 2 None (Done true)) (fun _ => Done false))) ({[2:=3]} : gmap nat nat)) = false.
Proof. vm_compute. auto. Qed.

(** ** C04 *)
Theorem C04_storage_is_last_write :
  forall fee_log keccak (m : world) e s l s' a slot,
    reach fee_log keccak m s -> is_addr a -> forallb op_ok l = true ->
    steps fee_log keccak e s l = Some s' -> exist s a = true -> exist s' a = true ->
    get_state s' a slot = match last_store a slot l with Some v => v | None => get_state s a slot end.
Proof. intros. eapply storage_history; eauto. Qed.
(** Storage writes leave the code and code size of every contract alone. *)
Theorem C04_storage_write_keeps_code :
  forall fee_log keccak (m : world) s a slot v b,
    reach fee_log keccak m s -> is_addr a -> is_addr b ->
    get_code (set_state s a slot v) b = get_code s b /\
    get_code_size (set_state s a slot v) b = get_code_size s b /\
    get_nonce (set_state s a slot v) b = get_nonce s b.
Proof.
  intros fl kc m s a slot v b HR Ha Hb. apply reach_DB in HR. unfold get_code, get_code_size, get_nonce, set_state.
  rewrite vw_put by done. rewrite get_acc_insert_ne by done.
  split; [|split; [|done]]; destruct (get_acc (vw s) b) as [[[] ? ? ?]|]; try done.
  - f_equal. apply get_vm_lookup, lookup_insert_ne. intros [= E]. revert E. apply state_code_ne. congruence.
  - erewrite get_vm_lookup; [reflexivity|]. apply lookup_insert_ne. intros [= E]. revert E. apply state_codesize_ne. congruence.
Qed.

Definition demo_addr (n : N) : bytes := replicate 19 0%N ++ [n].
Definition demo_hash (n : N) : bytes := replicate 31 0%N ++ [n].
Definition demo_log (a b : bytes) (n : N) : log := Log a [a; b] (be 32 n).
Definition demo_keccak (b : bytes) : bytes := be 32 (of_be b + 1).
Definition demo_ops : list op :=
  [OpCreateContract (demo_addr 1); OpSetState (demo_addr 1) (demo_hash 1) (demo_hash 5);
   OpSetState (demo_addr 1) (demo_hash 2) (demo_hash 6); OpSnapshotS;
   OpSetState (demo_addr 1) (demo_hash 1) (demo_hash 7)].
Example C04_nontrivial :
  forallb op_ok demo_ops = true /\
  (s' ← steps demo_log demo_keccak 0 (fst (snapshot (new_sdb ∅))) demo_ops;
   Some (exist s' (demo_addr 1), get_state s' (demo_addr 1) (demo_hash 1),
         get_state s' (demo_addr 1) (demo_hash 2), get_state s' (demo_addr 1) (demo_hash 3)))
  = Some (true, demo_hash 7, demo_hash 6, zero_hash).
Proof. split; vm_compute; reflexivity. Qed.

(** ** C05 *)
(** Full statement: as below without the premise that only [a] uses transient storage. *)
Theorem C05_transient_storage_partial :
  forall fee_log keccak (m : world) e s l s' a k,
    reach fee_log keccak m s -> forallb op_ok l = true ->
    (forall a' k' v, OpSetTransient a' k' v ∈ l -> a' = a) ->
    steps fee_log keccak e s l = Some s' ->
    get_transient e s' a k = match last_tstore a k l with Some v => v | None => get_transient e s a k end.
Proof. intros ? ? ? ? ? ? ? ? ? HR; intros. apply reach_DB in HR. eapply transient_history_one; eauto. Qed.
Theorem C05_transient_other_execution :
  forall fee_log keccak (m : world) e e' s l s' a k,
    reach fee_log keccak m s -> e <> e' -> steps fee_log keccak e s l = Some s' ->
    get_transient e' s' a k = get_transient e' s a k.
Proof. intros ? ? ? ? ? ? ? ? ? ? HR; intros. apply reach_DB in HR. eapply transient_other_exec; eauto. Qed.
(** One contract sets a slot twice and another once, in execution 3; execution 4 sees nothing. *)
Example C05_nontrivial :
  let a := demo_addr 1 in
  let l := [OpSetTransient a (demo_hash 1) (demo_hash 5); OpSnapshotS; OpSetTransient a (demo_hash 2) (demo_hash 6);
            OpSetTransient a (demo_hash 1) (demo_hash 7)] in
  reach demo_log demo_keccak ∅ (new_sdb ∅) /\ forallb op_ok l = true /\
  (forall a' k' v, OpSetTransient a' k' v ∈ l -> a' = a) /\
  (s' ← steps demo_log demo_keccak 3 (new_sdb ∅) l;
   Some (get_transient 3 s' a (demo_hash 1), get_transient 3 s' a (demo_hash 2), get_transient 4 s' a (demo_hash 1)))
  = Some (demo_hash 7, demo_hash 6, zero_hash).
Proof.
  split; [constructor|]. split; [vm_compute; reflexivity|]. split; [|vm_compute; reflexivity].
  intros a' k' v H. repeat (apply elem_of_cons in H as [H|H]; [first [discriminate | injection H as -> _ _; reflexivity]|]). by apply elem_of_nil in H.
Qed.
(** Counterexample: another contract reads, and overwrites, the value. It happens for every
    pair of contracts and every key and value. *)
Theorem C05_transient_isolation_refuted :
  forall (m : world) e a b k v, a <> b -> is_hash v -> v <> zero_hash ->
    (forall x, m !! KTVm e k <> Some x) ->
    get_transient e (new_sdb m) b k = zero_hash /\
    get_transient e (set_transient e (new_sdb m) a k v) b k = v.
Proof.
  intros m e a b k v Hne Hv Hz Hm.
  assert (Hk : m !! KTVm e k = None) by (destruct (m !! KTVm e k) eqn:E; [exfalso; eapply Hm; eauto|done]).
  assert (H0 : forall c, get_transient e (new_sdb m) c k = zero_hash).
  { intros c. unfold get_transient. change (vw (new_sdb m)) with m. rewrite Hk. done. }
  split; [apply H0|]. unfold set_transient. rewrite H0, decide_False by congruence.
  unfold get_transient. rewrite vw_put by apply DB_new. rewrite lookup_insert. apply pad_hash_32. exact Hv.
Qed.

(** ** C06 *)
Theorem C06_refund_counter :
  forall fee_log keccak (m : world) e s l r,
    reach fee_log keccak m s -> get_refund e s = Some r -> (r < 2 ^ 64)%N -> forallb op_ok l = true ->
    match steps fee_log keccak e s l with
    | Some s' => exists r', refund_after r l = Some r' /\ get_refund e s' = Some r' /\ (r' < 2 ^ 64)%N
    | None => True
    end /\ (refund_after r l = None -> steps fee_log keccak e s l = None).
Proof. intros ? ? ? ? ? ? ? HR; intros. apply reach_DB in HR. apply refund_history; auto. Qed.
Theorem C06_refund_counter_exact :
  forall l r r', (r + refund_added l < 2 ^ 64)%N -> refund_after r l = Some r' ->
    (r' + refund_subtracted l = r + refund_added l)%N.
Proof. intros. eapply refund_exact; eauto. Qed.
Theorem C06_refund_starts_at_zero :
  forall fee_log keccak (m : world) e s, reach fee_log keccak m s -> get_refund e (init_exec e s) = Some 0%N.
Proof. intros ? ? ? ? ? HR. apply reach_DB in HR. apply init_exec_facts. done. Qed.
Example C06_nontrivial :
  refund_after 0 [OpAddRefund 10; OpSnapshotS; OpSubRefund 4; OpAddRefund 1] = Some 7%N /\
  refund_after 0 [OpAddRefund 3; OpSubRefund 4] = None /\
  (s ← steps demo_log demo_keccak 0 (init_exec 0 (new_sdb ∅)) [OpAddRefund 10; OpSnapshotS; OpSubRefund 4];
   get_refund 0 s) = Some 6%N.
Proof. split; [reflexivity|]. split; [reflexivity|]. vm_compute. reflexivity. Qed.

(** ** C07 *)
Theorem C07_access_list_exact :
  forall fee_log keccak (m : world) e s l s' a,
    reach fee_log keccak m s -> is_addr a -> forallb op_ok l = true -> steps fee_log keccak e s l = Some s' ->
    (forall b, is_addr b -> address_in_al e s b = false) ->
    (forall b sl, is_addr b -> is_hash sl -> has_key (vw s) (KAccess e (b ++ sl)) = false) ->
    (address_in_al e s' a = true <-> (OpAddAddr a ∈ l \/ exists slot, OpAddSlot a slot ∈ l)) /\
    (forall sl, is_hash sl ->
       (snd (slot_in_al e s' a sl) = true <-> OpAddSlot a sl ∈ l) /\
       fst (slot_in_al e s' a sl) = address_in_al e s' a /\
       (snd (slot_in_al e s' a sl) = true -> address_in_al e s' a = true)).
Proof.
  intros fl kc m e s l s' a HR Ha Hok Hs Hna Hns. apply reach_DB in HR as HD.
  destruct (al_history fl kc e l a Ha s s' HD Hok Hs) as [H1 H2].
  assert (HA : address_in_al e s' a = true <-> (OpAddAddr a ∈ l \/ exists slot, OpAddSlot a slot ∈ l)).
  { rewrite H1. rewrite (Hna a Ha). unfold warm_addr_ops. split; [intros [?|?]; done|auto]. }
  split; [exact HA|]. intros sl Hsl. specialize (H2 sl Hsl). rewrite (Hns a sl Ha Hsl) in H2.
  assert (H3 : has_key (vw s') (KAccess e (a ++ sl)) = true <-> OpAddSlot a sl ∈ l).
  { rewrite H2. split; [intros [?|?]; done|auto]. }
  unfold slot_in_al. unfold address_in_al in *. destruct (has_key (vw s') (KAccess e a)) eqn:Ea; cbn.
  - split; [exact H3|]. auto.
  - split; [|auto]. split; [done|]. intros Hi. apply HA. right. eauto.
Qed.
Theorem C07_prepare :
  forall fee_log keccak e s sender coinbase dst pre al,
    exists l, steps fee_log keccak e s l = Some (prepare e s sender coinbase dst pre al) /\
      forall o, o ∈ l <->
        o = OpAddAddr sender \/ (exists d, dst = Some d /\ o = OpAddAddr d) \/
        (exists p, p ∈ pre /\ o = OpAddAddr p) \/
        (exists el, el ∈ al /\ (o = OpAddAddr (fst el) \/ exists k, k ∈ snd el /\ o = OpAddSlot (fst el) k)) \/
        o = OpAddAddr coinbase.
Proof.
  intros fl kc e s sender coinbase dst pre al.
  exists (prepare_ops sender coinbase dst pre al). split; [apply prepare_steps|].
  intros o. unfold prepare_ops. rewrite !elem_of_app, !elem_of_list_singleton.
  assert (E1 : o ∈ match dst with Some d => [OpAddAddr d] | None => [] end <-> exists d, dst = Some d /\ o = OpAddAddr d).
  { destruct dst; [rewrite elem_of_list_singleton|rewrite elem_of_nil]; naive_solver. }
  assert (E2 : o ∈ map OpAddAddr pre <-> exists p, p ∈ pre /\ o = OpAddAddr p).
  { rewrite elem_of_list_In, in_map_iff. setoid_rewrite elem_of_list_In. naive_solver. }
  assert (E3 : o ∈ concat (map (fun el => OpAddAddr (fst el) :: map (OpAddSlot (fst el)) (snd el)) al) <->
    exists el, el ∈ al /\ (o = OpAddAddr (fst el) \/ exists k, k ∈ snd el /\ o = OpAddSlot (fst el) k)).
  { rewrite elem_of_list_In, in_concat. split.
    - intros (x & Hx & Ho). apply in_map_iff in Hx as (el & <- & Hel). exists el. rewrite elem_of_list_In. split; [done|].
      destruct Ho as [<-|Ho]; [auto|]. apply in_map_iff in Ho as (k & <- & Hk). right. exists k. rewrite elem_of_list_In. auto.
    - intros (el & Hel & Ho). rewrite elem_of_list_In in Hel. eexists. split; [apply in_map_iff; eauto|].
      destruct Ho as [->|(k & Hk & ->)]; [left; auto|right]. apply in_map_iff. rewrite elem_of_list_In in Hk. eauto. }
  rewrite E1, E2, E3. tauto.
Qed.
Theorem C07_access_list_other_execution :
  forall fee_log keccak (m : world) e e' s l s' a sl,
    reach fee_log keccak m s -> e <> e' -> steps fee_log keccak e s l = Some s' ->
    address_in_al e' s' a = address_in_al e' s a /\ slot_in_al e' s' a sl = slot_in_al e' s a sl.
Proof.
  intros fl kc m e e' s l s' a sl HR Hne Hs. apply reach_DB in HR as HD. unfold address_in_al, slot_in_al.
  rewrite !(al_other_exec fl kc e e' l Hne s s' _ HD Hs). done.
Qed.
Example C07_nontrivial :
  (s' ← steps demo_log demo_keccak 3 (new_sdb ∅) [OpAddSlot (demo_addr 1) (demo_hash 2); OpAddAddr (demo_addr 4)];
   Some (slot_in_al 3 s' (demo_addr 1) (demo_hash 2), slot_in_al 3 s' (demo_addr 4) (demo_hash 2)))
  = Some ((true, true), (true, false)).
Proof. vm_compute. reflexivity. Qed.

(** ** C08 *)
(** Full statement: with reverted frames anywhere. Proved for histories without reverts
    ([C08_logs_complete]), for a frame reverted once ([C08_reverted_frame_partial]). *)
Theorem C08_logs_complete_partial :
  forall fee_log keccak (m : world) e s l s',
    reach fee_log keccak m s -> steps fee_log keccak e (init_exec e s) l = Some s' ->
    (N.of_nat (length l) < 2 ^ 64)%N ->
    logs e s' = Some (emitted fee_log keccak e (init_exec e s) l).
Proof.
  intros fl kc m e s l s' HR Hs Hl. apply reach_DB in HR as HD.
  destruct (init_exec_facts e s HD) as (HD0 & _ & Hn & _).
  pose proof (logs_history fl kc e l (init_exec e s) s' [] HD0 Hs) as H. apply H.
  - unfold logs. rewrite Hn. reflexivity.
  - exact Hl.
Qed.
Theorem C08_logs_of_other_executions :
  forall fee_log keccak (m : world) e e' s l s',
    reach fee_log keccak m s -> e <> e' -> steps fee_log keccak e s l = Some s' -> logs e' s' = logs e' s.
Proof. intros ? ? ? ? ? ? ? ? HR; intros. apply reach_DB in HR. eapply logs_other_exec; eauto. Qed.
Theorem C08_reverted_frame_partial :
  forall fee_log keccak (m : world) s e l s2 s3,
    reach_outer fee_log keccak m s ->
    steps fee_log keccak e (fst (snapshot s)) l = Some s2 ->
    revert_to s2 (snd (snapshot s)) = Some s3 ->
    logs e s3 = logs e s.
Proof. intros. unfold logs. erewrite frame_revert; eauto. Qed.
(** Counterexample: two inner frames revert; the log the outer frame emitted before is gone. *)
Theorem C08_logs_complete_refuted :
  let l0 := Log (demo_addr 1) [] [] in
  (s ← steps demo_log demo_keccak 0 (fst (snapshot (init_exec 0 (new_sdb ∅)))) [OpAddLog l0];
   s1 ← revert_to (fst (snapshot s)) (snd (snapshot s));
   s2 ← revert_to (fst (snapshot s1)) (snd (snapshot s1));
   Some (logs 0 s, logs 0 s2)) = Some (Some [l0], Some []).
Proof. vm_compute. reflexivity. Qed.
Example C08_nontrivial :
  emitted demo_log demo_keccak 0 (init_exec 0 (new_sdb ∅))
    [OpAddLog (Log (demo_addr 1) [] []); OpSnapshotS; OpAddBalance (demo_addr 2) 5; OpAddLog (Log (demo_addr 3) [] [])]
  = [Log (demo_addr 1) [] []; demo_log addr0 (demo_addr 2) 5; Log (demo_addr 3) [] []].
Proof. vm_compute. reflexivity. Qed.

(** ** C09 *)
Theorem C09_committed_state_constant_partial :
  forall fee_log keccak (m : world) s' a slot,
    inner_trace fee_log keccak (fst (snapshot (new_sdb m))) s' ->
    get_committed_state s' a slot = get_state (new_sdb m) a slot.
Proof. intros fl kc m s' a slot Hi. apply (committed_const fl kc (new_sdb m) s'); [constructor|done]. Qed.
(** A contract changes a slot of the state it found, opens a frame, changes it again and reverts the
    frame: the committed value stays. *)
Example C09_nontrivial :
  let a := demo_addr 1 in let k := demo_hash 1 in
  (s ← steps demo_log demo_keccak 0 (fst (snapshot (new_sdb ∅))) [OpCreateContract a; OpSetState a k (demo_hash 5)];
   s1 ← revert_to (fst (snapshot s)) (snd (snapshot s));
   Some (snd (snapshot s), get_state s a k, get_committed_state s a k, get_committed_state s1 a k)) = Some (0%Z, demo_hash 5, zero_hash, zero_hash).
Proof. vm_compute. reflexivity. Qed.
Theorem C09_committed_state_constant_refuted :
  let a := demo_addr 1 in let k := demo_hash 1 in
  (s ← steps demo_log demo_keccak 0 (fst (snapshot (new_sdb ∅))) [OpCreateContract a];
   s1 ← revert_to (fst (snapshot s)) (snd (snapshot s));
   s2 ← revert_to (fst (snapshot s1)) (snd (snapshot s1));
   s3 ← steps demo_log demo_keccak 0 s2 [OpCreateContract a; OpSetState a k (demo_hash 5)];
   Some (get_committed_state s a k, get_committed_state s3 a k)) = Some (zero_hash, demo_hash 5).
Proof. vm_compute. reflexivity. Qed.

(** ** C10 *)
(** For executions without inner reverts. [e] is a fresh execution index. *)
Theorem C10_selfdestruct_exact_partial :
  forall fee_log keccak (m : world) e l s s',
    (forall a, has_key m (KDestruct e a) = false) -> (forall a, has_key m (KCreated e a) = false) ->
    forallb op_ok l = true -> (forall b, OpSelfDestruct b ∉ l) ->
    steps fee_log keccak e (fst (snapshot (new_sdb m))) l = Some s ->
    commit fee_log e s = Some s' ->
    forall a, is_addr a ->
    let w' := m_base (db_store s') in
    let destroyed := exists l1 l2, l = l1 ++ OpSelfDestruct6780 a :: l2 /\ OpCreateContract a ∈ l1 in
    (destroyed -> get_acc (vw s) a <> None /\ get_acc w' a = None /\ (forall rest, get_vm w' (a ++ rest) = None) /\ bal w' a = 0%N) /\
    (~ destroyed -> get_acc w' a = get_acc (vw s) a /\ (forall rest, get_vm w' (a ++ rest) = get_vm (vw s) (a ++ rest))
                    /\ bal w' a = bal (vw s) a).
Proof.
  intros fl kc m e l s s' Hd Hc Hok Hno Hs Hcm a Ha w' destroyed.
  assert (Hv0 : vw (fst (snapshot (new_sdb m))) = m) by (rewrite vw_snapshot by apply DB_new; reflexivity).
  assert (HD0 : DB (fst (snapshot (new_sdb m)))) by (apply DB_snapshot, DB_new).
  assert (HRO : reach_outer fl kc m s).
  { assert (HR0 : reach_outer fl kc m (fst (snapshot (new_sdb m)))).
    { econstructor 2; [constructor 1|]. instantiate (1 := OpSnapshotS). instantiate (1 := 0%N). reflexivity. }
    revert Hs HR0. clear. generalize (fst (snapshot (new_sdb m))). induction l as [|o l IH]; intros s0; cbn [steps].
    - intros [= <-]. done.
    - destruct (step fl kc e s0 o) as [s1|] eqn:E; [|done]. intros Hs HR. eapply IH; [exact Hs|]. econstructor 2; eauto. }
  assert (Hlen : forall b, has_key (vw s) (KDestruct e b) = true -> length b = 20).
  { intros b Hb. eapply (destruct_len fl kc e l b); eauto. rewrite Hv0. apply Hd. }
  destruct (commit_facts fl kc m e s s' HRO Hlen Hcm) as [H1 H2].
  destruct (destruct_iff fl kc e l a Hno _ s HD0 Hs) as (_ & Hacc & Hiff); [rewrite Hv0; apply Hd|rewrite Hv0; apply Hc|].
  split.
  - intros Hdes. split; [apply Hacc; destruct Hdes as (l1 & l2 & -> & ?); apply elem_of_app; auto|].
    apply H1; [exact Ha|]. apply Hiff. exact Hdes.
  - intros Hnd. apply H2; [exact Ha|]. destruct (has_key (vw s) (KDestruct e a)) eqn:E; [|done].
    exfalso. apply Hnd, Hiff. done.
Qed.
(** Counterexample: after one failing inner frame a contract that was created in the same
    execution destroys itself; nothing of that is published and the address keeps its balance. *)
Theorem C10_selfdestruct_lost_refuted :
  let a := demo_addr 1 in
  let m : world := {[ KBal a := VNum 5; KSupply := VNum 5 ]} in
  (s ← steps demo_log demo_keccak 0 (fst (snapshot (init_exec 0 (new_sdb m)))) [OpCreateContract a];
   s1 ← revert_to (fst (snapshot s)) (snd (snapshot s));
   s2 ← steps demo_log demo_keccak 0 s1 [OpSelfDestruct6780 a];
   s' ← commit demo_log 0 s2;
   Some (has_key (vw s2) (KDestruct 0 a), bal (m_base (db_store s')) a)) = Some (true, 5%N).
Proof. vm_compute. reflexivity. Qed.
Example C10_nontrivial :
  let l := [OpCreateContract (demo_addr 1); OpSetState (demo_addr 1) (demo_hash 1) (demo_hash 5);
            OpCreateContract (demo_addr 2); OpSelfDestruct6780 (demo_addr 1); OpSelfDestruct6780 (demo_addr 3)] in
  let m := <[KAcc (demo_addr 3) := VAcc (Account (AContract []) 9 0 None)]> ∅ in
  (s ← steps demo_log demo_keccak 0 (fst (snapshot (init_exec 0 (new_sdb m)))) l;
   s' ← commit demo_log 0 s;
   Some (map (fun n => bool_decide (get_acc (m_base (db_store s')) (demo_addr n) = None)) [1;2;3]%N))
  = Some [true; false; false].
Proof. vm_compute. reflexivity. Qed.

(** ** C11 *)
Theorem C11_creation_never_overwrites :
  forall fee_log keccak (m : world) e s a s',
    reach fee_log keccak m s -> create_contract e s a = Some s' ->
    match get_acc (vw s) a with
    | Some x => ac_kind x = ABase /\ ac_seq x = 0%N /\ ac_pub x = None /\
                get_acc (vw s') a = Some (Account (AContract []) (ac_num x) 0 None)
    | None => exists n, get_acc (vw s') a = Some (Account (AContract []) n 0 None) /\ get_num (vw s') KNextNum = Some (n + 1)%N
    end.
Proof.
  intros fl kc m e s a s' HR Hc. apply reach_DB in HR. apply create_contract_some in Hc; [|done].
  destruct (get_acc (vw s) a) as [x|].
  - destruct Hc as [He ?]. unfold is_empty_account in He. destruct x as [[] ? ? []]; cbn in *; try discriminate.
    apply N.eqb_eq in He. auto.
  - eauto.
Qed.
Theorem C11_creation_aborts_on_account_in_use :
  forall fee_log keccak (m : world) e s a x,
    reach fee_log keccak m s -> get_acc (vw s) a = Some x ->
    (ac_kind x <> ABase \/ ac_seq x <> 0%N \/ ac_pub x <> None) -> create_contract e s a = None.
Proof.
  intros fl kc m e s a x HR Hx Hu. apply reach_DB in HR. apply (create_contract_none fl kc e s a HR). exists x. split; [done|].
  unfold is_empty_account. destruct x as [[] ? ? []]; cbn in *; try done.
  apply N.eqb_neq. destruct Hu as [?|[?|?]]; done.
Qed.
(** go-ethereum's collision check (core/vm/evm.go, create: nonce, code hash, storage root)
    rejects such an address before CreateContract can abort. *)
Definition collides (ech : bytes) (s : db) (a : bytes) : bool :=
  negb (get_nonce s a =? 0)%N ||
  negb (bool_decide (get_code_hash ech s a = zero_hash) || bool_decide (get_code_hash ech s a = ech)) ||
  negb (bool_decide (get_storage_root s a = zero_hash)).
Theorem C11_collision_check_is_sufficient :
  forall fee_log keccak (m : world) e ech s a,
    reach fee_log keccak m s -> collides ech s a = false -> create_contract e s a <> None.
Proof.
  intros fl kc m e ech s a HR Hc Hn. apply reach_DB in HR. apply (create_contract_none fl kc e s a HR) in Hn as (x & Hx & He).
  unfold collides in Hc. apply orb_false_iff in Hc as [_ Hr]. apply negb_false_iff, bool_decide_eq_true in Hr.
  unfold get_storage_root in Hr. rewrite Hx, He in Hr. discriminate.
Qed.
Example C11_nontrivial :
  create_contract 0 (new_sdb (<[KAcc (demo_addr 1) := VAcc (Account ABase 4 0 None)]> ∅)) (demo_addr 1) <> None /\
  create_contract 0 (new_sdb (<[KAcc (demo_addr 1) := VAcc (Account AModule 4 0 None)]> ∅)) (demo_addr 1) = None /\
  create_contract 0 (new_sdb (<[KAcc (demo_addr 1) := VAcc (Account ABase 4 1 None)]> ∅)) (demo_addr 1) = None.
Proof. vm_compute. split; [discriminate|auto]. Qed.

(** ** C12 *)
Theorem C12_code_hash_size_agree :
  forall fee_log keccak ech (m : world) e s a code s1 l s',
    (forall x, length (keccak x) = 32) ->
    reach fee_log keccak m s -> is_addr a -> (N.of_nat (length code) < 2 ^ 64)%N ->
    forallb op_ok l = true -> forallb (fun o => negb (resets_code a o)) l = true ->
    set_code keccak s a code = Some s1 -> steps fee_log keccak e s1 l = Some s' ->
    get_code s' a = code /\ get_code_hash ech s' a = keccak code /\ get_code_size s' a = N.of_nat (length code).
Proof. intros. eapply code_history; eauto. Qed.
Theorem C12_accounts_without_code :
  forall ech (s : db) a,
    (match get_acc (vw s) a with Some (Account (AContract _) _ _ _) => False | _ => True end) ->
    get_code s a = [] /\ get_code_size s a = 0%N /\
    get_code_hash ech s a = match get_acc (vw s) a with None => zero_hash | Some _ => ech end.
Proof. intros ech s a. unfold get_code, get_code_size, get_code_hash. destruct (get_acc (vw s) a) as [[[] ? ? ?]|]; done. Qed.
(** An address is empty exactly when it owns nothing, and has no account or a plain one that
    never signed and has no key; asking changes nothing that can be read. *)
Theorem C12_empty :
  forall fee_log keccak (m : world) s a, reach fee_log keccak m s ->
    let '(s', e) := empty s a in
    vw s' = vw s /\
    (e = true <-> bal (vw s) a = 0%N /\
       (get_acc (vw s) a = None \/ exists n, get_acc (vw s) a = Some (Account ABase n 0%N None))).
Proof.
  intros fl kc m s a HR. apply reach_DB in HR. unfold empty, get_balance. rewrite vw_snapshot by done. split; [done|].
  destruct (N.eqb_spec (bal (vw s) a) 0) as [->|Hb]; [|split; [done|]; by intros [? _]].
  destruct (get_acc (vw s) a) as [[k n q pk]|]; unfold is_empty_account; simpl.
  - destruct k; try (split; [done|]; intros [_ [H|[? H]]]; done).
    destruct pk; [split; [done|]; intros [_ [H|[? H]]]; done|].
    rewrite N.eqb_eq. split; [intros ->; split; [done|]; right; by exists n|].
    intros [_ [H|[z H]]]; [done|by injection H].
  - split; [intros _; split; [done|by left]|done].
Qed.
Example C12_nontrivial :
  (s1 ← set_code demo_keccak (fst (snapshot (new_sdb ∅))) (demo_addr 1) [1;2;3]%N;
   s' ← steps demo_log demo_keccak 0 s1 [OpSetState (demo_addr 1) (demo_hash 1) (demo_hash 5); OpSetCode (demo_addr 2) [9]%N];
   Some (get_code s' (demo_addr 1), get_code_size s' (demo_addr 1))) = Some ([1;2;3]%N, 3%N).
Proof. vm_compute. reflexivity. Qed.

(** ** C56: native value through the state database *)
(** Crediting and debiting change one balance and the supply by the amount and nothing else
    that is a balance, and are refused exactly when the result would not be a uint256 or
    would be negative. [logs e s ≠ None]: the execution [e] has been set up. *)
Theorem C56_credit :
  forall fee_log keccak (m : world) e s a amt,
    reach fee_log keccak m s -> logs e s <> None ->
    let B s x := snd (get_balance s x) in
    (add_balance fee_log e s a amt = None <->
       amt <> 0%N /\ (2 ^ 256 <= B s a + amt \/ 2 ^ 256 <= supply (vw s) + amt)%N) /\
    (forall s', add_balance fee_log e s a amt = Some s' ->
       B s' a = (B s a + amt)%N /\ supply (vw s') = (supply (vw s) + amt)%N /\ forall x, x <> a -> B s' x = B s x).
Proof.
  intros fl kc m e s a amt HR Hl B. apply reach_DB in HR as HD. change (2 ^ 256)%N with two256.
  assert (HB : forall s x, DB s -> B s x = bal (vw s) x).
  { intros s0 x H0. unfold B, get_balance. cbn [snd]. rewrite vw_snapshot by done. done. }
  split.
  - rewrite HB by done. unfold add_balance. destruct (N.eqb_spec amt 0) as [->|Hz]; [split; [done|intros [? _]; done]|].
    rewrite !vw_snapshot by done.
    destruct (N.leb_spec two256 (bal (vw s) a + amt)), (N.leb_spec two256 (supply (vw s) + amt)); cbn [orb];
      (split; [intros Hn|intros [_ Hn]]); auto; try lia.
    exfalso. unfold add_log in Hn. rewrite !vw_put, vw_snapshot in Hn by dbstep.
    rewrite !get_num_insert_ne in Hn by done. unfold logs in Hl. destruct (get_num (vw s) (KLogSize e)); done.
  - intros s' Hs. apply add_balance_facts in Hs as [[-> ->]|(Hz & _ & _ & n & Hn & HD' & Hv)]; [| |done].
    + rewrite N.add_0_r. split; [done|]. split; [lia|done].
    + rewrite !HB by done. rewrite Hv. unfold bal, supply. rewrite !get_num_insert_ne by done. rewrite !get_num_insert. rewrite !get_num_insert_ne by done. rewrite get_num_insert.
      split; [done|]. split; [done|]. intros x Hx. rewrite !HB by done. rewrite Hv. unfold bal. rewrite !get_num_insert_ne by congruence. done.
Qed.
Theorem C56_debit :
  forall fee_log keccak (m : world) e s a amt,
    reach fee_log keccak m s -> logs e s <> None ->
    let B s x := snd (get_balance s x) in
    (sub_balance fee_log e s a amt = None <-> (B s a < amt \/ supply (vw s) < amt)%N) /\
    (forall s', sub_balance fee_log e s a amt = Some s' ->
       (B s' a + amt = B s a)%N /\ (supply (vw s') + amt = supply (vw s))%N /\ forall x, x <> a -> B s' x = B s x).
Proof.
  intros fl kc m e s a amt HR Hl B. apply reach_DB in HR as HD.
  assert (HB : forall s x, DB s -> B s x = bal (vw s) x).
  { intros s0 x H0. unfold B, get_balance. cbn [snd]. rewrite vw_snapshot by done. done. }
  split.
  - rewrite HB by done. unfold sub_balance. destruct (N.eqb_spec amt 0) as [->|Hz]; [split; [done|lia]|].
    rewrite !vw_snapshot by done.
    destruct (N.ltb_spec (bal (vw s) a) amt), (N.ltb_spec (supply (vw s)) amt); cbn [orb];
      (split; [intros Hn|intros Hn]); auto; try lia.
    exfalso. unfold add_log in Hn. rewrite !vw_put, vw_snapshot in Hn by dbstep.
    rewrite !get_num_insert_ne in Hn by done. unfold logs in Hl. destruct (get_num (vw s) (KLogSize e)); done.
  - intros s' Hs. apply sub_balance_facts in Hs as [[-> ->]|(Hz & Hb & Ht & n & Hn & HD' & Hv)]; [| |done].
    + rewrite !N.add_0_r. done.
    + rewrite !HB by done. rewrite Hv. unfold bal, supply in *. rewrite !get_num_insert_ne by done. rewrite !get_num_insert. rewrite !get_num_insert_ne by done. rewrite get_num_insert.
      cbn [default from_option id]. split; [lia|]. split; [lia|]. intros x Hx. rewrite !HB by done. rewrite Hv. unfold bal. rewrite !get_num_insert_ne by congruence. done.
Qed.
(** A plain value transfer: debit, then credit. *)
Theorem C56_transfer_conserves :
  forall fee_log keccak (m : world) e s a b amt s1 s2,
    reach fee_log keccak m s -> logs e s <> None -> a <> b ->
    sub_balance fee_log e s a amt = Some s1 -> add_balance fee_log e s1 b amt = Some s2 ->
    let B s x := snd (get_balance s x) in
    (B s2 a + amt = B s a)%N /\ B s2 b = (B s b + amt)%N /\ supply (vw s2) = supply (vw s) /\
    forall x, x <> a -> x <> b -> B s2 x = B s x.
Proof.
  intros fl kc m e s a b amt s1 s2 HR Hl Hab H1 H2 B.
  assert (HR1 : reach fl kc m s1) by (eapply reach_step with (e := e) (o := OpSubBalance a amt); eauto).
  destruct (C56_debit fl kc m e s a amt HR Hl) as [_ Hd]. destruct (Hd s1 H1) as (Ha & Ht & Ho).
  assert (Hl1 : logs e s1 <> None).
  { apply reach_DB in HR. apply sub_balance_facts in H1 as [[-> ->]|(_ & _ & _ & n & Hn & _ & Hv)]; [done| |done].
    unfold logs. rewrite Hv. rewrite get_num_insert_ne by done. rewrite get_num_insert. done. }
  destruct (C56_credit fl kc m e s1 b amt HR1 Hl1) as [_ Hc]. destruct (Hc s2 H2) as (Hb & Ht' & Ho').
  fold (B s1) (B s2) (B s) in *. unfold B in *.
  rewrite Hb, Ht', (Ho' a Hab), (Ho b) by congruence. split; [done|]. split; [done|]. split; [lia|].
  intros x Hxa Hxb. rewrite Ho', Ho by done. done.
Qed.
Example C56_db_nontrivial :
  let m := <[KBal (demo_addr 1) := VNum 10]> (<[KSupply := VNum 10]> ∅) in
  let s := fst (snapshot (init_exec 0 (new_sdb m))) in
  logs 0 s = Some [] /\
  (s1 ← sub_balance demo_log 0 s (demo_addr 1) 10; s2 ← add_balance demo_log 0 s1 (demo_addr 2) 10;
   Some (bal (vw s2) (demo_addr 1), bal (vw s2) (demo_addr 2))) = Some (0, 10)%N /\
  sub_balance demo_log 0 s (demo_addr 1) 11 = None.
Proof. vm_compute. auto. Qed.
