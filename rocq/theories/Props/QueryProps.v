(** Queries change nothing (C55); account numbers (C61). *)
From Verif.Base Require Import Prelude Layers Hex.
From Verif.Model Require Import Snapshots Query Token Precompile.
From Verif.Spec Require Import Frames.
From Verif.Proofs Require Import LayersP SnapshotsP TokenMore.
From Verif.Props Require Import StateDBProps PrecompileProps.
Open Scope nat_scope.

(** * C55 *)
Section c55.
Context {K V : Type} `{Countable K}.

(** The contexts older than [b] and the base cannot be changed by a program all of
    whose contexts, and the parents of those it can flush, are [b] or newer. *)
Definition older_same (b : nat) (ms ms' : mstore K V) : Prop :=
  m_base ms' = m_base ms ∧ ∀ n, S n < b → m_layers ms' !! n = m_layers ms !! n.
Lemma older_refl b ms : older_same b ms ms. Proof. done. Qed.
Lemma older_trans b ms1 ms2 ms3 : older_same b ms1 ms2 → older_same b ms2 ms3 → older_same b ms1 ms3.
Proof. intros [H1 H2] [H3 H4]. split; [congruence|]. intros n Hn. rewrite H4, H2 by done. done. Qed.
Lemma older_upd b ms n f : b <= S n → older_same b ms (upd_layer ms n f).
Proof.
  intros Hb. split; [done|]. intros k Hk. unfold upd_layer. simpl. apply list_lookup_alter_ne. lia.
Qed.
Lemma qrun_older (b : nat) (p : qprog K V) : 1 <= b → ∀ caps ms,
  Forall (fun c => b <= c ∧ c <= length (m_layers ms)) caps →
  (∀ i c, caps !! S i = Some c → ∃ n l, c = S n ∧ m_layers ms !! n = Some l ∧ b <= l_parent l) →
  b <= S (length (m_layers ms)) → older_same b ms (qrun caps p ms).
Proof.
  intros Hb. induction p as [|i k f IH|i k o p IH|i p IH|i p IH]; intros caps ms Hc Hp Hl; simpl.
  - apply older_refl.
  - destruct (caps !! i) as [c|]; [|apply older_refl]. by apply IH.
  - destruct (caps !! i) as [c|] eqn:Hi; [|apply older_refl].
    rewrite Forall_lookup in Hc. destruct (Hc i c Hi) as [Hbc Hlc].
    assert (Hlen : length (m_layers (write ms c k o)) = length (m_layers ms)) by apply length_write.
    eapply older_trans; [|apply IH].
    + destruct c as [|n]; [lia|]. simpl. apply older_upd. lia.
    + apply Forall_lookup. intros j c' Hj. rewrite Hlen. eauto.
    + intros j c' Hj. destruct (Hp j c' Hj) as (n & l & -> & Hn & Hpar).
      destruct c as [|n0]; [lia|]. simpl.
      destruct (decide (n0 = n)) as [->|Hne].
      * eexists n, _. split; [done|]. rewrite list_lookup_alter, Hn. split; [reflexivity|done].
      * exists n, l. split; [done|]. rewrite list_lookup_alter_ne by done. done.
    + by rewrite Hlen.
  - destruct (caps !! i) as [c|] eqn:Hi; [|apply older_refl]. unfold branch.
    rewrite Forall_lookup in Hc. destruct (Hc i c Hi) as [Hbc Hlc].
    set (ms1 := MStore (m_base ms) (m_layers ms ++ [Layer c ∅])).
    assert (Hlen : length (m_layers ms1) = S (length (m_layers ms))) by (simpl; rewrite app_length; simpl; lia).
    eapply older_trans; [|apply (IH (caps ++ [S (length (m_layers ms))]) ms1)].
    + split; [done|]. intros n Hn. simpl. apply lookup_app_l. lia.
    + apply Forall_lookup. intros j c' Hj. rewrite Hlen.
      apply lookup_app_Some in Hj as [Hj|[_ Hj]]; [destruct (Hc j c' Hj); lia|].
      apply list_lookup_singleton_Some in Hj as [_ <-]. lia.
    + intros j c' Hj. apply lookup_app_Some in Hj as [Hj|[_ Hj]].
      * destruct (Hp j c' Hj) as (n & l & -> & Hn & Hpar). exists n, l. split; [done|]. split; [|done].
        simpl. by apply lookup_app_l_Some.
      * apply list_lookup_singleton_Some in Hj as [_ <-].
        exists (length (m_layers ms)), (Layer c ∅). split; [done|]. split; [|done]. simpl.
        rewrite lookup_app_r, Nat.sub_diag by lia. done.
    + rewrite Hlen. lia.
  - destruct i as [|i]; [apply older_refl|]. destruct (caps !! S i) as [c|] eqn:Hi; [|apply older_refl].
    rewrite Forall_lookup in Hc.
    destruct (Hp i c Hi) as (n & l & -> & Hn & Hpar).
    assert (Hfl : flush ms (S n) = upd_layer (upd_layer ms (l_parent l - 1) (fun d => l_delta l ∪ d)) n (fun _ => ∅)).
    { simpl. rewrite Hn. destruct (l_parent l) as [|q]; [lia|]. simpl. by rewrite Nat.sub_0_r. }
    assert (Hlen : length (m_layers (flush ms (S n))) = length (m_layers ms)) by apply length_flush.
    eapply older_trans; [|apply IH].
    + rewrite Hfl. destruct (Hc _ _ Hi) as [? ?]. eapply older_trans; apply older_upd; lia.
    + apply Forall_lookup. intros j c' Hj. rewrite Hlen. eauto.
    + intros j c' Hj. destruct (Hp j c' Hj) as (n' & l' & -> & Hn' & Hpar').
      rewrite Hfl. exists n'. 
      assert (Hg : ∀ (ms0 : mstore K V) q g, (∃ l0, m_layers ms0 !! n' = Some l0 ∧ b <= l_parent l0) →
        ∃ l0, m_layers (upd_layer ms0 q g) !! n' = Some l0 ∧ b <= l_parent l0).
      { intros ms0 q g (l0 & H0 & Hp0). unfold upd_layer. simpl. destruct (decide (q = n')) as [->|Hq].
        - rewrite list_lookup_alter, H0. simpl. eexists. split; [reflexivity|done].
        - rewrite list_lookup_alter_ne by done. eauto. }
      destruct (Hg (upd_layer ms (l_parent l - 1) (fun d => l_delta l ∪ d)) n (fun _ => ∅)) as (l0 & H0 & Hp0).
      { apply Hg. eauto. }
      eauto.
    + by rewrite Hlen.
Qed.

Lemma view_fuel_older (f b : nat) (ms ms' : mstore K V) c : wf ms → older_same b ms ms' → c < b →
  view_fuel f ms' c = view_fuel f ms c.
Proof.
  intros Hwf [H1 H2]. revert c. induction f as [|f IH]; intros [|n] Hc; simpl; try done.
  rewrite H2 by done. destruct (m_layers ms !! n) as [l|] eqn:Hn; [|done].
  f_equal. apply IH. apply Hwf in Hn. lia.
Qed.

(** Whatever the contract does — reads, writes through the cache context or through
    branches of it, flushes of those branches, in any order and depending on what it
    reads — every context that existed before shows the same content after the query. *)
Theorem C55_query_changes_nothing (c : nat) (p : qprog K V) (ms : mstore K V) :
  wf ms → c <= length (m_layers ms) →
  ∀ c', c' <= length (m_layers ms) → view (query_call c p ms) c' = view ms c'.
Proof.
  intros Hwf Hc c' Hc'. unfold query_call, branch.
  set (ms1 := MStore (m_base ms) (m_layers ms ++ [Layer c ∅])). set (b := S (length (m_layers ms))).
  assert (Hlen : length (m_layers ms1) = b) by (simpl; rewrite app_length; simpl; subst b; lia).
  assert (Hold : older_same b ms1 (qrun [b] p ms1)).
  { apply qrun_older; [subst b; lia| | |rewrite Hlen; lia].
    - constructor; [|constructor]. rewrite Hlen. subst b. lia.
    - intros i x Hx. simpl in Hx. by rewrite lookup_nil in Hx. }
  assert (Hwf1 : wf ms1).
  { intros n l Hn. apply lookup_app_Some in Hn as [Hn|[Hge Hn]]; [by apply Hwf|].
    apply list_lookup_singleton_Some in Hn as [Hz <-]. simpl. lia. }
  unfold view. rewrite (view_fuel_older c' b ms1 _ c' Hwf1 Hold) by (subst b; lia).
  assert (Hold2 : older_same b ms ms1).
  { split; [done|]. intros n Hn. simpl. apply lookup_app_l. subst b. lia. }
  apply (view_fuel_older c' b ms ms1 c' Hwf Hold2). subst b. lia.
Qed.
(** In particular the persistent store. *)
Theorem C55_query_keeps_store (p : qprog K V) (ms : mstore K V) c :
  wf ms → c <= length (m_layers ms) → m_base (query_call c p ms) = m_base ms.
Proof.
  intros Hwf Hc. pose proof (C55_query_changes_nothing c p ms Hwf Hc 0 ltac:(lia)) as H0. done.
Qed.
End c55.
(** Static calls made by the chain itself (balances, metadata) leave registry, accounts
    and message queue alone although they are not run on a cache context. *)
Theorem C55_static_call_no_effect {msg} (P : penv msg) rdec cdec ok l s :
  run_act P rdec cdec false (PFrame true ok l) s = s.
Proof.
  rewrite run_frame. simpl. unfold run_acts. revert s. induction l as [|a l IH]; intros s; simpl; [done|].
  rewrite C40_static_frame_no_effect. apply IH.
Qed.
Example C55_example :
  let p : qprog nat nat := QWrite 0 1 (Some 5) (QBranch 0 (QRead 1 1 (fun v => QWrite 1 2 v (QFlush 1 (QWrite 0 3 None QDone))))) in
  let ms := MStore ({[ 3 := 9 ]} : gmap nat nat) [] in
  let ms' := query_call 0 p ms in
  read ms' 0 1 = None ∧ read ms' 0 3 = Some 9 ∧ read ms' 1 2 = Some 5 ∧ read ms' 1 3 = None.
Proof. vm_compute. repeat split. Qed.

(** * C61: account numbers *)

(** Numbers are below the counter and no two accounts share one. *)
Definition numbers_ok (m : gmap nkey N) : Prop :=
  (∀ a n, m !! Some a = Some n → (n < default 0 (m !! None))%N) ∧
  (∀ a b n, m !! Some a = Some n → m !! Some b = Some n → a = b).

(** Contract executions that create accounts in their own frames only. *)
Inductive creating : prog nkey N → Prop :=
| cr_done ok : creating (Done ok)
| cr_read k f : (∀ v, creating (f v)) → creating (Read k f)
| cr_call c f : creating c → (∀ b, creating (f b)) → creating (Call c f)
| cr_new a p : creating p →
    creating (Read (Some a) (fun x => match x with
      | Some _ => p
      | None => Read None (fun n => Write None (Some (default 0 n + 1)%N) (Write (Some a) (Some (default 0%N n)) p))
      end)).
Lemma sem_numbers p : creating p → ∀ m, numbers_ok m → numbers_ok (snd (sem p m)).
Proof.
  intros Hp. induction Hp as [ok|k f Hf IH|c f Hc IHc Hf IHf|a p Hp IH]; intros m Hm; simpl.
  - done.
  - by apply IH.
  - destruct (sem c m) as [[|] m'] eqn:Es.
    + apply IHf. specialize (IHc m Hm). by rewrite Es in IHc.
    + by apply IHf.
  - destruct (m !! Some a) as [x|] eqn:Ha; [by apply IH|]. apply IH. destruct Hm as [H1 H2]. split.
    + intros b n. rewrite (lookup_insert_ne _ (Some a) None), lookup_insert by done. simpl.
      destruct (decide (b = a)) as [->|Hb].
      * rewrite lookup_insert. intros [= <-]. lia.
      * rewrite !lookup_insert_ne by congruence. intros Hn. specialize (H1 b n Hn). lia.
    + intros b b' n. destruct (decide (b = a)) as [->|Hb], (decide (b' = a)) as [->|Hb'].
      * done.
      * rewrite lookup_insert, !lookup_insert_ne by congruence. intros [= <-] Hn. specialize (H1 _ _ Hn). lia.
      * rewrite lookup_insert, !lookup_insert_ne by congruence. intros Hn [= <-]. specialize (H1 _ _ Hn). lia.
      * rewrite !lookup_insert_ne by congruence. by apply H2.
Qed.
(** They keep account numbers unique (no inner frame failing, where C01 holds). *)
Theorem C61_numbers_unique_partial p m r :
  creating p → numbers_ok m → inner_ok p m = true → exec p m = Some r → numbers_ok (snd r).
Proof.
  intros Hp Hm Hi. rewrite (C01_commit_publishes_unreverted_frames_partial _ _ p m Hi). intros [= <-].
  unfold exec_spec. pose proof (sem_numbers p Hp m Hm) as H. by destruct (sem p m) as [[|] m'].
Qed.

(** The code as it is: accounts the registry precompile creates during an execution
    are made on the context the execution started with, those of the execution's own
    frames on its branch. [X] is created first in a frame, then [Y] by the precompile;
    after the commit both have the same number. *)
Definition frame_then_precompile (m : gmap nkey N) (X Y : bytes) : gmap nkey N :=
  let s := fst (snapshot (new_sdb m)) in
  let ms1 := new_account (db_store s) (db_ctx s) X in          (* CreateContract in the frame *)
  let ms2 := new_account ms1 0 Y in                            (* register_erc20_store *)
  m_base (db_store (flush_all (SDB ms2 (db_ctx s) (db_snaps s)))).
Theorem C61_numbers_unique_refuted (m : gmap nkey N) (X Y : bytes) n :
  X ≠ Y → m !! Some X = None → m !! Some Y = None → default 0%N (m !! None) = n →
  let m' := frame_then_precompile m X Y in
  m' !! Some X = Some n ∧ m' !! Some Y = Some n.
Proof.
  intros Hne HX HY Hn. cbv zeta. unfold frame_then_precompile, snapshot, new_sdb, branch. simpl.
  assert (HrX : read (MStore m [Layer 0 ∅]) 1 (Some X) = None).
  { unfold read, view. simpl. rewrite lookup_apply_delta, lookup_empty. done. }
  assert (HrN : read (MStore m [Layer 0 ∅]) 1 None = m !! None).
  { unfold read, view. simpl. rewrite lookup_apply_delta, lookup_empty. done. }
  assert (H1 : new_account (MStore m [Layer 0 ∅]) 1 X =
    MStore m [Layer 0 (<[Some X := Some n]> (<[None := Some (n + 1)%N]> ∅))]).
  { unfold new_account. rewrite HrX. unfold next_number. rewrite HrN, Hn. done. }
  rewrite H1.
  assert (H2 : ∀ ls, new_account (MStore m ls) 0 Y = MStore (<[Some Y := n]> (<[None := (n + 1)%N]> m)) ls).
  { intros ls. unfold new_account, next_number, read, view. simpl. by rewrite HY, Hn. }
  rewrite H2. unfold flush_all. simpl.
  split.
  - rewrite lookup_apply_delta. rewrite lookup_insert. done.
  - rewrite lookup_apply_delta. rewrite !lookup_insert_ne by congruence. rewrite lookup_empty.
    rewrite lookup_insert. done.
Qed.
Example C61_example :
  let m : gmap nkey N := {[ None := 7%N; Some x_bob := 3%N ]} in
  let m' := frame_then_precompile m x_contract x_alice in
  m' !! Some x_contract = Some 7%N ∧ m' !! Some x_alice = Some 7%N ∧ m' !! None = Some 8%N.
Proof. vm_compute. repeat split. Qed.
