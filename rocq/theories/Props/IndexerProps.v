(** C41: the indexer's cached store. *)
From Verif.Base Require Import Prelude.
From stdpp Require Import sorting.
From Verif.Model Require Import CacheStore.
From Verif.Spec Require Import CacheStoreSpec.
Open Scope nat_scope.

Lemma bytes_leb_total a b : bytes_leb a b = true ∨ bytes_leb b a = true.
Proof.
  revert b. induction a as [|x a IH]; intros [|y b]; cbn; auto.
  destruct (N.ltb_spec x y), (N.ltb_spec y x); auto.
Qed.
Lemma bytes_leb_trans a b c : bytes_leb a b = true → bytes_leb b c = true → bytes_leb a c = true.
Proof.
  revert b c. induction a as [|x a IH]; intros [|y b] [|z c]; cbn; auto; try discriminate.
  destruct (N.ltb_spec x y), (N.ltb_spec y x), (N.ltb_spec y z), (N.ltb_spec z y),
    (N.ltb_spec x z), (N.ltb_spec z x); intros; try discriminate; try lia; auto; eauto.
Qed.
Lemma bytes_leb_antisym a b : bytes_leb a b = true → bytes_leb b a = true → a = b.
Proof.
  revert b. induction a as [|x a IH]; intros [|y b]; cbn; auto; try discriminate.
  destruct (N.ltb_spec x y), (N.ltb_spec y x); intros; try discriminate; try lia.
  f_equal; [lia | auto].
Qed.

Lemma kv_all_lookup s k : kv_all s !! k = kv_get s k.
Proof.
  unfold kv_all, kv_get. rewrite lookup_merge.
  destruct (cs_dirty s !! k), (cs_db s !! k); reflexivity.
Qed.

(** The relation between the store and the contents it stands for. *)
Definition cs_rel (s : cstore) (m : kvspec) : Prop :=
  (∀ k, now m !! k = kv_get s k) ∧
  (∀ k, durable m !! k = cs_db s !! k) ∧
  (∀ k v, cs_cache s !! k = Some v → kv_get s k = Some v).

Lemma strongly_sorted_lookup {A} (R : A → A → Prop) l i j x y :
  StronglySorted R l → i < j → l !! i = Some x → l !! j = Some y → R x y.
Proof.
  intros Hs. revert i j. induction Hs as [|a l Hs IH Hf]; intros i j Hij Hi Hj; [done|].
  destruct i as [|i], j as [|j]; try lia; cbn in *.
  - simplify_eq. eapply Forall_lookup_1 in Hf; eauto.
  - eapply (IH i j); eauto; lia.
Qed.

Lemma rev_lookup_ex {A} (l : list A) i x :
  reverse l !! i = Some x → i < length l ∧ l !! (length l - S i) = Some x.
Proof.
  intros H. pose proof (lookup_lt_Some _ _ _ H) as Hl. rewrite reverse_length in Hl. split; [lia|].
  rewrite <- H. rewrite reverse_lookup by lia. reflexivity.
Qed.

Lemma kv_iter_ok s m a b r :
  (∀ k, m !! k = kv_get s k) → lists_range m a b r (kv_iter s a b r).
Proof.
  intros Hm. unfold kv_iter.
  set (l0 := filter _ (map_to_list (kv_all s))).
  set (R := fun x y : bytes * bytes => Is_true (bytes_leb x.1 y.1)).
  assert (Hperm : merge_sort R l0 ≡ₚ l0) by apply merge_sort_Permutation.
  assert (Htot : Total R).
  { intros x y. unfold R. destruct (bytes_leb_total x.1 y.1) as [->| ->]; [left|right]; exact I. }
  assert (Htr : Transitive R).
  { intros x y z. unfold R. intros H1 H2. apply Is_true_eq_true in H1, H2.
    apply Is_true_eq_left. eapply bytes_leb_trans; eauto. }
  assert (Hss : StronglySorted R (merge_sort R l0)) by (apply StronglySorted_merge_sort; done).
  assert (Hnd0 : NoDup l0) by (apply NoDup_filter, NoDup_map_to_list).
  assert (Hnd : NoDup (merge_sort R l0)) by (rewrite Hperm; done).
  assert (Hin : ∀ k v, (k, v) ∈ merge_sort R l0 ↔ m !! k = Some v ∧ in_range a b k = true).
  { intros k v. rewrite Hperm. unfold l0. rewrite elem_of_list_filter, elem_of_map_to_list.
    rewrite kv_all_lookup, <- Hm. cbn. split; intros [H1 H2].
    - split; [exact H2 | exact (Is_true_eq_true _ H1)].
    - split; [exact (Is_true_eq_left _ H2) | exact H1]. }
  assert (Hrange : ∀ k, in_range a b k = true ↔
    (∀ x, a = Some x → bytes_leb x k = true) ∧ (∀ x, b = Some x → bytes_leb x k = false)).
  { intros k. unfold in_range. rewrite andb_true_iff. destruct a as [a|], b as [b|]; split.
    all: try (intros [H1 H2]; split; intros; simplify_eq; auto; try (apply negb_true_iff; done)).
    all: try (apply negb_true_iff; eauto).
    all: eauto. }
  assert (Hsort : ∀ i j x y, i < j → merge_sort R l0 !! i = Some x → merge_sort R l0 !! j = Some y →
      x.1 ≠ y.1 ∧ bytes_leb x.1 y.1 = true).
  { intros i j x y Hij Hi Hj. split.
    - intros Heq. destruct x as [k v], y as [k' v']; cbn in *; subst k'.
      assert (Hv : v = v').
      { pose proof (elem_of_list_lookup_2 _ _ _ Hi) as E1. apply Hin in E1 as [E1 _].
        pose proof (elem_of_list_lookup_2 _ _ _ Hj) as E2. apply Hin in E2 as [E2 _]. congruence. }
      subst v'. assert (i = j) by (eapply NoDup_lookup; eauto). lia.
    - apply Is_true_eq_true. exact (strongly_sorted_lookup _ _ _ _ _ _ Hss Hij Hi Hj). }
  destruct r.
  - split; [|split].
    + rewrite reverse_Permutation. done.
    + intros k v. rewrite elem_of_reverse, Hin, Hrange. done.
    + intros i j x y Hij Hi Hj.
      apply rev_lookup_ex in Hi as [Hi1 Hi2]. apply rev_lookup_ex in Hj as [Hj1 Hj2].
      edestruct Hsort as [H1 H2]; [|exact Hj2|exact Hi2|]; [lia|]. split; auto.
  - split; [done|split].
    + intros k v. rewrite Hin, Hrange. done.
    + exact Hsort.
Qed.

Lemma cstep_ok s m o :
  cs_rel s m →
  answer_ok (now m) (o, (cstep s o).1) ∧ cs_rel (cstep s o).2 (spec_step m (o, (cstep s o).1)).
Proof.
  intros (Hn & Hd & Hc). destruct o as [k ok|k ok|k v ok|k|a b rv| |D| |D].
  - cbn. unfold cs_get. destruct (cs_cache s !! k) as [v|] eqn:E; cbn.
    + split; [rewrite Hn, (Hc _ _ E); done | split; auto].
    + destruct (kv_get s k) as [v|] eqn:E2; cbn.
      * split; [rewrite Hn, E2; done|]. split; [exact Hn|split; [exact Hd|]].
        unfold kv_get; cbn. fold (kv_get s). intros k' v'.
        destruct ok; cbn.
        -- destruct (decide (k = k')) as [<-|Hk].
           ++ rewrite lookup_insert. intros [= <-]. exact E2.
           ++ rewrite lookup_insert_ne by done. apply Hc.
        -- destruct (decide (k = k')) as [<-|Hk].
           ++ rewrite lookup_delete. done.
           ++ rewrite lookup_delete_ne by done. apply Hc.
      * split; [rewrite Hn, E2; done | split; auto].
  - cbn. unfold cs_has. destruct (cs_cache s !! k) as [v|] eqn:E; cbn.
    + split; [rewrite Hn, (Hc _ _ E), bool_decide_eq_true_2 by eauto; done | split; auto].
    + destruct (kv_get s k) as [v|] eqn:E2; cbn.
      * split; [rewrite Hn, E2, bool_decide_eq_true_2 by eauto; done|]. split; [exact Hn|split; [exact Hd|]].
        unfold kv_get; cbn. fold (kv_get s). intros k' v'.
        destruct ok; cbn.
        -- destruct (decide (k = k')) as [<-|Hk].
           ++ rewrite lookup_insert. intros [= <-]. exact E2.
           ++ rewrite lookup_insert_ne by done. apply Hc.
        -- destruct (decide (k = k')) as [<-|Hk].
           ++ rewrite lookup_delete. done.
           ++ rewrite lookup_delete_ne by done. apply Hc.
      * split; [rewrite Hn, E2, bool_decide_eq_false_2 by (intros []; done); done | split; auto].
  - cbn. unfold cs_set. destruct ok; cbn; (split; [done|]).
    + split; [|split; [exact Hd|]].
      * intros k'. cbn. unfold kv_get; cbn.
        destruct (decide (k = k')) as [<-|Hk]; [by rewrite !lookup_insert|].
        rewrite !lookup_insert_ne by done. apply Hn.
      * intros k' v'. cbn. unfold kv_get; cbn.
        destruct (decide (k = k')) as [<-|Hk]; [by rewrite !lookup_insert|].
        rewrite !lookup_insert_ne by done. apply Hc.
    + split; [exact Hn|split; [exact Hd|]].
      intros k' v'. cbn. unfold kv_get; cbn. fold (kv_get s).
      destruct (decide (k = k')) as [<-|Hk]; [by rewrite lookup_delete|].
      rewrite lookup_delete_ne by done. apply Hc.
  - cbn. unfold cs_delete. destruct (cs_cache s !! k) as [v|] eqn:E; cbn.
    + split; [done|]. split; [|split; [exact Hd|]].
      * intros k'. cbn. unfold kv_get; cbn.
        destruct (decide (k = k')) as [<-|Hk]; [by rewrite lookup_delete, lookup_insert|].
        rewrite lookup_delete_ne, lookup_insert_ne by done. apply Hn.
      * intros k' v'. cbn. unfold kv_get; cbn.
        destruct (decide (k = k')) as [<-|Hk]; [by rewrite lookup_delete|].
        rewrite lookup_delete_ne, lookup_insert_ne by done. apply Hc.
    + split; [done|]. split; auto.
  - cbn. split; [|split; auto]. eexists; split; [done|]. apply kv_iter_ok. exact Hn.
  - cbn. split; [done|]. split; [|split].
    + intros k. cbn. unfold kv_get; cbn. rewrite lookup_empty, kv_all_lookup. apply Hn.
    + intros k. cbn. rewrite kv_all_lookup. apply Hn.
    + intros k v. cbn. unfold kv_get; cbn. rewrite lookup_empty, kv_all_lookup. apply Hc.
  - cbn. split; [done|]. split; [exact Hn|split; [exact Hd|]].
    intros k v. cbn. rewrite map_filter_lookup_Some. intros [H _]. apply Hc; done.
  - cbn. split; [done|]. split; [|split]; intros k; cbn; unfold kv_get; cbn;
      rewrite ?lookup_empty; auto. intros v H; discriminate H.
  - cbn. split; [done|].
    assert (Hk : ∀ k, map_union (filter (fun kv => kv.1 ∈ D) (now m))
                         (filter (fun kv => kv.1 ∉ D) (durable m)) !! k = partial_db D s !! k).
    { intros k. unfold partial_db. rewrite lookup_merge.
      pose proof (Hn k) as Hnk. pose proof (Hd k) as Hdk. unfold kv_get in Hnk.
      match goal with |- map_union ?A ?B !! k = _ => change (map_union A B) with (A ∪ B) end.
      destruct (decide (k ∈ D)) as [HD|HD].
      - assert (filter (fun kv : bytes * bytes => kv.1 ∉ D) (durable m) !! k = None) as E1.
        { apply map_filter_lookup_None. right. intros x _ H. apply H. exact HD. }
        assert (filter (fun kv : bytes * bytes => kv.1 ∈ D) (now m) !! k = now m !! k) as E2.
        { destruct (now m !! k) eqn:E; [apply map_filter_lookup_Some; done | apply map_filter_lookup_None; auto]. }
        assert (filter (fun kv : bytes * option bytes => kv.1 ∈ D) (cs_dirty s) !! k = cs_dirty s !! k) as E3.
        { destruct (cs_dirty s !! k) eqn:E; [apply map_filter_lookup_Some; done | apply map_filter_lookup_None; auto]. }
        rewrite lookup_union, E1, E2, E3, Hnk. cbn.
        destruct (cs_dirty s !! k) as [[?|]|], (cs_db s !! k); reflexivity.
      - assert (filter (fun kv : bytes * bytes => kv.1 ∈ D) (now m) !! k = None) as E1.
        { apply map_filter_lookup_None. right. intros x _ H. apply HD. exact H. }
        assert (filter (fun kv : bytes * bytes => kv.1 ∉ D) (durable m) !! k = durable m !! k) as E2.
        { destruct (durable m !! k) eqn:E; [apply map_filter_lookup_Some; done | apply map_filter_lookup_None; auto]. }
        assert (filter (fun kv : bytes * option bytes => kv.1 ∈ D) (cs_dirty s) !! k = None) as E3.
        { apply map_filter_lookup_None. right. intros x _ H. apply HD. exact H. }
        rewrite lookup_union, E1, E2, E3, Hdk. cbn. destruct (cs_db s !! k); reflexivity. }
    split; [|split]; intros k; cbn; unfold kv_get; cbn; rewrite ?lookup_empty; auto.
    intros v H; discriminate H.
Qed.

Lemma crun_app s l1 l2 :
  crun s (l1 ++ l2) =
  ((crun s l1).1 ++ (crun (crun s l1).2 l2).1, (crun (crun s l1).2 l2).2).
Proof.
  revert s. induction l1 as [|o l1 IH]; intros s; cbn.
  - destruct (crun s l2); reflexivity.
  - destruct (cstep s o) as [r s1]. rewrite IH. destruct (crun s1 l1) as [h s2]. cbn.
    destruct (crun s2 l2); reflexivity.
Qed.

Lemma crun_rel s m l :
  cs_rel s m → cs_rel (crun s l).2 (fold_left spec_step (crun s l).1 m).
Proof.
  revert s m. induction l as [|o l IH]; intros s m H; [exact H|].
  cbn. destruct (cstep s o) as [r s1] eqn:E. destruct (crun s1 l) as [h s2] eqn:E2. cbn.
  pose proof (cstep_ok s m o H) as [_ H2]. rewrite E in H2. cbn in H2.
  specialize (IH _ _ H2). rewrite E2 in IH. exact IH.
Qed.

(** C41. In every history of calls, evictions, failed insertions into the read cache and
    crashes, starting from a store opened on any database, each Get, Has and iteration
    answers with the current contents: the effect of every Set and Delete that was
    acknowledged since, on top of what had been written before the last crash. *)
Theorem C41_reads_return_latest (db : kvmap) (before : list cop) (o : cop) :
  let h := (crun (new_cache_store db) before).1 in
  let r := (cstep (crun (new_cache_store db) before).2 o).1 in
  answer_ok (now (spec_after db h)) (o, r).
Proof.
  intros h r. eapply cstep_ok. apply crun_rel. split; [|split]; intros k; cbn.
  - unfold kv_get; cbn. rewrite lookup_empty. done.
  - done.
  - intros v; rewrite lookup_empty; done.
Qed.

(** C41. A Set is refused only when the read cache cannot hold the value, and then
    changes nothing a caller can read. *)
Theorem C41_set_outcome (db : kvmap) (before : list cop) (k v : bytes) (cache_ok : bool) :
  let s := (crun (new_cache_store db) before).2 in
  (cstep s (CSet k v cache_ok)).1 = (if cache_ok then ROk else RErr) ∧
  ∀ k' ok', (cstep (cstep s (CSet k v cache_ok)).2 (CGet k' ok')).1 =
     RVal (if cache_ok && bool_decide (k' = k) then Some v
           else now (spec_after db (crun (new_cache_store db) before).1) !! k').
Proof.
  intros s. assert (Hr : cs_rel s (spec_after db (crun (new_cache_store db) before).1)).
  { apply crun_rel. split; [|split]; intros k'; cbn.
    - unfold kv_get; cbn. rewrite lookup_empty. done.
    - done.
    - intros v'; rewrite lookup_empty; done. }
  pose proof (cstep_ok s _ (CSet k v cache_ok) Hr) as [_ H2].
  split. { destruct cache_ok; reflexivity. }
  intros k' ok'. pose proof (cstep_ok _ _ (CGet k' ok') H2) as [H3 _]. cbn [answer_ok] in H3.
  rewrite H3. f_equal. destruct cache_ok; cbn.
  - case_bool_decide; [subst; by rewrite lookup_insert | by rewrite lookup_insert_ne by auto].
  - done.
Qed.

(** C41. A Delete of an entry the read cache still holds removes it. *)
Theorem C41_delete_cached (db : kvmap) (before : list cop) (k v : bytes) (ok ok' : bool) :
  let s := (crun (new_cache_store db) (before ++ [CSet k v true])).2 in
  (cstep s (CDelete k)).1 = ROk ∧
  (cstep (cstep s (CDelete k)).2 (CGet k ok')).1 = RVal None ∧
  (cstep (cstep s (CDelete k)).2 (CHas k ok')).1 = RBool false.
Proof.
  intros s. unfold s. rewrite crun_app. cbn.
  set (s0 := (crun (new_cache_store db) before).2).
  unfold cs_delete; cbn. rewrite lookup_insert; cbn.
  unfold cs_get, cs_has, kv_get; cbn. rewrite lookup_delete, lookup_insert. done.
Qed.

(** C41, the part that fails: "nothing after a Delete". When the entry has left the read
    cache (eviction, restart), or was never read into it, Delete reports an error and the
    key keeps its value, whatever the history was. *)
Theorem C69_delete_refuted (db : kvmap) (before : list cop) (k v : bytes) (ok ok' : bool) :
  let s := (crun (new_cache_store db) (before ++ [CSet k v ok; EvEvict {[k]}])).2 in
  (cstep s (CDelete k)).1 = RErr ∧
  (ok = true → (cstep (cstep s (CDelete k)).2 (CGet k ok')).1 = RVal (Some v)).
Proof.
  intros s. unfold s. rewrite crun_app.
  set (s0 := (crun (new_cache_store db) before).2).
  destruct ok; cbn; unfold cs_delete; cbn.
  - assert (E : filter (fun kv : bytes * bytes => kv.1 ∉ ({[k]} : gset bytes)) (<[k := v]> (cs_cache s0)) !! k = None).
    { apply map_filter_lookup_None. right. intros x _ H. apply H. cbn. set_solver. }
    rewrite E. cbn. split; [done|]. intros _. unfold cs_get, kv_get; cbn.
    rewrite E, lookup_insert. done.
  - assert (E : filter (fun kv : bytes * bytes => kv.1 ∉ ({[k]} : gset bytes)) (delete k (cs_cache s0)) !! k = None).
    { apply map_filter_lookup_None. left. apply lookup_delete. }
    rewrite E. done.
Qed.

(** A concrete history: written and evicted entries, a crash, an unwritten entry lost. *)
Definition ex_hist : list cop :=
  [CSet [1%N] [10%N] true; CWrite; CSet [2%N] [20%N] true; EvEvict {[ [1%N] ]}; CGet [1%N] false;
   CGet [2%N] true; EvCrash; CGet [2%N] true; CHas [1%N] true; CIterate None None true].
Example C41_example :
  map snd (crun (new_cache_store ∅) ex_hist).1 =
  [ROk; RNone; ROk; RNone; RVal (Some [10%N]); RVal (Some [20%N]); RNone; RVal None; RBool true;
   RList [([1%N], [10%N])]].
Proof. vm_compute. reflexivity. Qed.
