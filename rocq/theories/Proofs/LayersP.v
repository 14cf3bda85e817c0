(** Facts about the layered multistore. *)
From Verif.Base Require Import Prelude Layers.

Section layers.
Context {K V : Type} `{Countable K}.
Implicit Types ms : mstore K V.

Lemma lookup_apply_delta (d : gmap K (option V)) (m : gmap K V) k :
  apply_delta d m !! k = match d !! k with Some o => o | None => m !! k end.
Proof.
  unfold apply_delta. rewrite lookup_merge.
  destruct (d !! k) as [o|] eqn:Ed, (m !! k) eqn:Em; cbn; rewrite ?Ed, ?Em; reflexivity.
Qed.

Lemma apply_delta_empty m : apply_delta (∅ : gmap K (option V)) m = m.
Proof. apply map_eq; intros k. rewrite lookup_apply_delta, lookup_empty. reflexivity. Qed.

Lemma apply_delta_union (d1 d2 : gmap K (option V)) m :
  apply_delta (d1 ∪ d2) m = apply_delta d1 (apply_delta d2 m).
Proof.
  apply map_eq; intros k. rewrite !lookup_apply_delta, lookup_union.
  destruct (d1 !! k), (d2 !! k); reflexivity.
Qed.

Lemma apply_delta_idem (d : gmap K (option V)) m :
  apply_delta d (apply_delta d m) = apply_delta d m.
Proof.
  apply map_eq; intros k. rewrite !lookup_apply_delta. destruct (d !! k); reflexivity.
Qed.

(** [set_view m k o] is the content after writing [o] at [k]. *)
Definition set_view (m : gmap K V) (k : K) (o : option V) : gmap K V :=
  match o with Some v => <[k := v]> m | None => delete k m end.

Lemma lookup_set_view m k o k' :
  set_view m k o !! k' = if decide (k = k') then o else m !! k'.
Proof.
  unfold set_view. destruct o; case_decide; subst;
    rewrite ?lookup_insert, ?lookup_delete, ?lookup_insert_ne, ?lookup_delete_ne by done; done.
Qed.

Lemma apply_delta_insert (d : gmap K (option V)) m k o :
  apply_delta (<[k := o]> d) m = set_view (apply_delta d m) k o.
Proof.
  apply map_eq; intros k'. rewrite lookup_set_view, !lookup_apply_delta.
  case_decide; subst; [rewrite lookup_insert | rewrite lookup_insert_ne by done]; done.
Qed.

(** ** Fuel *)
Lemma view_fuel_enough ms f c :
  wf ms -> c <= f -> view_fuel f ms c = view_fuel c ms c.
Proof.
  intros Hwf. revert f. induction c as [c IH] using lt_wf_ind. intros f Hf.
  destruct c as [|n]; [destruct f; reflexivity|].
  destruct f as [|f]; [lia|]. cbn [view_fuel].
  destruct (m_layers ms !! n) as [l|] eqn:El; [|reflexivity].
  pose proof (Hwf _ _ El) as Hp. f_equal.
  rewrite (IH (l_parent l)) by lia. symmetry. apply IH; lia.
Qed.

Lemma view_0 ms : view ms 0 = m_base ms.
Proof. reflexivity. Qed.

Lemma view_S ms n l : wf ms -> m_layers ms !! n = Some l ->
  view ms (S n) = apply_delta (l_delta l) (view ms (l_parent l)).
Proof.
  intros Hwf El. unfold view. cbn [view_fuel]. rewrite El. f_equal.
  apply view_fuel_enough; [done|]. eapply Hwf; eauto.
Qed.

(** A view only depends on the base and the layers below it. *)
Lemma view_agree ms ms' c :
  wf ms -> wf ms' -> m_base ms = m_base ms' ->
  (forall n, n < c -> m_layers ms !! n = m_layers ms' !! n) ->
  view ms c = view ms' c.
Proof.
  intros Hwf Hwf' Hb. induction c as [c IH] using lt_wf_ind. intros Hl.
  destruct c as [|n]; [exact Hb|].
  assert (Hn := Hl n ltac:(lia)).
  destruct (m_layers ms !! n) as [l|] eqn:El.
  - rewrite (view_S ms n l), (view_S ms' n l) by (done || congruence). f_equal.
    pose proof (Hwf _ _ El). apply IH; [lia|]. intros j Hj. apply Hl. lia.
  - unfold view. cbn [view_fuel]. rewrite El, <- Hn. exact Hb.
Qed.

(** ** Well-formedness *)
Lemma wf_upd_layer ms n f : wf ms -> wf (upd_layer ms n f).
Proof.
  intros Hwf j l. unfold upd_layer. cbn [m_layers]. intros Hj.
  destruct (decide (j = n)) as [->|Hne].
  - rewrite list_lookup_alter in Hj.
    destruct (m_layers ms !! n) eqn:E; simplify_eq/=. eapply Hwf; eauto.
  - rewrite list_lookup_alter_ne in Hj by done. eapply Hwf; eauto.
Qed.

Lemma wf_write ms c k o : wf ms -> wf (write ms c k o).
Proof. intros Hwf. destruct c; [exact Hwf | apply wf_upd_layer; exact Hwf]. Qed.

Lemma wf_branch ms c : wf ms -> c <= length (m_layers ms) -> wf (fst (branch ms c)).
Proof.
  intros Hwf Hc j l. cbn. intros Hj. apply lookup_app_Some in Hj as [Hj|[Hge Hj]].
  - eapply Hwf; eauto.
  - apply list_lookup_singleton_Some in Hj as [Hz <-]. cbn. lia.
Qed.

Lemma wf_flush ms c : wf ms -> wf (flush ms c).
Proof.
  intros Hwf. destruct c as [|n]; [exact Hwf|]. cbn [flush].
  destruct (m_layers ms !! n) as [l|]; [|exact Hwf].
  apply wf_upd_layer. destruct (l_parent l); [exact Hwf|apply wf_upd_layer; exact Hwf].
Qed.

Lemma length_upd_layer ms n f : length (m_layers (upd_layer ms n f)) = length (m_layers ms).
Proof. apply alter_length. Qed.
Lemma length_write ms c k o : length (m_layers (write ms c k o)) = length (m_layers ms).
Proof. destruct c; [reflexivity | apply length_upd_layer]. Qed.
Lemma length_flush ms c : length (m_layers (flush ms c)) = length (m_layers ms).
Proof.
  destruct c as [|n]; [reflexivity|]. cbn [flush].
  destruct (m_layers ms !! n) as [l|]; [|reflexivity].
  rewrite length_upd_layer. destruct (l_parent l); [reflexivity|apply length_upd_layer].
Qed.

(** ** Parent relation is preserved *)
Definition parent_of ms (c : nat) : option nat :=
  match c with 0 => None | S n => l_parent <$> (m_layers ms !! n) end.

Lemma parent_of_lt ms c p : wf ms -> parent_of ms c = Some p -> p < c.
Proof.
  destruct c as [|n]; [done|]. cbn. intros Hwf Hp.
  apply fmap_Some in Hp as (l & Hl & ->). pose proof (Hwf _ _ Hl). lia.
Qed.

Lemma parent_of_upd ms n f c : parent_of (upd_layer ms n f) c = parent_of ms c.
Proof.
  destruct c as [|j]; [reflexivity|]. cbn.
  destruct (decide (j = n)) as [->|Hne].
  - rewrite list_lookup_alter. destruct (m_layers ms !! n); reflexivity.
  - rewrite list_lookup_alter_ne by done. reflexivity.
Qed.
Lemma parent_of_write ms c k o c' : parent_of (write ms c k o) c' = parent_of ms c'.
Proof. destruct c; [reflexivity|apply parent_of_upd]. Qed.
Lemma parent_of_flush ms c c' : parent_of (flush ms c) c' = parent_of ms c'.
Proof.
  destruct c as [|n]; [reflexivity|]. cbn [flush].
  destruct (m_layers ms !! n) as [l|]; [|reflexivity].
  rewrite parent_of_upd. destruct (l_parent l); [reflexivity|apply parent_of_upd].
Qed.
Lemma parent_of_branch ms c c' : c' <= length (m_layers ms) ->
  parent_of (fst (branch ms c)) c' = parent_of ms c'.
Proof.
  destruct c' as [|n]; [reflexivity|]. cbn. intros. rewrite lookup_app_l by lia. reflexivity.
Qed.
Lemma parent_of_branch_new ms c :
  parent_of (fst (branch ms c)) (snd (branch ms c)) = Some c.
Proof. cbn. rewrite lookup_app_r by lia. rewrite Nat.sub_diag. reflexivity. Qed.

(** ** Views after operations *)
Lemma view_write_same ms c k o : wf ms -> c <= length (m_layers ms) ->
  view (write ms c k o) c = set_view (view ms c) k o.
Proof.
  intros Hwf Hc. destruct c as [|n].
  - rewrite !view_0. cbn. destruct o; reflexivity.
  - destruct (lookup_lt_is_Some_2 (m_layers ms) n) as [l El]; [lia|].
    assert (El' : m_layers (write ms (S n) k o) !! n = Some (Layer (l_parent l) (<[k := o]> (l_delta l)))).
    { cbn. rewrite list_lookup_alter, El. reflexivity. }
    rewrite (view_S _ n _ (wf_write ms (S n) k o Hwf) El'), (view_S ms n l) by done. cbn [l_delta l_parent].
    rewrite apply_delta_insert. f_equal. f_equal.
    pose proof (Hwf _ _ El). apply view_agree; [by apply wf_write|done|reflexivity|].
    intros j Hj. cbn. rewrite list_lookup_alter_ne by lia. reflexivity.
Qed.

Lemma view_write_lt ms c k o c' : wf ms -> c' < c ->
  view (write ms c k o) c' = view ms c'.
Proof.
  intros Hwf Hc. destruct c as [|n]; [lia|].
  apply view_agree; [by apply wf_write|done|reflexivity|].
  intros j Hj. cbn. rewrite list_lookup_alter_ne by lia. reflexivity.
Qed.

Lemma view_branch_new ms c : wf ms -> c <= length (m_layers ms) ->
  view (fst (branch ms c)) (snd (branch ms c)) = view ms c.
Proof.
  intros Hwf Hc. unfold branch; cbn [fst snd].
  pose proof (wf_branch ms c Hwf Hc) as Hwf'. cbn [fst branch] in Hwf'.
  erewrite view_S; [|exact Hwf'|cbn; rewrite lookup_app_r by lia; rewrite Nat.sub_diag; reflexivity].
  cbn [l_delta l_parent]. rewrite apply_delta_empty.
  apply view_agree; [exact Hwf'|done|reflexivity|].
  intros j Hj. cbn. rewrite lookup_app_l by lia. reflexivity.
Qed.

Lemma view_branch_old ms c c' : wf ms -> c <= length (m_layers ms) -> c' <= length (m_layers ms) ->
  view (fst (branch ms c)) c' = view ms c'.
Proof.
  intros Hwf Hc Hc'. apply view_agree; [by apply wf_branch|done|reflexivity|].
  intros j Hj. cbn. rewrite lookup_app_l by lia. reflexivity.
Qed.

Lemma view_flush_parent ms c p : wf ms -> parent_of ms c = Some p ->
  view (flush ms c) p = view ms c.
Proof.
  intros Hwf Hp. pose proof (parent_of_lt _ _ _ Hwf Hp) as Hlt.
  destruct c as [|n]; [done|]. cbn in Hp.
  apply fmap_Some in Hp as (l & El & Hpl).
  rewrite (view_S ms n l) by done. rewrite <- Hpl.
  cbn [flush]. rewrite El, <- Hpl.
  destruct p as [|q].
  - reflexivity.
  - destruct (lookup_lt_is_Some_2 (m_layers ms) q) as [lq Eq].
    { pose proof (lookup_lt_Some _ _ _ El). lia. }
    set (ms1 := upd_layer ms q _). set (ms2 := upd_layer ms1 n _).
    assert (Hwf2 : wf ms2) by (do 2 apply wf_upd_layer; done).
    assert (Eq2 : m_layers ms2 !! q = Some (Layer (l_parent lq) (l_delta l ∪ l_delta lq))).
    { unfold ms2, ms1; cbn. rewrite list_lookup_alter_ne by lia.
      rewrite list_lookup_alter, Eq. reflexivity. }
    rewrite (view_S _ _ _ Hwf2 Eq2), (view_S ms q lq) by done. cbn [l_delta l_parent].
    rewrite apply_delta_union. f_equal. f_equal.
    pose proof (Hwf _ _ Eq).
    apply view_agree; [done|done|reflexivity|].
    intros j Hj. unfold ms2, ms1; cbn. rewrite !list_lookup_alter_ne by lia. reflexivity.
Qed.

Lemma view_flush_lt ms c p c' : wf ms -> parent_of ms c = Some p -> c' < p ->
  view (flush ms c) c' = view ms c'.
Proof.
  intros Hwf Hp Hc'. pose proof (parent_of_lt _ _ _ Hwf Hp) as Hlt.
  destruct c as [|n]; [done|]. cbn in Hp.
  apply fmap_Some in Hp as (l & El & Hpl).
  cbn [flush]. rewrite El, <- Hpl. destruct p as [|q]; [lia|].
  apply view_agree; [by do 2 apply wf_upd_layer|done|reflexivity|].
  intros j Hj. cbn. rewrite !list_lookup_alter_ne by lia. reflexivity.
Qed.

End layers.
