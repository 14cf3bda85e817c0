From Verif.Base Require Import Prelude Layers.
From Verif.Model Require Import Snapshots.
From Verif.Spec Require Import Frames.
From Verif.Proofs Require Import LayersP SnapshotsP.

Section proofs.
Context {K V : Type} `{Countable K}.
Implicit Types ms : mstore K V.
Implicit Types s : sdb K V.

Lemma stack_elem_lt ms p l c : wf ms -> stack ms p (l ++ [c]) -> forall x, x ∈ p :: l -> x < c.
Proof.
  intros Hwf. revert p. induction l as [|d l IH]; intros p Hs x Hx.
  - apply elem_of_list_singleton in Hx as ->. destruct Hs as [Hp _]. eapply parent_of_lt; eauto.
  - cbn in Hs. destruct Hs as [Hd Hs]. apply elem_of_cons in Hx as [->|Hx].
    + pose proof (parent_of_lt _ _ _ Hwf Hd). specialize (IH _ Hs d ltac:(left)). lia.
    + eapply IH; eauto.
Qed.

Definition Rel s (j : journal K V) : Prop :=
  Inv 0 s /\ db_view s = j_cur j /\
  j_saved j = map (view (db_store s)) (take (length (db_snaps s)) (0 :: db_snaps s)).

Lemma snaps_cases s : Inv 0 s ->
  (db_snaps s = [] /\ db_ctx s = 0) \/ exists l c, db_snaps s = l ++ [c] /\ db_ctx s = c.
Proof.
  intros (_ & _ & _ & Hc). destruct (db_snaps s) as [|c l _] using rev_ind.
  - left. rewrite Hc. done.
  - right. exists l, c. rewrite Hc, top_app. done.
Qed.

Lemma take_all_but_last l c : take (length (l ++ [c])) (0 :: (l ++ [c])) = 0 :: l.
Proof.
  rewrite app_length. cbn. rewrite Nat.add_comm. cbn. f_equal.
  rewrite take_app. reflexivity.
Qed.

Lemma rel_new m : Rel (new_sdb m) (Journal m []).
Proof. split; [apply Inv_new|]. split; reflexivity. Qed.

Lemma rel_step_other s j o rv : Rel s j ->
  (match o with ORevert _ => False | _ => True end) ->
  exists s' j', db_step rv s o = Some s' /\ jstep j o = Some j' /\ Rel s' j'.
Proof.
  intros (HI & Hv & Hsv) Ho. pose proof (Inv_ctx _ _ HI) as Hb.
  destruct o as [k ov| |]; [| |done].
  - exists (db_put s k ov). eexists. split; [done|]. cbn [jstep].
    assert (Hj : match ov with Some v => Some (Journal (<[k := v]> (j_cur j)) (j_saved j))
                 | None => Some (Journal (delete k (j_cur j)) (j_saved j)) end
                 = Some (Journal (set_view (j_cur j) k ov) (j_saved j))) by (destruct ov; done).
    split; [destruct ov; exact Hj|].
    split; [by apply Inv_put|]. split; [erewrite view_put by done; rewrite Hv; done|].
    cbn [j_saved]. rewrite Hsv. cbn [db_put db_snaps db_store].
    destruct (snaps_cases _ HI) as [[Hn Hc]|(l & c & Hn & Hc)].
    + rewrite Hn. reflexivity.
    + rewrite Hn, take_all_but_last. destruct HI as (Hwf & _ & Hs & _). rewrite Hn in Hs.
      apply map_ext_in. intros x Hx. symmetry. apply view_write_lt; [done|].
      rewrite Hc. eapply stack_elem_lt; eauto. apply elem_of_list_In. done.
  - exists (fst (snapshot s)). eexists. split; [done|]. split; [done|].
    split; [by apply Inv_snapshot|]. split; [rewrite (view_snapshot 0) by done; done|].
    cbn [j_saved]. rewrite Hsv, <- Hv.
    change (db_snaps (fst (snapshot s))) with (db_snaps s ++ [S (length (m_layers (db_store s)))]).
    rewrite take_all_but_last.
    assert (Hold : forall x, x <= length (m_layers (db_store s)) ->
       view (db_store (fst (snapshot s))) x = view (db_store s) x).
    { intros. eapply view_snapshot_old; eauto. }
    destruct (snaps_cases _ HI) as [[Hn Hc]|(l & c & Hn & Hc)].
    + rewrite Hn. cbn [length take map app]. unfold db_view. rewrite Hc.
      rewrite (Hold 0) by lia. done.
    + rewrite Hn, take_all_but_last. cbn [map]. rewrite map_app. cbn [map app].
      unfold db_view. rewrite Hc.
      destruct HI as (Hwf & _ & Hs & _). rewrite Hn in Hs.
      pose proof (stack_elem_lt _ _ _ _ Hwf Hs) as Hlt.
      rewrite (Hold 0) by lia. rewrite (Hold c) by lia. f_equal. f_equal.
      apply map_ext_in. intros x Hx. symmetry. apply Hold.
      specialize (Hlt x ltac:(right; apply elem_of_list_In; done)). lia.
Qed.

(** One revert, from a state with an intact stack: the view is right (both versions). *)
Lemma rel_revert_view s j i : Rel s j ->
  match revert_to s i, jstep j (ORevert i) with
  | Some s', Some j' => db_view s' = j_cur j' /\ (i = (-1)%Z -> Rel s' j')
  | None, None => True
  | Some _, None => (* the topmost snapshot id has not been handed out *)
      i = (Z.of_nat (length (j_saved j)) - 1)%Z
  | None, Some _ => False
  end.
Proof.
  intros (HI & Hv & Hsv). unfold revert_to. cbn [jstep].
  destruct (Z.eqb_spec i (-1)) as [->|Hne].
  - change (-1 <? -1)%Z with false. cbn match.
    assert (Hg : db_view (SDB (db_store s) 0 []) = default (j_cur j) (j_saved j !! 0)).
    { rewrite Hsv. destruct (snaps_cases _ HI) as [[Hn Hc]|(l & c & Hn & Hc)].
      - rewrite Hn. cbn. rewrite <- Hv. unfold db_view. rewrite Hc. done.
      - rewrite Hn, take_all_but_last. reflexivity. }
    split; [exact Hg|]. intros _. split; [|split; [exact Hg|reflexivity]].
    destruct HI as (Hwf & Hp & Hs & Hc). split; [done|]. split; [done|]. done.
  - destruct (Z.ltb_spec i 0), (Z.ltb_spec i (-1)); try lia.
    destruct (db_snaps s !! Z.to_nat i) as [c|] eqn:Ec.
    + assert (Hlt := lookup_lt_Some _ _ _ Ec).
      rewrite Hsv. rewrite list_lookup_fmap.
      replace (Z.to_nat (i + 1)) with (S (Z.to_nat i)) by lia.
      destruct (decide (S (Z.to_nat i) < length (db_snaps s))) as [Hd|Hd].
      * rewrite lookup_take by done. cbn [lookup list_lookup]. 
        assert (E : (0 :: db_snaps s) !! S (Z.to_nat i) = Some c) by exact Ec.
        cbn [lookup list_lookup] in E. rewrite E. cbn [fmap option_fmap option_map].
        split; [reflexivity|lia].
      * rewrite lookup_take_ge by lia. cbn. rewrite map_length, take_length. cbn. lia.
    + apply lookup_ge_None in Ec.
      rewrite Hsv, list_lookup_fmap. rewrite lookup_take_ge by lia. done.
Qed.

Lemma run_outer s j t : Rel s j -> only_outer t = true ->
  exists s' j', db_run revert_to s t = Some s' /\ jrun j t = Some j' /\ Rel s' j'.
Proof.
  revert s j. induction t as [|o t IH]; intros s j HR Ht.
  - exists s, j. done.
  - cbn in Ht. apply andb_true_iff in Ht as [Ho Ht]. cbn [db_run jrun].
    assert (exists s' j', db_step revert_to s o = Some s' /\ jstep j o = Some j' /\ Rel s' j') as (s' & j' & E1 & E2 & HR').
    { destruct o as [k v| |i]; [apply rel_step_other; done|apply rel_step_other; done|].
      apply Z.eqb_eq in Ho as ->. pose proof (rel_revert_view _ _ (-1)%Z HR) as Hr.
      cbn [db_step]. destruct (revert_to s (-1)) as [s'|] eqn:Es; [|discriminate Es].
      destruct (jstep j (ORevert (-1))) as [j'|] eqn:Ej; [|discriminate Ej].
      exists s', j'. destruct Hr as [_ Hr]. auto. }
    rewrite E1, E2. apply IH; done.
Qed.

Lemma db_run_app rv s t1 t2 : db_run rv s (t1 ++ t2) =
  match db_run rv s t1 with None => None | Some s' => db_run rv s' t2 end.
Proof.
  revert s. induction t1 as [|o t1 IH]; intros s; [reflexivity|]. cbn.
  destruct (db_step rv s o); [apply IH|reflexivity].
Qed.
Lemma jrun_app (j : journal K V) t1 t2 : jrun j (t1 ++ t2) =
  match jrun j t1 with None => None | Some j' => jrun j' t2 end.
Proof.
  revert j. induction t1 as [|o t1 IH]; intros j; [reflexivity|]. cbn.
  destruct (jstep j o); [apply IH|reflexivity].
Qed.

Lemma first_revert_ok (m : gmap K V) t i j' : only_outer t = true ->
  jrun (Journal m []) (t ++ [ORevert i]) = Some j' ->
  exists s', db_run revert_to (new_sdb m) (t ++ [ORevert i]) = Some s' /\ db_view s' = j_cur j'.
Proof.
  intros Ht Hj. destruct (run_outer _ _ t (rel_new m) Ht) as (s1 & j1 & E1 & E2 & HR).
  rewrite jrun_app, E2 in Hj. rewrite db_run_app, E1. cbn [db_run jrun db_step] in *.
  pose proof (rel_revert_view _ _ i HR) as Hr.
  destruct (jstep j1 (ORevert i)) as [j2|] eqn:Ej; [|done].
  destruct (revert_to s1 i) as [s2|]; [|done].
  exists s2. split; [done|]. destruct Hr as [Hr _]. congruence.
Qed.

Lemma rel_revert_repaired s j i j' : Rel s j -> jstep j (ORevert i) = Some j' ->
  exists s', revert_to_repaired s i = Some s' /\ Rel s' j'.
Proof.
  intros HR Hj. pose proof (rel_revert_view _ _ i HR) as Hr. rewrite Hj in Hr.
  unfold revert_to, revert_to_repaired in *. pose proof HR as (HI & Hv & Hsv).
  destruct (Z.eqb_spec i (-1)) as [->|Hne].
  - eexists. split; [done|]. apply Hr. done.
  - cbn [jstep] in Hj. destruct (Z.eqb_spec i (-1)); [lia|].
    destruct (Z.ltb_spec i 0); [done|]. destruct (Z.ltb_spec i (-1)); [lia|].
    destruct (j_saved j !! Z.to_nat (i + 1)) as [w|] eqn:Ew; [|done].
    injection Hj as <-.
    destruct (db_snaps s !! Z.to_nat i) as [c|] eqn:Ec; [|done].
    eexists. split; [reflexivity|]. destruct Hr as [Hr _].
    assert (Hlt := lookup_lt_Some _ _ _ Ec).
    assert (Htk : take (S (Z.to_nat i)) (db_snaps s) = take (Z.to_nat i) (db_snaps s) ++ [c]).
    { erewrite take_S_r by done. done. }
    destruct HI as (Hwf & Hp & Hs & Hc).
    split; [|split; [exact Hr|]].
    + split; [done|]. split; [done|]. cbn [db_snaps db_store db_ctx]. split.
      * rewrite <- (take_drop (S (Z.to_nat i)) (db_snaps s)) in Hs. apply stack_app in Hs as [Hs _]. done.
      * rewrite Htk, top_app. done.
    + cbn [j_saved db_snaps db_store]. rewrite Htk, take_all_but_last.
      rewrite Hsv. rewrite firstn_map. f_equal.
      replace (Z.to_nat (i + 1)) with (S (Z.to_nat i)) by lia.
      rewrite Hsv in Ew. apply lookup_lt_Some in Ew. rewrite map_length, take_length in Ew.
      rewrite take_take. rewrite Nat.min_l by lia. cbn. done.
Qed.

Lemma run_repaired t : forall s j j', Rel s j -> jrun j t = Some j' ->
  exists s', db_run revert_to_repaired s t = Some s' /\ Rel s' j'.
Proof.
  induction t as [|o t IH]; intros s j j' HR Hj; cbn [db_run jrun] in *.
  - injection Hj as <-. eauto.
  - destruct (jstep j o) as [j1|] eqn:Ej; [|done].
    assert (exists s1, db_step revert_to_repaired s o = Some s1 /\ Rel s1 j1) as (s1 & E1 & HR1).
    { destruct o as [k v| |i].
      - destruct (rel_step_other s j (OPut k v) revert_to_repaired HR I) as (s1 & j2 & A & B & C).
        rewrite Ej in B. injection B as <-. eauto.
      - destruct (rel_step_other s j OSnapshot revert_to_repaired HR I) as (s1 & j2 & A & B & C).
        rewrite Ej in B. injection B as <-. eauto.
      - apply (rel_revert_repaired s j i j1 HR Ej). }
    rewrite E1. eapply IH; eauto.
Qed.

Lemma outer_commit (m : gmap K V) t s' : only_outer t = true ->
  db_run revert_to (new_sdb m) t = Some s' ->
  exists j', jrun (Journal m []) t = Some j' /\ db_view s' = j_cur j' /\
             m_base (db_store (flush_all s')) = j_cur j'.
Proof.
  intros Ht Hr. destruct (run_outer _ _ t (rel_new m) Ht) as (s1 & j1 & E1 & E2 & HI & Hv & _).
  rewrite Hr in E1. injection E1 as <-. exists j1. split; [done|]. split; [done|].
  rewrite flush_all_base; done.
Qed.

End proofs.
