(** The paths of Model/Paths.v are what the snapshots of Model/Snapshots.v do. *)
From Verif.Base Require Import Prelude Layers.
From Verif.Model Require Import Snapshots Paths.
From Verif.Spec Require Import Frames.
From Verif.Proofs Require Import LayersP SnapshotsP.

Section proofs.
Context {K V : Type} `{Countable K}.
Implicit Types ms : mstore K V.
Implicit Types s : sdb K V.
Notation A := (gmap K V).

Fixpoint chain ms (c : nat) (cur : A) (u : list (bool * A)) (ids : list nat) : Prop :=
  view ms c = cur /\
  match u with
  | [] => c = 0 /\ ids = []
  | (b, par) :: u' => exists p ids', parent_of ms c = Some p /\ ids = (if b : bool then ids' ++ [c] else ids') /\ chain ms p par u' ids'
  end.
Definition walks s (p : path A) : Prop :=
  wf (db_store s) /\ db_ctx s <= length (m_layers (db_store s)) /\
  chain (db_store s) (db_ctx s) (pt_cur p) (pt_up p) (db_snaps s).

Lemma chain_ext ms ms' c cur u ids : wf ms ->
  (forall d, d <= c -> view ms' d = view ms d) -> (forall d q, d <= c -> parent_of ms d = Some q -> parent_of ms' d = Some q) ->
  chain ms c cur u ids -> chain ms' c cur u ids.
Proof.
  intros Hwf. revert c cur ids. induction u as [|[b par] u IH]; intros c cur ids Hv Hp [H1 H2]; (split; [by rewrite Hv|]); [done|].
  destruct H2 as (p & ids' & Hpar & Hi & Hc). pose proof (parent_of_lt _ _ _ Hwf Hpar) as Hlt.
  exists p, ids'. split; [by apply Hp|]. split; [done|]. apply IH; [| |done].
  - intros d Hd. apply Hv. lia.
  - intros d q Hd. apply Hp. lia.
Qed.
Lemma chain_live ms c cur u ids : chain ms c cur u ids -> length ids = pt_live u.
Proof.
  revert c cur ids. induction u as [|[b par] u IH]; intros c cur ids [_ H2]; [by destruct H2 as [_ ->]|].
  destruct H2 as (p & ids' & _ & -> & Hc). simpl. rewrite <- (IH _ _ _ Hc). destruct b; [rewrite app_length; simpl; lia|done].
Qed.
Lemma chain_base ms c cur u ids : chain ms c cur u ids -> view ms 0 = pt_base cur u.
Proof.
  revert c cur ids. induction u as [|[b par] u IH]; intros c cur ids [H1 H2].
  - destruct H2 as [-> _]. done.
  - destruct H2 as (p & ids' & _ & _ & Hc). simpl. by eapply IH.
Qed.
Lemma pt_back_none i cur (u : list (bool * A)) : pt_live u <= i -> pt_back i cur u = None.
Proof.
  revert cur. induction u as [|[b c] u IH]; intros cur Hi; [done|]. simpl in *.
  destruct b; simpl.
  - destruct (Nat.eqb_spec (pt_live u) i); [lia|]. apply IH. lia.
  - apply IH. lia.
Qed.
Lemma chain_back ms c cur u ids i : wf ms -> chain ms c cur u ids ->
  match ids !! i with
  | None => pt_back i cur u = None
  | Some d => exists p, pt_back i cur u = Some p /\ d <= c /\ chain ms d (pt_cur p) (pt_up p) (take i ids)
  end.
Proof.
  intros Hwf. revert c cur ids. induction u as [|[b par] u IH]; intros c cur ids [H1 H2].
  { destruct H2 as [_ ->]. done. }
  destruct H2 as (p & ids' & Hpar & -> & Hc). pose proof (chain_live _ _ _ _ _ Hc) as Hl.
  pose proof (parent_of_lt _ _ _ Hwf Hpar) as Hlt. specialize (IH _ _ _ Hc). destruct b.
  - simpl. destruct (Nat.eqb_spec (pt_live u) i) as [Hi|Hi].
    + rewrite <- Hi, <- Hl. rewrite list_lookup_middle by done. eexists. split; [done|]. split; [done|]. simpl.
      rewrite take_app. split; [done|]. exists p, ids'. done.
    + destruct (decide (i < length ids')) as [Hlt'|Hge].
      * rewrite lookup_app_l by done. rewrite take_app_le by lia.
        destruct (lookup_lt_is_Some_2 _ _ Hlt') as [d Hd]. rewrite Hd in *. destruct IH as (q & -> & Hle & Hq).
        exists q. split; [done|]. split; [lia|done].
      * rewrite lookup_ge_None_2; [|rewrite app_length; simpl; lia]. apply pt_back_none. lia.
  - simpl. destruct (ids' !! i) as [d|]; [|done]. destruct IH as (q & -> & Hle & Hq). exists q. split; [done|]. split; [lia|done].
Qed.
Lemma chain_flush c u : forall ms cur ids, wf ms -> chain ms c cur u ids -> view (fold_left flush (rev ids) ms) 0 = pt_flush cur u.
Proof.
  revert c. induction u as [|[b par] u IH]; intros c ms cur ids Hwf [H1 H2].
  { destruct H2 as [-> ->]. done. }
  destruct H2 as (p & ids' & Hpar & -> & Hc). pose proof (parent_of_lt _ _ _ Hwf Hpar) as Hlt. destruct b; simpl.
  - rewrite rev_app_distr. cbn [rev app fold_left]. apply (IH p); [by apply wf_flush|].
    assert (Hvp : view (flush ms c) p = cur) by by rewrite view_flush_parent.
    destruct u as [|[b' par'] u].
    + destruct Hc as [_ [-> ->]]. done.
    + destruct Hc as [_ (q & ids'' & Hq & -> & Hc)]. split; [done|]. exists q, ids''.
      split; [by rewrite parent_of_flush|]. split; [done|].
      pose proof (parent_of_lt _ _ _ Hwf Hq) as Hlt'.
      eapply chain_ext; [exact Hwf| | |exact Hc].
      * intros d Hd. eapply view_flush_lt; [done|exact Hpar|lia].
      * intros d r _. by rewrite parent_of_flush.
  - by apply (IH p).
Qed.

Lemma walks_new (m : A) : walks (new_sdb m) (Path m []).
Proof. destruct (Inv_new m) as (Hwf & _). split; [done|]. split; [done|]. done. Qed.
Lemma walks_put s p k o : walks s p -> walks (db_put s k o) (pt_set p (set_view (pt_cur p) k o)).
Proof.
  intros (Hwf & Hc & Hch). split; [by apply wf_write|]. split; [by simpl; rewrite length_write|]. simpl.
  assert (Hv : view (write (db_store s) (db_ctx s) k o) (db_ctx s) = set_view (pt_cur p) k o).
  { rewrite view_write_same by done. destruct (pt_up p) as [|[]]; destruct Hch as [-> _]; done. }
  destruct (pt_up p) as [|[b par] u].
  - destruct Hch as [_ [H1 H2]]. by split.
  - destruct Hch as [_ (q & ids' & Hq & Hi & Hch)]. pose proof (parent_of_lt _ _ _ Hwf Hq) as Hlt.
    split; [done|]. exists q, ids'. split; [by rewrite parent_of_write|]. split; [done|].
    eapply chain_ext; [exact Hwf| | |exact Hch].
    + intros d Hd. apply view_write_lt; [done|lia].
    + intros d r _. by rewrite parent_of_write.
Qed.
Lemma walks_snapshot s p : walks s p ->
  walks (fst (snapshot s)) (fst (pt_snapshot p)) /\ snd (snapshot s) = snd (pt_snapshot p).
Proof.
  intros (Hwf & Hc & Hch). pose proof (chain_live _ _ _ _ _ Hch) as Hl. split.
  - unfold snapshot. destruct (branch (db_store s) (db_ctx s)) as [ms c] eqn:Eb. simpl.
    assert (ms = fst (branch (db_store s) (db_ctx s))) as -> by by rewrite Eb.
    assert (c = snd (branch (db_store s) (db_ctx s))) as -> by by rewrite Eb. clear Eb.
    split; [by apply wf_branch|]. split; [simpl; rewrite app_length; simpl; lia|]. cbn [db_store db_ctx db_snaps pt_cur pt_up].
    assert (Hcur : view (db_store s) (db_ctx s) = pt_cur p) by (destruct (pt_up p) as [|[]]; destruct Hch as [-> _]; done).
    split; [by rewrite (view_branch_new _ _ Hwf Hc)|].
    exists (db_ctx s), (db_snaps s). split; [apply parent_of_branch_new|]. split; [done|].
    eapply chain_ext; [exact Hwf| | |exact Hch].
    + intros d Hd. apply view_branch_old; [done|done|lia].
    + intros d r Hd Hr. rewrite parent_of_branch; [done|lia].
  - unfold snapshot. destruct (branch _ _). simpl. by rewrite Hl.
Qed.
Lemma walks_revert s p i : walks s p ->
  match revert_to s i with
  | None => pt_revert p i = None
  | Some s' => exists p', pt_revert p i = Some p' /\ walks s' p'
  end.
Proof.
  intros (Hwf & Hc & Hch). unfold revert_to, pt_revert. destruct (i =? -1)%Z.
  - eexists. split; [done|]. split; [done|]. split; [simpl; lia|]. simpl. split; [|done]. by eapply chain_base.
  - destruct (i <? 0)%Z; [done|]. pose proof (chain_back _ _ _ _ _ (Z.to_nat i) Hwf Hch) as Hb.
    destruct (db_snaps s !! Z.to_nat i) as [d|]; [|done]. destruct Hb as (p' & -> & Hle & Hq). exists p'. split; [done|].
    split; [done|]. split; [simpl; lia|done].
Qed.
Lemma walks_view s p : walks s p -> db_view s = pt_cur p.
Proof. intros (_ & _ & Hch). unfold db_view. destruct (pt_up p) as [|[]]; destruct Hch as [-> _]; done. Qed.
Lemma walks_commit s p : walks s p -> m_base (db_store (flush_all s)) = pt_commit p.
Proof.
  intros (Hwf & _ & Hch). pose proof (chain_flush _ _ _ _ _ Hwf Hch) as Hf. rewrite <- view_0.
  unfold pt_commit. rewrite <- Hf. done.
Qed.

(** The API operations on a path. *)
Definition path_step (p : path A) (o : dbop K V) : option (path A) :=
  match o with
  | OPut k v => Some (pt_set p (set_view (pt_cur p) k v))
  | OSnapshot => Some (fst (pt_snapshot p))
  | ORevert i => pt_revert p i
  end.
Fixpoint path_run (p : path A) (t : list (dbop K V)) : option (path A) :=
  match t with [] => Some p | o :: t' => match path_step p o with None => None | Some p' => path_run p' t' end end.
Lemma walks_run t : forall s p, walks s p ->
  match db_run revert_to s t with
  | None => path_run p t = None
  | Some s' => exists p', path_run p t = Some p' /\ walks s' p'
  end.
Proof.
  induction t as [|o t IH]; intros s p Hw; simpl; [by exists p|].
  destruct o as [k v| |i]; simpl.
  - apply IH. by apply walks_put.
  - apply IH. by apply walks_snapshot.
  - pose proof (walks_revert s p i Hw) as Hr. destruct (revert_to s i) as [s'|].
    + destruct Hr as (p' & -> & Hw'). by apply IH.
    + by rewrite Hr.
Qed.
End proofs.
