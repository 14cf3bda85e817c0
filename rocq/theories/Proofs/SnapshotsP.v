From Verif.Base Require Import Prelude Layers.
From Verif.Model Require Import Snapshots.
From Verif.Spec Require Import Frames.
From Verif.Proofs Require Import LayersP.

Section proofs.
Context {K V : Type} `{Countable K}.
Implicit Types ms : mstore K V.
Implicit Types s : sdb K V.

(** [stack ms p l]: the contexts [l] form a chain of branches starting at [p]. *)
Fixpoint stack ms (p : nat) (l : list nat) : Prop :=
  match l with
  | [] => True
  | c :: l' => parent_of ms c = Some p /\ stack ms c l'
  end.

Definition top (p : nat) (l : list nat) : nat := List.last l p.

Lemma top_app p l c : top p (l ++ [c]) = c.
Proof. unfold top. apply last_last. Qed.

Lemma top_cons p c l : top p (c :: l) = top c l.
Proof.
  unfold top. revert c. induction l as [|d l IH]; intros c; [reflexivity|].
  cbn in *. destruct l; [reflexivity|]. exact (IH c).
Qed.

Lemma stack_app ms p l1 l2 : stack ms p (l1 ++ l2) <-> stack ms p l1 /\ stack ms (top p l1) l2.
Proof.
  revert p. induction l1 as [|c l1 IH]; intros p; cbn [app stack].
  - unfold top; cbn. tauto.
  - rewrite IH, top_cons. tauto.
Qed.

Lemma stack_ext ms ms' p l :
  (forall c q, parent_of ms c = Some q -> parent_of ms' c = Some q) ->
  stack ms p l -> stack ms' p l.
Proof.
  intros Hp. revert p. induction l as [|c l IH]; intros p; cbn; [tauto|].
  intros [Hc Hl]. split; [auto|apply IH; exact Hl].
Qed.

Lemma parent_bound ms c q : parent_of ms c = Some q -> c <= length (m_layers ms).
Proof.
  destruct c as [|n]; [done|]. cbn. intros E. apply fmap_Some in E as (l & El & _).
  apply lookup_lt_Some in El. lia.
Qed.

Lemma stack_top_bound ms p l : p <= length (m_layers ms) -> stack ms p l ->
  top p l <= length (m_layers ms).
Proof.
  revert p. induction l as [|c l IH]; intros p Hp; cbn [stack]; [unfold top; cbn; tauto|].
  intros [Hc Hl]. rewrite top_cons. apply IH; [|exact Hl]. eapply parent_bound; eauto.
Qed.

Lemma stack_top_ge ms p l : wf ms -> stack ms p l -> p <= top p l.
Proof.
  intros Hwf. revert p. induction l as [|c l IH]; intros p; cbn [stack]; [unfold top; cbn; lia|].
  intros [Hc Hl]. rewrite top_cons. pose proof (parent_of_lt _ _ _ Hwf Hc).
  specialize (IH _ Hl). lia.
Qed.

(** Flushing a chain over [p] makes the top visible at [p] and changes nothing below. *)
Lemma flush_stack ms p l : wf ms -> stack ms p l ->
  let ms' := fold_left flush (rev l) ms in
  wf ms' /\ view ms' p = view ms (top p l) /\ (forall c, c < p -> view ms' c = view ms c).
Proof.
  revert ms. induction l as [|c l IH] using rev_ind; intros ms Hwf Hs.
  - cbn. auto.
  - rewrite rev_app_distr. cbn [rev app fold_left].
    apply stack_app in Hs as [Hl [Hc _]].
    assert (Hwf' := wf_flush ms c Hwf).
    assert (Hl' : stack (flush ms c) p l).
    { eapply stack_ext; [|exact Hl]. intros. rewrite parent_of_flush. done. }
    destruct (IH (flush ms c) Hwf' Hl') as (HA & HB & HC).
    split; [exact HA|]. split.
    + rewrite HB, top_app. apply view_flush_parent; done.
    + intros d Hd. rewrite HC by done. eapply view_flush_lt; eauto.
      pose proof (stack_top_ge _ _ _ Hwf Hl). lia.
Qed.

Definition Inv (p0 : nat) s : Prop :=
  wf (db_store s) /\ p0 <= length (m_layers (db_store s)) /\
  stack (db_store s) p0 (db_snaps s) /\ db_ctx s = top p0 (db_snaps s).

Lemma Inv_ctx p0 s : Inv p0 s -> db_ctx s <= length (m_layers (db_store s)).
Proof. intros (Hwf & Hp & Hs & ->). apply stack_top_bound; done. Qed.

Lemma Inv_new m : Inv 0 (new_sdb (K:=K) (V:=V) m).
Proof. split; [|split; [|split]]; cbn; auto; try lia. intros n l Hl. destruct n; discriminate Hl. Qed.

Lemma Inv_put p0 s k o : Inv p0 s -> Inv p0 (db_put s k o).
Proof.
  intros (Hwf & Hp & Hs & Hc). unfold db_put. split; [|split; [|split]]; cbn.
  - apply wf_write; done.
  - rewrite length_write. done.
  - eapply stack_ext; [|exact Hs]. intros. rewrite parent_of_write. done.
  - exact Hc.
Qed.

Lemma view_put p0 s k o : Inv p0 s -> db_view (db_put s k o) = set_view (db_view s) k o.
Proof.
  intros HI. pose proof (Inv_ctx _ _ HI). destruct HI as (Hwf & _).
  unfold db_view, db_put; cbn. apply view_write_same; done.
Qed.

Lemma Inv_snapshot p0 s : Inv p0 s -> Inv p0 (fst (snapshot s)).
Proof.
  intros HI. pose proof (Inv_ctx _ _ HI) as Hb. destruct HI as (Hwf & Hp & Hs & Hc).
  unfold snapshot. destruct (branch (db_store s) (db_ctx s)) as [ms c] eqn:E. cbn.
  assert (ms = fst (branch (db_store s) (db_ctx s))) as -> by (rewrite E; done).
  assert (c = snd (branch (db_store s) (db_ctx s))) as -> by (rewrite E; done).
  split; [|split; [|split]]; cbn [db_store db_snaps db_ctx].
  - apply wf_branch; done.
  - cbn. rewrite app_length. lia.
  - apply stack_app. split.
    + clear Hc. revert Hs. generalize p0. induction (db_snaps s) as [|d l IH]; intros q; cbn [stack]; [tauto|].
      intros [Hd Hl]. split; [|auto]. rewrite parent_of_branch; [done|]. eapply parent_bound; eauto.
    + split; [|done]. rewrite parent_of_branch_new, Hc. done.
  - rewrite top_app. done.
Qed.

Lemma view_snapshot p0 s : Inv p0 s -> db_view (fst (snapshot s)) = db_view s.
Proof.
  intros HI. pose proof (Inv_ctx _ _ HI) as Hb. destruct HI as (Hwf & _).
  unfold db_view, snapshot, branch. cbn. exact (view_branch_new _ _ Hwf Hb).
Qed.

Lemma view_snapshot_old p0 s c : Inv p0 s -> c <= length (m_layers (db_store s)) ->
  view (db_store (fst (snapshot s))) c = view (db_store s) c.
Proof.
  intros HI Hc. pose proof (Inv_ctx _ _ HI) as Hb. destruct HI as (Hwf & _).
  unfold snapshot, branch. cbn. exact (view_branch_old _ _ _ Hwf Hb Hc).
Qed.

(** [grows s s']: [s'] was reached from [s] by writing only to [s]'s context or newer ones. *)
Definition grows s s' : Prop :=
  length (m_layers (db_store s)) <= length (m_layers (db_store s')) /\
  (exists extra, db_snaps s' = db_snaps s ++ extra) /\
  (forall c q, parent_of (db_store s) c = Some q -> parent_of (db_store s') c = Some q) /\
  (forall c, c < db_ctx s -> view (db_store s') c = view (db_store s) c).

Lemma grows_refl s : grows s s.
Proof. split; [lia|]. split; [exists []; by rewrite app_nil_r|]. auto. Qed.

Lemma db_ctx_put s k o : db_ctx (db_put s k o) = db_ctx s. Proof. reflexivity. Qed.

Lemma grows_put_l p0 s k o s' : Inv p0 s -> grows (db_put s k o) s' -> grows s s'.
Proof.
  intros HI (Hl & (ex & He) & Hpar & Hv). pose proof (Inv_ctx _ _ HI). destruct HI as (Hwf & _).
  cbn in Hl, He, Hpar, Hv. rewrite length_write in Hl.
  split; [done|]. split; [by exists ex|]. split.
  - intros c q Hc. apply Hpar. rewrite parent_of_write. done.
  - intros c Hc. rewrite Hv by done. apply view_write_lt; done.
Qed.

Lemma grows_snapshot_trans p0 s s2 s' :
  Inv p0 s -> grows (fst (snapshot s)) s2 -> db_ctx s <= db_ctx s2 -> grows s2 s' -> grows s s'.
Proof.
  intros HI (Hl1 & (e1 & He1) & Hp1 & Hv1) Hctx (Hl2 & (e2 & He2) & Hp2 & Hv2).
  pose proof (Inv_ctx _ _ HI) as Hb.
  cbn in Hl1, He1, Hp1, Hv1. rewrite app_length in Hl1. cbn in Hl1.
  split; [lia|]. split; [|split].
  - rewrite He2, He1. rewrite <- app_assoc. rewrite <- app_assoc. eexists. reflexivity.
  - intros c q Hc. apply Hp2, Hp1.
    pose proof (parent_bound _ _ _ Hc).
    pose proof (parent_of_branch (db_store s) (db_ctx s) c) as E. cbn in E.
    rewrite E by done. done.
  - intros c Hc. rewrite Hv2 by lia.
    rewrite Hv1 by lia. exact (view_snapshot_old p0 s c HI ltac:(lia)).
Qed.

Lemma grows_ctx p0 s s' : Inv p0 s -> Inv p0 s' -> grows s s' -> db_ctx s <= db_ctx s'.
Proof.
  intros HI HI' (Hl & (ex & He) & _ & _).
  destruct HI as (_ & _ & _ & Hc). destruct HI' as (Hwf' & _ & Hs' & Hc').
  rewrite Hc, Hc', He. rewrite He in Hs'. apply stack_app in Hs' as [_ Hs'].
  assert (top p0 (db_snaps s ++ ex) = top (top p0 (db_snaps s)) ex) as ->.
  { clear. generalize p0. induction (db_snaps s) as [|c l IH]; intros p; [reflexivity|].
    cbn [app]. rewrite !top_cons. apply IH. }
  eapply stack_top_ge; eauto.
Qed.

(** The simulation. Either the repaired revert is used from the bottom context, or no
    called frame fails. *)
Definition good (rv : sdb K V -> Z -> option (sdb K V)) (p0 : nat) (p : prog K V) (m : gmap K V) : Prop :=
  (rv = revert_to_repaired /\ p0 = 0) \/ inner_ok p m = true.

Lemma revert_repaired_back s s2 : Inv 0 s -> Inv 0 s2 -> grows (fst (snapshot s)) s2 ->
  exists s3, revert_to_repaired s2 (snd (snapshot s)) = Some s3 /\
    Inv 0 s3 /\ db_ctx s3 = db_ctx s /\ db_snaps s3 = db_snaps s /\ db_store s3 = db_store s2.
Proof.
  intros HI HI2 HG. pose proof HG as (Hl & (ex & He) & Hp & Hv).
  destruct HI as (Hwf & Hp0 & Hs & Hc). destruct HI2 as (Hwf2 & Hp02 & Hs2 & Hc2).
  cbn in He. unfold revert_to_repaired.
  change (snd (snapshot s)) with (Z.of_nat (length (db_snaps s)) - 1)%Z.
  destruct (decide (db_snaps s = [])) as [Hnil|Hnn].
  - rewrite Hnil. cbn. eexists; split; [reflexivity|]. cbn.
    split; [split; [|split; [|split]]; cbn; auto|].
    rewrite Hc, Hnil. auto.
  - assert (exists l c, db_snaps s = l ++ [c]) as (l & c & El).
    { destruct (db_snaps s) using rev_ind; [done|eauto]. }
    rewrite El. rewrite app_length. cbn [length].
    replace (Z.of_nat (length l + 1) - 1)%Z with (Z.of_nat (length l)) by lia.
    destruct (Z.eqb_spec (Z.of_nat (length l)) (-1)); [lia|].
    destruct (Z.ltb_spec (Z.of_nat (length l)) 0); [lia|].
    rewrite Nat2Z.id, He, El.
    rewrite <- !app_assoc. rewrite lookup_app_r by lia. rewrite Nat.sub_diag. cbn [app lookup list_lookup].
    eexists; split; [reflexivity|]. cbn [db_ctx db_snaps db_store].
    assert (Hctx : db_ctx s = c) by (rewrite Hc, El, top_app; done).
    assert (Htk : take (S (length l)) (l ++ c :: snd (branch (db_store s) (db_ctx s)) :: ex) = l ++ [c]).
    { change (c :: snd (branch (db_store s) (db_ctx s)) :: ex) with ([c] ++ (snd (branch (db_store s) (db_ctx s)) :: ex)).
      rewrite app_assoc. replace (S (length l)) with (length (l ++ [c])) by (rewrite app_length; cbn; lia).
      apply take_app. }
    unfold branch in Htk; cbn [snd] in Htk. cbn in Htk |- *. rewrite Htk.
    split; [|split; [done|split; [done|done]]].
    split; [done|]. split; [done|]. cbn [db_store db_snaps db_ctx].
    split; [|symmetry; apply top_app].
    rewrite He in Hs2. rewrite El in Hs2. apply stack_app in Hs2 as [Hs2 _].
    apply stack_app in Hs2 as [Hs2 _]. done.
Qed.

Lemma inner_ok_call c (f : bool -> prog K V) m : inner_ok (Call c f) m = true ->
  inner_ok c m = true /\ exists m', sem c m = (true, m') /\ inner_ok (f true) m' = true.
Proof.
  cbn. intros E. apply andb_true_iff in E as [E1 E2]. split; [done|].
  destruct (sem c m) as [[|] m']; [eauto|done].
Qed.

Lemma sem_write k o p m : sem (K:=K) (V:=V) (Write k o p) m = sem p (set_view m k o).
Proof. destruct o; reflexivity. Qed.
Lemma inner_ok_write k o p m : inner_ok (K:=K) (V:=V) (Write k o p) m = inner_ok p (set_view m k o).
Proof. destruct o; reflexivity. Qed.

Lemma run_sim rv p0 p : forall s, Inv p0 s -> good rv p0 p (db_view s) ->
  exists s', run rv p s = Some (fst (sem p (db_view s)), s') /\ Inv p0 s' /\
    db_view s' = snd (sem p (db_view s)) /\ grows s s'.
Proof.
  induction p as [ok|k o p IH|k f IH|c IHc f IHf]; intros s HI HG.
  - exists s. cbn. split; [done|]. split; [done|]. split; [done|apply grows_refl].
  - rewrite sem_write. cbn [run].
    destruct (IH (db_put s k o)) as (s' & Hr & HI' & Hv & Hg).
    { apply Inv_put; done. }
    { destruct HG as [HG|HG]; [left; done|right]. erewrite view_put by done.
      rewrite inner_ok_write in HG. done. }
    erewrite view_put in Hr, Hv by done.
    exists s'. split; [done|]. split; [done|]. split; [done|]. eapply grows_put_l; eauto.
  - cbn [run sem]. change (db_get s k) with (db_view s !! k).
    apply IH; [done|]. destruct HG as [HG|HG]; [left; done|right; exact HG].
  - cbn [run]. destruct (snapshot s) as [s1 sid] eqn:Esn.
    assert (s1 = fst (snapshot s)) as Es1 by (rewrite Esn; done).
    assert (sid = snd (snapshot s)) as Esid by (rewrite Esn; done).
    pose proof (Inv_snapshot _ _ HI) as HI1. rewrite <- Es1 in HI1.
    pose proof (view_snapshot _ _ HI) as Hv1. rewrite <- Es1 in Hv1.
    destruct (IHc s1 HI1) as (s2 & Hr & HI2 & Hv2 & Hg2).
    { destruct HG as [HG|HG]; [left; done|right]. rewrite Hv1. apply inner_ok_call in HG as [HG _]. done. }
    rewrite Hr. rewrite Hv1 in *. cbn [sem].
    destruct (sem c (db_view s)) as [b m'] eqn:Esem. cbn [fst snd] in *.
    assert (Hctx2 : db_ctx s <= db_ctx s2).
    { pose proof (grows_ctx _ _ _ HI1 HI2 Hg2). pose proof (Inv_ctx _ _ HI) as Hb.
      match goal with Hx : db_ctx s1 <= _ |- _ => rewrite Es1 in Hx; cbn in Hx; lia end. }
    destruct b.
    + destruct (IHf true s2 HI2) as (s' & Hr' & HI' & Hv' & Hg').
      { destruct HG as [HG|HG]; [left; done|right]. rewrite Hv2.
        apply inner_ok_call in HG as (_ & m'' & E & HG). congruence. }
      rewrite Hv2 in *. exists s'. split; [done|]. split; [done|]. split; [done|].
      eapply grows_snapshot_trans; eauto. rewrite <- Es1. done.
    + destruct HG as [[-> ->]|HG]; [|apply inner_ok_call in HG as (_ & m'' & E & _); congruence].
      rewrite Es1 in Hg2.
      destruct (revert_repaired_back s s2 HI HI2 Hg2) as (s3 & Hrv & HI3 & Hc3 & Hsn3 & Hst3).
      rewrite Esid, Hrv.
      assert (Hv3 : db_view s3 = db_view s).
      { unfold db_view. rewrite Hc3, Hst3. destruct Hg2 as (_ & _ & _ & Hvv).
        pose proof (Inv_ctx _ _ HI) as Hbc. rewrite Hvv by (cbn; lia).
        exact (view_snapshot_old 0 s (db_ctx s) HI Hbc). }
      destruct (IHf false s3 HI3) as (s' & Hr' & HI' & Hv' & Hg'); [left; done|].
      rewrite Hv3 in *. exists s'. split; [done|]. split; [done|]. split; [done|].
      destruct Hg' as (Hl' & (e' & He') & Hp' & Hvw').
      destruct Hg2 as (Hl2 & _ & Hp2 & Hvw2).
      rewrite Hst3, Hsn3, Hc3 in *. cbn in Hl2. rewrite app_length in Hl2. cbn in Hl2.
      split; [lia|]. split; [by exists e'|]. split.
      * intros d q Hd. apply Hp', Hp2.
        pose proof (parent_bound _ _ _ Hd).
        pose proof (parent_of_branch (db_store s) (db_ctx s) d) as E. cbn in E. cbn. rewrite E by done. done.
      * intros d Hd. rewrite Hvw' by done. pose proof (Inv_ctx _ _ HI). rewrite Hvw2 by (cbn; lia).
        exact (view_snapshot_old 0 s d HI ltac:(lia)).
Qed.

(** ** Whole executions *)
Lemma flush_all_base s : Inv 0 s -> m_base (db_store (flush_all s)) = db_view s.
Proof.
  intros (Hwf & Hp & Hs & Hc). unfold flush_all. cbn.
  destruct (flush_stack _ _ _ Hwf Hs) as (_ & Hv & _). rewrite view_0 in Hv.
  rewrite Hv, <- Hc. reflexivity.
Qed.

Lemma exec_with_good (rv : sdb K V -> Z -> option (sdb K V)) (p : prog K V) (m : gmap K V) :
  (rv = revert_to_repaired \/ (rv = revert_to /\ inner_ok p m = true)) ->
  exec_with rv p m = Some (exec_spec p m).
Proof.
  intros HG. unfold exec_with. cbn [run].
  destruct (snapshot (new_sdb m)) as [s1 sid] eqn:Esn.
  assert (s1 = fst (snapshot (new_sdb m))) as Es1 by (rewrite Esn; done).
  assert (sid = (-1)%Z) as -> by (change sid with (snd (s1, sid)); rewrite <- Esn; reflexivity).
  pose proof (Inv_new m) as HI. pose proof (Inv_snapshot _ _ HI) as HI1. rewrite <- Es1 in HI1.
  assert (Hv1 : db_view s1 = m) by (rewrite Es1; rewrite (view_snapshot 0) by done; reflexivity).
  destruct (run_sim rv 0 p s1 HI1) as (s2 & Hr & HI2 & Hv2 & Hg2).
  { rewrite Hv1. destruct HG as [->|[_ HG]]; [left; done|right; done]. }
  rewrite Hr, Hv1. rewrite Hv1 in Hv2. unfold exec_spec.
  destruct (sem p m) as [[|] m'] eqn:Es; cbn [fst snd] in *.
  - rewrite flush_all_base by done. rewrite Hv2. done.
  - assert (Hrv : rv s2 (-1)%Z = Some (SDB (db_store s2) 0 [])).
    { destruct HG as [->|[-> _]]; reflexivity. }
    rewrite Hrv. cbn [db_store]. f_equal. f_equal.
    destruct Hg2 as (_ & _ & _ & Hvv). rewrite Es1 in Hvv. cbn [snapshot branch fst db_ctx new_sdb db_store m_layers] in Hvv.
    specialize (Hvv 0 ltac:(cbn; lia)). rewrite view_0 in Hvv. rewrite Hvv. reflexivity.
Qed.

(** The effect of one reverted inner frame in the top-level frame: everything is lost. *)
Lemma run_writes (rv : sdb K V -> Z -> option (sdb K V)) (ws : list (K * V)) (p : prog K V) s : run rv (writes ws p) s = run rv p (fold_left (fun s kv => db_put s (fst kv) (Some (snd kv))) ws s).
Proof. revert s. induction ws as [|kv ws IH]; intros s; [reflexivity|]. cbn. apply IH. Qed.

Lemma puts_facts p0 (ws : list (K * V)) : forall s, Inv p0 s ->
  let s' := fold_left (fun s kv => db_put s (fst kv) (Some (snd kv))) ws s in
  Inv p0 s' /\ db_view s' = after_writes ws (db_view s) /\ db_ctx s' = db_ctx s /\ db_snaps s' = db_snaps s
  /\ (forall c, c < db_ctx s -> view (db_store s') c = view (db_store s) c)
  /\ length (m_layers (db_store s')) = length (m_layers (db_store s)).
Proof.
  induction ws as [|[k v] ws IH]; intros s HI; [cbn; auto 10|].
  cbn [fold_left fst snd].
  destruct (IH (db_put s k (Some v))) as (A & B & C & D & E & F); [by apply Inv_put|].
  split; [done|]. split; [|split; [|split; [|split]]].
  - rewrite B. erewrite view_put by done. reflexivity.
  - rewrite C. done.
  - rewrite D. done.
  - intros c Hc. rewrite E by done. cbn. apply view_write_lt; [apply HI|done].
  - rewrite F. cbn. apply length_write.
Qed.

Lemma inner_revert_loses (ws : list (K * V)) (bad rest : prog K V) (m : gmap K V) :
  let w := after_writes ws m in
  inner_ok bad w = true -> fst (sem bad w) = false ->
  inner_ok rest w = true -> fst (sem rest w) = true ->
  exec (writes ws (Call bad (fun _ => rest))) m = Some (true, m).
Proof.
  intros w Hb1 Hb2 Hr1 Hr2. unfold exec, exec_with.
  change (run revert_to (Call (writes ws (Call bad (fun _ => rest))) Done) (new_sdb m))
    with (let '(s1, sid) := snapshot (new_sdb m) in
          match run revert_to (writes ws (Call bad (fun _ => rest))) s1 with
          | None => None
          | Some (true, s2) => Some (true, s2)
          | Some (false, s2) => match revert_to s2 sid with None => None | Some s3 => Some (false, s3) end
          end).
  destruct (snapshot (new_sdb m)) as [s1 sid] eqn:Esn.
  assert (s1 = fst (snapshot (new_sdb m))) as Es1 by (rewrite Esn; done).
  pose proof (Inv_new m) as HI. pose proof (Inv_snapshot _ _ HI) as HI1. rewrite <- Es1 in HI1.
  assert (Hv1 : db_view s1 = m) by (rewrite Es1; rewrite (view_snapshot 0) by done; reflexivity).
  assert (Hc1 : db_ctx s1 = 1) by (rewrite Es1; reflexivity).
  assert (Hn1 : db_snaps s1 = [1]) by (rewrite Es1; reflexivity).
  assert (Hb0 : view (db_store s1) 0 = m) by (rewrite Es1; reflexivity).
  rewrite run_writes.
  destruct (puts_facts 0 ws s1 HI1) as (HI2 & Hv2 & Hc2 & Hn2 & Hlow & Hlen).
  set (s2 := fold_left _ ws s1) in *.
  rewrite Hv1 in Hv2. fold w in Hv2.
  cbn [run]. destruct (snapshot s2) as [s3 sid3] eqn:Esn3.
  assert (s3 = fst (snapshot s2)) as Es3 by (rewrite Esn3; done).
  assert (sid3 = 0%Z) as ->.
  { change sid3 with (snd (s3, sid3)); rewrite <- Esn3.
    change (snd (snapshot s2)) with (Z.of_nat (length (db_snaps s2)) - 1)%Z. rewrite Hn2, Hn1. reflexivity. }
  pose proof (Inv_snapshot _ _ HI2) as HI3. rewrite <- Es3 in HI3.
  assert (Hv3 : db_view s3 = w) by (rewrite Es3, (view_snapshot 0) by done; done).
  destruct (run_sim revert_to 0 bad s3 HI3) as (s4 & Hr4 & HI4 & Hv4 & Hg4).
  { right. rewrite Hv3. done. }
  rewrite Hv3, Hb2 in Hr4. rewrite Hr4.
  pose proof Hg4 as (Hl4 & (ex & He4) & _ & Hvw4).
  assert (Hs4 : db_snaps s4 !! 0 = Some 1).
  { rewrite He4, Es3. cbn. rewrite Hn2, Hn1. reflexivity. }
  assert (Hrv : revert_to s4 0%Z = Some (SDB (db_store s4) 1 [])).
  { unfold revert_to. cbn -[lookup]. change (Z.to_nat 0) with 0. rewrite Hs4. reflexivity. }
  rewrite Hrv.
  set (s5 := SDB (db_store s4) 1 []).
  assert (Hc3 : 1 < db_ctx s3).
  { rewrite Es3. cbn. rewrite Hlen, Es1. cbn. lia. }
  assert (Hlen2 : 1 <= length (m_layers (db_store s2))) by (rewrite Hlen, Es1; cbn; lia).
  assert (Hvlow : forall c, c <= 1 -> view (db_store s4) c = view (db_store s2) c).
  { intros c Hc. rewrite Hvw4 by lia. rewrite Es3. eapply view_snapshot_old; [exact HI2|]. lia. }
  assert (HI5 : Inv 1 s5).
  { split; [apply HI4|]. split; [|split; [done|done]]. cbn.
    pose proof Hl4 as Hl4'. rewrite Es3 in Hl4'. cbn in Hl4'. rewrite app_length in Hl4'. cbn in Hl4'. lia. }
  assert (Hv5 : db_view s5 = w).
  { unfold db_view, s5; cbn [db_store db_ctx]. rewrite (Hvlow 1) by lia. rewrite <- Hv2. unfold db_view. rewrite Hc2, Hc1. done. }
  destruct (run_sim revert_to 1 rest s5 HI5) as (s6 & Hr6 & HI6 & Hv6 & Hg6).
  { right. rewrite Hv5. done. }
  rewrite Hv5, Hr2 in Hr6. rewrite Hr6. f_equal. f_equal.
  destruct HI6 as (Hwf6 & _ & Hs6 & _). unfold flush_all; cbn [db_store].
  destruct (flush_stack _ _ _ Hwf6 Hs6) as (_ & _ & Hlt).
  specialize (Hlt 0 ltac:(lia)). rewrite view_0 in Hlt. rewrite Hlt.
  destruct Hg6 as (_ & _ & _ & Hvw6). rewrite Hvw6 by (cbn; lia). cbn [s5 db_store].
  rewrite (Hvlow 0) by lia. rewrite Hlow by lia. done.
Qed.

End proofs.
