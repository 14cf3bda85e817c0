(** C46: per-account locks. *)
From Verif.Base Require Import Prelude.
From Verif.Model Require Import AccLock.
Open Scope nat_scope.

(** The account a request is inside the critical section of. *)
Definition in_cs (p : pc) (a : acct) : Prop :=
  ∃ m, p = InCS a m ∨ p = RelRead a m ∨ p = RelUnlock a m.

(** The object a request has a counted reference to, and its account. *)
Definition refs (p : pc) : option (acct * mid) :=
  match p with
  | AcqLock _ | AcqLook _ | RelDone _ => None
  | AcqUnlock a m | AcqWait a m | InCS a m | RelRead a m | RelUnlock a m | RelLock a m | RelDec a m => Some (a, m)
  end.
Definition holds (p : pc) : option mid :=
  match p with InCS _ m | RelRead _ m | RelUnlock _ m => Some m | _ => None end.
Definition global (p : pc) : bool :=
  match p with AcqLook _ | AcqUnlock _ _ | RelDec _ _ | RelDone _ => true | _ => false end.

Definition refcount (s : lockst) (m : mid) : nat :=
  size (filter (fun kv : tid * pc => snd <$> refs kv.2 = Some m) (l_pc s)).

Record linv (s : lockst) : Prop := mkInv {
  v_global : ∀ t, l_global s = Some t ↔ ∃ p, l_pc s !! t = Some p ∧ global p = true;
  v_refs : ∀ t p a m, l_pc s !! t = Some p → refs p = Some (a, m) →
             l_map s !! a = Some m;
  v_obj : ∀ a m, l_map s !! a = Some m → ∃ o, l_objs s !! m = Some o ∧ am_rc o = Z.of_nat (refcount s m) ∧
             ∃ t p, l_pc s !! t = Some p ∧ refs p = Some (a, m);
  v_inj : ∀ a a' m, l_map s !! a = Some m → l_map s !! a' = Some m → a = a';
  v_held : ∀ m o t, l_objs s !! m = Some o →
             (am_held o = Some t ↔ ∃ p, l_pc s !! t = Some p ∧ holds p = Some m);
  v_panic : l_panic s = false
}.

Lemma refcount_insert_same (s : lockst) t p p' m g mp ob pn :
  l_pc s !! t = Some p → (snd <$> refs p = Some m ↔ snd <$> refs p' = Some m) →
  refcount (mkL g mp ob (<[t := p']> (l_pc s)) pn) m = refcount s m.
Proof.
  intros Hp Hiff. unfold refcount. cbn.
  assert (E : ∀ (P : tid * pc → Prop) `{∀ x, Decision (P x)} (M : gmap tid pc), size (filter P M) = size (dom (filter P M))).
  { intros. rewrite size_dom. done. }
  rewrite !E. f_equal. apply set_eq. intros x. rewrite !elem_of_dom.
  assert (∀ M : gmap tid pc, is_Some (filter (fun kv : tid * pc => snd <$> refs kv.2 = Some m) M !! x) ↔
      ∃ q, M !! x = Some q ∧ snd <$> refs q = Some m) as Hq.
  { intros M. split.
    - intros [q Hq]. apply map_filter_lookup_Some in Hq. eauto.
    - intros (q & H1 & H2). exists q. apply map_filter_lookup_Some. done. }
  rewrite !Hq. destruct (decide (x = t)) as [->|Hx].
  - rewrite lookup_insert, Hp. split; intros (q & [= <-] & Hr); eexists; (split; [reflexivity|]); apply Hiff; done.
  - rewrite lookup_insert_ne by done. done.
Qed.

Lemma refcount_add (s : lockst) t p' m g mp ob pn :
  (∀ p, l_pc s !! t = Some p → snd <$> refs p ≠ Some m) → snd <$> refs p' = Some m →
  refcount (mkL g mp ob (<[t := p']> (l_pc s)) pn) m = S (refcount s m).
Proof.
  intros Hp Hr. unfold refcount. cbn. rewrite map_filter_insert_True by done.
  rewrite map_size_insert_None; [done|]. apply map_filter_lookup_None. right. intros x Hx. cbn. apply Hp. done.
Qed.

Lemma refcount_del (s : lockst) t p p' m g mp ob pn :
  l_pc s !! t = Some p → snd <$> refs p = Some m → snd <$> refs p' ≠ Some m →
  refcount s m = S (refcount (mkL g mp ob (<[t := p']> (l_pc s)) pn) m).
Proof.
  intros Hp Hr Hn. unfold refcount. cbn. rewrite map_filter_insert_False by done.
  rewrite map_filter_delete.
  assert (Hl : filter (fun kv : tid * pc => snd <$> refs kv.2 = Some m) (l_pc s) !! t = Some p).
  { apply map_filter_lookup_Some. done. }
  rewrite map_size_delete_Some by eauto.
  destruct (size _) eqn:E2; [|lia].
  apply map_size_empty_iff in E2. exfalso. rewrite E2 in Hl. done.
Qed.

Lemma refcount_pos (s : lockst) t p m : l_pc s !! t = Some p → snd <$> refs p = Some m → 1 ≤ refcount s m.
Proof.
  intros Hp Hr. unfold refcount. destruct (size _) eqn:E; [|lia].
  apply map_size_empty_iff in E. exfalso.
  assert (Hl : filter (fun kv : tid * pc => snd <$> refs kv.2 = Some m) (l_pc s) !! t = Some p).
  { apply map_filter_lookup_Some. done. }
  rewrite E in Hl. done.
Qed.
Lemma refcount_zero (s : lockst) m : (∀ t p, l_pc s !! t = Some p → snd <$> refs p ≠ Some m) → refcount s m = 0.
Proof.
  intros H. unfold refcount. apply map_size_empty_iff. apply map_filter_empty_iff.
  intros t p Hp. apply (H t p). exact Hp.
Qed.
Lemma refcount_ex (s : lockst) m : refcount s m ≠ 0 → ∃ t p, l_pc s !! t = Some p ∧ snd <$> refs p = Some m.
Proof.
  intros H. unfold refcount in H.
  destruct (decide (filter (fun kv : tid * pc => snd <$> refs kv.2 = Some m) (l_pc s) = ∅)) as [E|E].
  { rewrite E in H. rewrite map_size_empty in H. done. }
  apply map_choose in E as (t & p & Hp). apply map_filter_lookup_Some in Hp. eauto.
Qed.
Lemma refcount_delete (s : lockst) t p m g mp ob pn :
  l_pc s !! t = Some p → snd <$> refs p ≠ Some m →
  refcount (mkL g mp ob (delete t (l_pc s)) pn) m = refcount s m.
Proof.
  intros Hp Hr. unfold refcount. cbn. f_equal. rewrite map_filter_delete. apply delete_notin.
  apply map_filter_lookup_None. right. intros x Hx. cbn. congruence.
Qed.
Lemma refcount_eq s s' m : l_pc s = l_pc s' → refcount s m = refcount s' m.
Proof. intros E. unfold refcount. rewrite E. done. Qed.

(** A step that moves thread [t] from [p] (or from nothing) to [p'] keeping its reference,
    what it holds and whether it has b.mut, and nothing else. *)
Definition same_role (o : option pc) (p' : pc) : Prop :=
  match o with
  | Some p => refs p = refs p' ∧ holds p = holds p' ∧ global p = global p'
  | None => refs p' = None ∧ holds p' = None ∧ global p' = false
  end.

Lemma refcount_none (s : lockst) t p' m g mp ob pn :
  l_pc s !! t = None → refs p' = None →
  refcount (mkL g mp ob (<[t := p']> (l_pc s)) pn) m = refcount s m.
Proof.
  intros Hp Hr. unfold refcount. cbn. rewrite map_filter_insert_False by (cbn; rewrite Hr; done).
  rewrite delete_notin by done. done.
Qed.

Lemma linv_move s t p' : linv s → same_role (l_pc s !! t) p' → linv (goto s t p').
Proof.
  intros [V1 V2 V3 V4 V5 V6] Hr.
  assert (Hrc : ∀ m, refcount (goto s t p') m = refcount s m).
  { intros m. unfold goto. destruct (l_pc s !! t) as [p|] eqn:E; cbn in Hr.
    - destruct Hr as (Hr & _). eapply refcount_insert_same; [exact E|]. rewrite Hr. done.
    - destruct Hr as (Hr & _). apply refcount_none; done. }
  assert (Hl : ∀ t' q, l_pc (goto s t p') !! t' = Some q →
     (∃ q0, l_pc s !! t' = Some q0 ∧ refs q0 = refs q ∧ holds q0 = holds q ∧ global q0 = global q) ∨
     (refs q = None ∧ holds q = None ∧ global q = false)).
  { intros t' q. cbn. destruct (decide (t = t')) as [<-|Hne].
    - rewrite lookup_insert. intros [= <-]. destruct (l_pc s !! t) as [p|]; cbn in Hr; [left; eauto | right; done].
    - rewrite lookup_insert_ne by done. intros H. left. eauto. }
  assert (Hl' : ∀ t' q0, l_pc s !! t' = Some q0 → ∃ q, l_pc (goto s t p') !! t' = Some q ∧
       refs q0 = refs q ∧ holds q0 = holds q ∧ global q0 = global q).
  { intros t' q0 Hq. cbn. destruct (decide (t = t')) as [<-|Hne].
    - rewrite lookup_insert. rewrite Hq in Hr. cbn in Hr. eauto.
    - rewrite lookup_insert_ne by done. eauto. }
  split; cbn [l_global l_map l_objs l_panic goto]; auto.
  - intros t'. rewrite V1. split.
    + intros (p & Hp & Hg). destruct (Hl' _ _ Hp) as (q & Hq & _ & _ & E). exists q. split; [done|congruence].
    + intros (q & Hq & Hg). destruct (Hl _ _ Hq) as [(q0 & Hq0 & _ & _ & E)|(_ & _ & E)]; [|congruence].
      exists q0. split; [done|congruence].
  - intros t' q a m Hq Hm. destruct (Hl _ _ Hq) as [(q0 & Hq0 & E & _)|(E & _)]; [|congruence].
    eapply V2; [exact Hq0|congruence].
  - intros a m Hm. destruct (V3 a m Hm) as (o & Ho & Hc & t0 & p0 & Hp0 & Hr0).
    exists o. rewrite Hrc. split; [done|split; [done|]].
    destruct (Hl' _ _ Hp0) as (q & Hq & E & _). exists t0, q. split; [done|congruence].
  - intros m o t' Ho. rewrite (V5 m o t' Ho). split.
    + intros (p & Hp & Hg). destruct (Hl' _ _ Hp) as (q & Hq & _ & E & _). exists q. split; [done|congruence].
    + intros (q & Hq & Hg). destruct (Hl _ _ Hq) as [(q0 & Hq0 & _ & E & _)|(_ & E & _)]; [|congruence].
      exists q0. split; [done|congruence].
Qed.

(** Taking and giving back b.mut. *)
Lemma linv_take s t p p' : linv s → l_pc s !! t = Some p → l_global s = None →
  refs p = refs p' → holds p = holds p' → global p' = true →
  linv (mkL (Some t) (l_map s) (l_objs s) (<[t := p']> (l_pc s)) (l_panic s)).
Proof.
  intros [V1 V2 V3 V4 V5 V6] Hp Hg Hr Hh Hgl. split; cbn [l_global l_map l_objs l_panic l_pc]; auto.
  - intros t'. split.
    + intros [= <-]. exists p'. rewrite lookup_insert. done.
    + intros (q & Hq & Hq2). destruct (decide (t = t')) as [<-|Hne]; [done|].
      rewrite lookup_insert_ne in Hq by done.
      assert (l_global s = Some t') by (apply V1; eauto). congruence.
  - intros t' q a m Hq Hm. destruct (decide (t = t')) as [<-|Hne].
    + rewrite lookup_insert in Hq. injection Hq as <-. eapply V2; [exact Hp|congruence].
    + rewrite lookup_insert_ne in Hq by done. eauto.
  - intros a m Hm. destruct (V3 a m Hm) as (o & Ho & Hc & t0 & p0 & Hp0 & Hr0).
    exists o. split; [done|]. split.
    + rewrite Hc. f_equal. symmetry. eapply refcount_insert_same; [exact Hp|]. rewrite Hr. done.
    + destruct (decide (t = t0)) as [<-|Hne].
      * exists t, p'. rewrite lookup_insert. split; [done|]. congruence.
      * exists t0, p0. rewrite lookup_insert_ne by done. done.
  - intros m o t' Ho. rewrite (V5 m o t' Ho). destruct (decide (t = t')) as [<-|Hne].
    + rewrite lookup_insert, Hp. split; intros (q & [= <-] & E); eexists; (split; [reflexivity|]); congruence.
    + rewrite lookup_insert_ne by done. done.
Qed.

Lemma linv_give s t p p' : linv s → l_pc s !! t = Some p → global p = true →
  refs p = refs p' → holds p = holds p' → global p' = false →
  linv (mkL None (l_map s) (l_objs s) (<[t := p']> (l_pc s)) (l_panic s)).
Proof.
  intros [V1 V2 V3 V4 V5 V6] Hp Hg Hr Hh Hgl. split; cbn [l_global l_map l_objs l_panic l_pc]; auto.
  - intros t'. split; [done|]. intros (q & Hq & Hq2). destruct (decide (t = t')) as [<-|Hne].
    + rewrite lookup_insert in Hq. congruence.
    + rewrite lookup_insert_ne in Hq by done.
      assert (l_global s = Some t') by (apply V1; eauto). assert (l_global s = Some t) by (apply V1; eauto). congruence.
  - intros t' q a m Hq Hm. destruct (decide (t = t')) as [<-|Hne].
    + rewrite lookup_insert in Hq. injection Hq as <-. eapply V2; [exact Hp|congruence].
    + rewrite lookup_insert_ne in Hq by done. eauto.
  - intros a m Hm. destruct (V3 a m Hm) as (o & Ho & Hc & t0 & p0 & Hp0 & Hr0).
    exists o. split; [done|]. split.
    + rewrite Hc. f_equal. symmetry. eapply refcount_insert_same; [exact Hp|]. rewrite Hr. done.
    + destruct (decide (t = t0)) as [<-|Hne].
      * exists t, p'. rewrite lookup_insert. split; [done|]. congruence.
      * exists t0, p0. rewrite lookup_insert_ne by done. done.
  - intros m o t' Ho. rewrite (V5 m o t' Ho). destruct (decide (t = t')) as [<-|Hne].
    + rewrite lookup_insert, Hp. split; intros (q & [= <-] & E); eexists; (split; [reflexivity|]); congruence.
    + rewrite lookup_insert_ne by done. done.
Qed.

(** Only the mutex of [m] changes hands, to or from [t]. *)
Lemma linv_mutex s t p p' m o h : linv s → l_pc s !! t = Some p → l_objs s !! m = Some o →
  refs p = refs p' → global p = global p' →
  (∀ m', m' ≠ m → holds p = Some m' ↔ holds p' = Some m') →
  (∀ t', h = Some t' ↔ ∃ q, <[t := p']> (l_pc s) !! t' = Some q ∧ holds q = Some m) →
  linv (mkL (l_global s) (l_map s) (<[m := mkAM (am_rc o) h]> (l_objs s)) (<[t := p']> (l_pc s)) (l_panic s)).
Proof.
  intros [V1 V2 V3 V4 V5 V6] Hp Ho Hr Hg Hho Hh. split; cbn [l_global l_map l_objs l_panic l_pc]; auto.
  - intros t'. rewrite V1. destruct (decide (t = t')) as [<-|Hne].
    + rewrite lookup_insert, Hp. split; intros (q & [= <-] & E); eexists; (split; [reflexivity|]); congruence.
    + rewrite lookup_insert_ne by done. done.
  - intros t' q a m' Hq Hm. destruct (decide (t = t')) as [<-|Hne].
    + rewrite lookup_insert in Hq. injection Hq as <-. eapply V2; [exact Hp|congruence].
    + rewrite lookup_insert_ne in Hq by done. eauto.
  - intros a m' Hm. destruct (V3 a m' Hm) as (o' & Ho' & Hc & t0 & p0 & Hp0 & Hr0).
    assert (Hcount : refcount (mkL (l_global s) (l_map s) (<[m := mkAM (am_rc o) h]> (l_objs s)) (<[t := p']> (l_pc s)) (l_panic s)) m'
                     = refcount s m').
    { eapply refcount_insert_same; [exact Hp|]. rewrite Hr. done. }
    assert (Hex : ∃ t1 p1, <[t := p']> (l_pc s) !! t1 = Some p1 ∧ refs p1 = Some (a, m')).
    { destruct (decide (t = t0)) as [<-|Hne].
      * exists t, p'. rewrite lookup_insert. split; [done|]. congruence.
      * exists t0, p0. rewrite lookup_insert_ne by done. done. }
    destruct (decide (m = m')) as [<-|Hne].
    + exists (mkAM (am_rc o) h). rewrite lookup_insert. split; [done|]. split; [|done].
      cbn. assert (o' = o) as -> by congruence. congruence.
    + exists o'. rewrite lookup_insert_ne by done. split; [done|]. split; [congruence|done].
  - intros m' o' t' Ho'. destruct (decide (m = m')) as [<-|Hne].
    + rewrite lookup_insert in Ho'. injection Ho' as <-. cbn. apply Hh.
    + rewrite lookup_insert_ne in Ho' by done. rewrite (V5 m' o' t' Ho').
      destruct (decide (t = t')) as [<-|Hnt].
      * rewrite lookup_insert. split; intros (q & Hq & E).
        -- eexists; split; [reflexivity|]. apply Hho; [done|congruence].
        -- injection Hq as <-. eexists; split; [exact Hp|]. apply Hho; [done|congruence].
      * rewrite lookup_insert_ne by done. done.
Qed.

Lemma linv_step s s' : linv s → lstep s s' → linv s'.
Proof.
  intros HI Hs. pose proof HI as [V1 V2 V3 V4 V5 V6]. destruct Hs as
   [s t a Hp | s t a Hp Hg | s t a m o Hp Hm Ho | s t a m Hp Hm Hfresh | s t a m Hp | s t a m o Hp Ho Hh
   | s t a m Hp | s t a m m' Hp Hm | s t a m Hp Hm | s t a m o Hp Ho Hh | s t a m o Hp Ho Hh | s t a m Hp Hg
   | s t a m o Hp Ho | s t a Hp].
  - apply linv_move; [done|]. rewrite Hp. done.
  - eapply linv_take; eauto.
  - (* found *)
    assert (Hnr : ∀ m', snd <$> refs (AcqLook a) ≠ Some m') by done.
    assert (Hc : ∀ m' ob, refcount (mkL (l_global s) (l_map s) ob (<[t := AcqUnlock a m]> (l_pc s)) (l_panic s)) m' =
       if decide (m = m') then S (refcount s m') else refcount s m').
    { intros m' ob. destruct (decide (m = m')) as [<-|Hne].
      - apply refcount_add; [|done]. intros p Hp'. rewrite Hp in Hp'. injection Hp' as <-. done.
      - eapply refcount_insert_same; [exact Hp|]. cbn. split; [done|]. intros [= ?]. done. }
    split; cbn [l_global l_map l_objs l_panic l_pc]; auto.
    + intros t'. rewrite V1. destruct (decide (t = t')) as [<-|Hne].
      * rewrite lookup_insert, Hp. split; intros (q & [= <-] & E); eexists; (split; [reflexivity|]); done.
      * rewrite lookup_insert_ne by done. done.
    + intros t' q a' m' Hq Hr. destruct (decide (t = t')) as [<-|Hne].
      * rewrite lookup_insert in Hq. injection Hq as <-. cbn in Hr. congruence.
      * rewrite lookup_insert_ne in Hq by done. eauto.
    + intros a' m' Hm'. destruct (V3 a' m' Hm') as (o' & Ho' & Hcc & t0 & p0 & Hp0 & Hr0).
      rewrite Hc. destruct (decide (m = m')) as [<-|Hne].
      * rewrite lookup_insert. eexists; split; [reflexivity|]. split; [cbn; assert (o' = o) as -> by congruence; lia|].
        assert (a' = a) as -> by (eapply V4; eauto). exists t, (AcqUnlock a m). rewrite lookup_insert. done.
      * rewrite lookup_insert_ne by done. exists o'. split; [done|]. split; [done|]. exists t0, p0.
        rewrite lookup_insert_ne; [done|]. intros <-. rewrite Hp in Hp0. injection Hp0 as <-. done.
    + intros m' o' t' Ho'.
      assert (E : ∃ o0, l_objs s !! m' = Some o0 ∧ am_held o0 = am_held o').
      { destruct (decide (m = m')) as [<-|Hne].
        - rewrite lookup_insert in Ho'. injection Ho' as <-. eauto.
        - rewrite lookup_insert_ne in Ho' by done. eauto. }
      destruct E as (o0 & Ho0 & <-). rewrite (V5 m' o0 t' Ho0).
      destruct (decide (t = t')) as [<-|Hnt].
      * rewrite lookup_insert, Hp. split; intros (q & [= <-] & E); done.
      * rewrite lookup_insert_ne by done. done.
  - (* created *)
    assert (Hno : ∀ t' p, l_pc s !! t' = Some p → snd <$> refs p ≠ Some m).
    { intros t' p Hp' Hr. destruct (refs p) as [[a' m']|] eqn:E; [|done]. cbn in Hr. injection Hr as ->.
      pose proof (V2 _ _ _ _ Hp' E) as Hx. apply V3 in Hx as (o & Hox & _). congruence. }
    assert (Hnm : ∀ a', l_map s !! a' ≠ Some m).
    { intros a' Hx. apply V3 in Hx as (o & Hox & _). congruence. }
    assert (Hc : ∀ m' mp ob, refcount (mkL (l_global s) mp ob (<[t := AcqUnlock a m]> (l_pc s)) (l_panic s)) m' =
       if decide (m = m') then 1 else refcount s m').
    { intros m' mp ob. destruct (decide (m = m')) as [<-|Hne].
      - rewrite refcount_add; [|intros; eapply Hno; eauto|done]. rewrite (refcount_zero s m Hno). done.
      - eapply refcount_insert_same; [exact Hp|]. cbn. split; [done|]. intros [= ?]. done. }
    split; cbn [l_global l_map l_objs l_panic l_pc]; auto.
    + intros t'. rewrite V1. destruct (decide (t = t')) as [<-|Hne].
      * rewrite lookup_insert, Hp. split; intros (q & [= <-] & E); eexists; (split; [reflexivity|]); done.
      * rewrite lookup_insert_ne by done. done.
    + intros t' q a' m' Hq Hr. destruct (decide (t = t')) as [<-|Hne].
      * rewrite lookup_insert in Hq. injection Hq as <-. cbn in Hr. injection Hr as <- <-. apply lookup_insert.
      * rewrite lookup_insert_ne in Hq by done. rewrite lookup_insert_ne; [eauto|].
        intros <-. pose proof (V2 _ _ _ _ Hq Hr). congruence.
    + intros a' m' Hm'. destruct (decide (a = a')) as [<-|Hna].
      * rewrite lookup_insert in Hm'. injection Hm' as <-. rewrite Hc, lookup_insert.
        eexists; split; [reflexivity|]. destruct (decide (m = m)); [|done]. split; [done|].
        exists t, (AcqUnlock a m). rewrite lookup_insert. done.
      * rewrite lookup_insert_ne in Hm' by done.
        destruct (V3 a' m' Hm') as (o' & Ho' & Hcc & t0 & p0 & Hp0 & Hr0).
        assert (m ≠ m') by (intros <-; eapply Hnm; eauto).
        rewrite Hc. destruct (decide (m = m')); [done|]. rewrite lookup_insert_ne by done.
        exists o'. split; [done|]. split; [done|]. exists t0, p0.
        rewrite lookup_insert_ne; [done|]. intros <-. rewrite Hp in Hp0. injection Hp0 as <-. done.
    + intros a1 a2 m' H1 H2.
      destruct (decide (a = a1)) as [<-|]; destruct (decide (a = a2)) as [<-|]; auto.
      * rewrite lookup_insert in H1. injection H1 as <-. rewrite lookup_insert_ne in H2 by done. exfalso. eapply Hnm; eauto.
      * rewrite lookup_insert in H2. injection H2 as <-. rewrite lookup_insert_ne in H1 by done. exfalso. eapply Hnm; eauto.
      * rewrite lookup_insert_ne in H1, H2 by done. eauto.
    + intros m' o' t' Ho'. destruct (decide (m = m')) as [<-|Hne].
      * rewrite lookup_insert in Ho'. injection Ho' as <-. cbn. split; [done|].
        intros (q & Hq & E). exfalso. destruct (decide (t = t')) as [<-|Hnt].
        -- rewrite lookup_insert in Hq. injection Hq as <-. done.
        -- rewrite lookup_insert_ne in Hq by done. apply (Hno _ _ Hq). destruct q; cbn in E; try done; cbn; congruence.
      * rewrite lookup_insert_ne in Ho' by done. rewrite (V5 m' o' t' Ho').
        destruct (decide (t = t')) as [<-|Hnt].
        -- rewrite lookup_insert, Hp. split; intros (q & [= <-] & E); done.
        -- rewrite lookup_insert_ne by done. done.
  - eapply linv_give; eauto.
  - (* enter *)
    eapply linv_mutex; eauto; try done.
    + intros m' Hne. cbn. split; [done|]. intros [= ?]. done.
    + intros t'. split.
      * intros [= <-]. exists (InCS a m). rewrite lookup_insert. done.
      * intros (q & Hq & E). destruct (decide (t = t')) as [<-|Hne]; [done|].
        rewrite lookup_insert_ne in Hq by done.
        assert (am_held o = Some t') by (apply (V5 m o t' Ho); eauto). congruence.
  - apply linv_move; [done|]. rewrite Hp. done.
  - (* the map still has the object that was locked *)
    assert (m' = m) as ->.
    { pose proof (V2 _ _ a m Hp eq_refl). congruence. }
    apply linv_move; [done|]. rewrite Hp. done.
  - pose proof (V2 _ _ a m Hp eq_refl). congruence.
  - (* unlock *)
    eapply linv_mutex; eauto; try done.
    + intros m' Hne. cbn. split; [|done]. intros [= ?]. done.
    + intros t'. split; [done|]. intros (q & Hq & E). exfalso.
      assert (Hht : am_held o = Some t) by (apply (V5 m o t Ho); eexists; split; [exact Hp|done]).
      destruct (decide (t = t')) as [<-|Hne].
      * rewrite lookup_insert in Hq. injection Hq as <-. done.
      * rewrite lookup_insert_ne in Hq by done.
        assert (am_held o = Some t') by (apply (V5 m o t' Ho); eauto). congruence.
  - assert (Hht : am_held o = Some t) by (apply (V5 m o t Ho); eexists; split; [exact Hp|done]). congruence.
  - eapply linv_take; eauto.
  - (* decrement *)
    pose proof (V2 _ _ a m Hp eq_refl) as Hma.
    destruct (V3 a m Hma) as (o0 & Ho0 & Hrc & _). assert (o0 = o) as -> by congruence.
    assert (Hc : ∀ m' mp ob, refcount (mkL (l_global s) mp ob (<[t := RelDone a]> (l_pc s)) (l_panic s)) m' =
       if decide (m = m') then refcount s m' - 1 else refcount s m').
    { intros m' mp ob. destruct (decide (m = m')) as [<-|Hne].
      - rewrite (refcount_del s t (RelDec a m) (RelDone a) m (l_global s) mp ob (l_panic s)) by done. lia.
      - eapply refcount_insert_same; [exact Hp|]. cbn. split; [intros [= ?]; done|done]. }
    pose proof (refcount_pos s t _ m Hp eq_refl) as Hpos.
    set (mp' := if (am_rc o - 1 =? 0)%Z then delete a (l_map s) else l_map s).
    (* who else refers to m *)
    assert (Hother : ∀ t' q, l_pc s !! t' = Some q → t' ≠ t → snd <$> refs q = Some m → (am_rc o - 1 =? 0)%Z = false).
    { intros t' q Hq Hne Hr. apply Z.eqb_neq. rewrite Hrc.
      specialize (Hc m mp' (l_objs s)). destruct (decide (m = m)); [|done].
      assert (Hq' : l_pc (mkL (l_global s) mp' (l_objs s) (<[t := RelDone a]> (l_pc s)) (l_panic s)) !! t' = Some q).
      { cbn. rewrite lookup_insert_ne by done. done. }
      pose proof (refcount_pos _ _ _ m Hq' Hr) as Hge. lia. }
    assert (Hsub : ∀ a' m', mp' !! a' = Some m' → l_map s !! a' = Some m').
    { intros a' m'. unfold mp'. destruct (_ =? _)%Z; [|done]. rewrite lookup_delete_Some. tauto. }
    split; cbn [l_global l_map l_objs l_panic l_pc]; fold mp'; auto.
    + intros t'. rewrite V1. destruct (decide (t = t')) as [<-|Hne].
      * rewrite lookup_insert, Hp. split; intros (q & [= <-] & E); eexists; (split; [reflexivity|]); done.
      * rewrite lookup_insert_ne by done. done.
    + intros t' q a' m' Hq Hr. destruct (decide (t = t')) as [<-|Hne].
      * rewrite lookup_insert in Hq. injection Hq as <-. done.
      * rewrite lookup_insert_ne in Hq by done. pose proof (V2 _ _ _ _ Hq Hr) as Hm'.
        unfold mp'. destruct (am_rc o - 1 =? 0)%Z eqn:Ez; [|done].
        destruct (decide (a = a')) as [<-|Hna].
        -- assert (m' = m) as -> by congruence.
           exfalso. assert (Hf : true = false); [|done].
           apply (Hother t' q Hq (not_eq_sym Hne)). rewrite Hr. done.
        -- rewrite lookup_delete_ne by done. done.
    + intros a' m' Hm'. destruct (decide (m = m')) as [<-|Hne].
      * assert (a' = a) as -> by (eapply V4; eauto).
        unfold mp' in Hm'. destruct (am_rc o - 1 =? 0)%Z eqn:Ez; [rewrite lookup_delete in Hm'; done|].
        rewrite lookup_insert. eexists; split; [reflexivity|]. rewrite Hc. destruct (decide (m = m)); [|done].
        apply Z.eqb_neq in Ez. cbn. split; [lia|].
        assert (Hn0 : refcount (mkL (l_global s) mp' (l_objs s) (<[t := RelDone a]> (l_pc s)) (l_panic s)) m ≠ 0).
        { rewrite Hc. destruct (decide (m = m)); [|done]. lia. }
        apply refcount_ex in Hn0 as (t1 & p1 & Hp1 & Hr1). exists t1, p1. split; [exact Hp1|].
        cbn in Hp1. destruct (decide (t = t1)) as [<-|Hnt].
        { rewrite lookup_insert in Hp1. injection Hp1 as <-. done. }
        rewrite lookup_insert_ne in Hp1 by done.
        destruct (refs p1) as [[a1 m1]|] eqn:E1; [|done]. cbn in Hr1. injection Hr1 as ->.
        pose proof (V2 _ _ _ _ Hp1 E1) as Hx. assert (a1 = a) as -> by (eapply V4; eauto). done.
      * pose proof (Hsub _ _ Hm') as Hm0.
        destruct (V3 a' m' Hm0) as (o' & Ho' & Hcc & t0 & p0 & Hp0 & Hr0).
        rewrite Hc. destruct (decide (m = m')); [done|]. rewrite lookup_insert_ne by done.
        exists o'. split; [done|]. split; [done|]. exists t0, p0. split; [|done].
        rewrite lookup_insert_ne; [done|]. intros <-. rewrite Hp in Hp0. injection Hp0 as <-. cbn in Hr0. congruence.
    + intros a1 a2 m' H1 H2. eauto.
    + intros m' o' t' Ho'.
      assert (E : ∃ o1, l_objs s !! m' = Some o1 ∧ am_held o1 = am_held o').
      { destruct (decide (m = m')) as [<-|Hne].
        - rewrite lookup_insert in Ho'. injection Ho' as <-. eauto.
        - rewrite lookup_insert_ne in Ho' by done. eauto. }
      destruct E as (o1 & Ho1 & <-). rewrite (V5 m' o1 t' Ho1).
      destruct (decide (t = t')) as [<-|Hnt].
      * rewrite lookup_insert, Hp. split; intros (q & [= <-] & E); done.
      * rewrite lookup_insert_ne by done. done.
  - (* done *)
    assert (Hc : ∀ m', refcount (mkL None (l_map s) (l_objs s) (delete t (l_pc s)) (l_panic s)) m' = refcount s m').
    { intros m'. eapply refcount_delete; [exact Hp|]. done. }
    split; cbn [l_global l_map l_objs l_panic l_pc]; auto.
    + intros t'. split; [done|]. intros (q & Hq & Hq2). exfalso. apply lookup_delete_Some in Hq as [Hne Hq].
      assert (l_global s = Some t') by (apply V1; eauto). assert (l_global s = Some t) by (apply V1; eauto). congruence.
    + intros t' q a' m' Hq Hr. apply lookup_delete_Some in Hq as [Hne Hq]. eauto.
    + intros a' m' Hm'. destruct (V3 a' m' Hm') as (o' & Ho' & Hcc & t0 & p0 & Hp0 & Hr0).
      rewrite Hc. exists o'. split; [done|]. split; [done|]. exists t0, p0. split; [|done].
      rewrite lookup_delete_ne; [done|]. intros <-. rewrite Hp in Hp0. injection Hp0 as <-. done.
    + intros m' o' t' Ho'. rewrite (V5 m' o' t' Ho'). split.
      * intros (q & Hq & E). exists q. split; [|done]. rewrite lookup_delete_ne; [done|]. intros <-.
        rewrite Hp in Hq. injection Hq as <-. done.
      * intros (q & Hq & E). apply lookup_delete_Some in Hq as [Hne Hq]. eauto.
Qed.

Lemma linv_reach s : lreach s → linv s.
Proof.
  induction 1; [|eapply linv_step; eauto]. split; cbn; try done.
  intros t. split; [done|]. intros (p & Hp & _). done.
Qed.

(** C46. Two requests are never inside the critical section of the same account. *)
Theorem C46_mutual_exclusion s t1 t2 p1 p2 a :
  lreach s → l_pc s !! t1 = Some p1 → l_pc s !! t2 = Some p2 → in_cs p1 a → in_cs p2 a → t1 = t2.
Proof.
  intros Hr H1 H2 [m1 C1] [m2 C2]. destruct (linv_reach _ Hr) as [V1 V2 V3 V4 V5 V6].
  assert (R1 : refs p1 = Some (a, m1) ∧ holds p1 = Some m1) by (destruct C1 as [->|[->| ->]]; done).
  assert (R2 : refs p2 = Some (a, m2) ∧ holds p2 = Some m2) by (destruct C2 as [->|[->| ->]]; done).
  destruct R1 as [R1 G1], R2 as [R2 G2].
  pose proof (V2 _ _ _ _ H1 R1) as M1. pose proof (V2 _ _ _ _ H2 R2) as M2.
  assert (m2 = m1) as -> by congruence.
  destruct (V3 _ _ M1) as (o & Ho & _).
  assert (am_held o = Some t1) by (apply (V5 _ _ t1 Ho); eauto).
  assert (am_held o = Some t2) by (apply (V5 _ _ t2 Ho); eauto). congruence.
Qed.

(** C46. When no request is active no lock record remains. *)
Theorem C46_nothing_left s : lreach s → l_pc s = ∅ → l_map s = ∅ ∧ l_global s = None.
Proof.
  intros Hr He. destruct (linv_reach _ Hr) as [V1 V2 V3 V4 V5 V6]. split.
  - apply map_empty. intros a. destruct (l_map s !! a) as [m|] eqn:E; [|done].
    destruct (V3 a m E) as (o & _ & _ & t & p & Hp & _). rewrite He in Hp. done.
  - destruct (l_global s) as [t|] eqn:E; [|done].
    destruct (proj1 (V1 t) eq_refl) as (p & Hp & _). rewrite He in Hp. done.
Qed.

(** C46. More precisely, at any time there is a record for an account exactly when some
    request that has registered for it has not yet deregistered, and its count is their number. *)
Theorem C46_record_iff_registered s a :
  lreach s →
  (is_Some (l_map s !! a) ↔ ∃ t p m, l_pc s !! t = Some p ∧ refs p = Some (a, m)) ∧
  (∀ m, l_map s !! a = Some m → ∃ o, l_objs s !! m = Some o ∧
     am_rc o = Z.of_nat (size (filter (fun kv : tid * pc => refs kv.2 = Some (a, m)) (l_pc s)))).
Proof.
  intros Hr. destruct (linv_reach _ Hr) as [V1 V2 V3 V4 V5 V6]. split; [split|].
  - intros [m Hm]. destruct (V3 a m Hm) as (o & _ & _ & t & p & Hp & E). eauto.
  - intros (t & p & m & Hp & E). exists m. eauto.
  - intros m Hm. destruct (V3 a m Hm) as (o & Ho & Hc & _). exists o. split; [done|]. rewrite Hc. f_equal.
    unfold refcount. f_equal. apply map_filter_strong_ext. intros t p. cbn. split.
    + intros [H1 H2]. split; [|done]. destruct (refs p) as [[a' m']|] eqn:E; [|done]. cbn in H1. injection H1 as ->.
      pose proof (V2 _ _ _ _ H2 E). assert (a' = a) as -> by (eapply V4; eauto). done.
    + intros [H1 H2]. split; [rewrite H1; done|done].
Qed.

(** C46. A waiting request waits on the lock the account has now, and a request that
    releases finds the lock it took: no nil pointer, no unlock of an unlocked mutex. *)
Theorem C46_finds_its_lock s :
  lreach s →
  l_panic s = false ∧
  (∀ t a m, l_pc s !! t = Some (AcqWait a m) → l_map s !! a = Some m) ∧
  (∀ t a m, l_pc s !! t = Some (RelRead a m) → l_map s !! a = Some m ∧
     ∃ o, l_objs s !! m = Some o ∧ am_held o = Some t).
Proof.
  intros Hr. destruct (linv_reach _ Hr) as [V1 V2 V3 V4 V5 V6]. split; [done|]. split.
  - intros t a m Hp. eapply V2; [exact Hp|done].
  - intros t a m Hp. assert (Hm : l_map s !! a = Some m) by (eapply V2; [exact Hp|done]). split; [done|].
    destruct (V3 _ _ Hm) as (o & Ho & _). exists o. split; [done|]. apply (V5 _ _ t Ho). eauto.
Qed.

(** C46. No deadlock: while a request is active, some active request can move. *)
Theorem C46_no_deadlock s :
  lreach s → l_pc s ≠ ∅ → ∃ s', lstep s s' ∧ ∃ t, l_pc s !! t ≠ None ∧ l_pc s' !! t ≠ l_pc s !! t.
Proof.
  intros Hr Hne. destruct (linv_reach _ Hr) as [V1 V2 V3 V4 V5 V6].
  assert (Hfresh : ∃ m : mid, l_objs s !! m = None).
  { exists (fresh (dom (l_objs s))). apply not_elem_of_dom. apply is_fresh. }
  assert (Hlive : ∀ t p, l_pc s !! t = Some p → (global p = true ∨ holds p ≠ None) →
     ∃ s', lstep s s' ∧ ∃ t, l_pc s !! t ≠ None ∧ l_pc s' !! t ≠ l_pc s !! t).
  { intros t p Hp Hgh. destruct p as [a|a|a m|a m|a m|a m|a m|a m|a m|a]; cbn in Hgh;
      try (destruct Hgh; congruence).
    - destruct (l_map s !! a) as [m|] eqn:E.
      + destruct (V3 _ _ E) as (o & Ho & _). eexists. split; [eapply L_found; eauto|].
        exists t. cbn. rewrite lookup_insert, Hp. done.
      + destruct Hfresh as [m Hm]. eexists. split; [eapply L_create; eauto|].
        exists t. cbn. rewrite lookup_insert, Hp. done.
    - eexists. split; [eapply L_acq_unlock; eauto|]. exists t. cbn. rewrite lookup_insert, Hp. done.
    - eexists. split; [eapply L_leave; eauto|]. exists t. cbn. rewrite lookup_insert, Hp. done.
    - pose proof (V2 _ _ a m Hp eq_refl) as Hm. eexists. split; [eapply L_rel_read; eauto|].
      exists t. cbn. rewrite lookup_insert, Hp. done.
    - pose proof (V2 _ _ a m Hp eq_refl) as Hm. destruct (V3 _ _ Hm) as (o & Ho & _).
      assert (am_held o = Some t) as Hh by (apply (V5 _ _ t Ho); eauto).
      eexists. split; [eapply L_rel_unlock; eauto; congruence|]. exists t. cbn. rewrite lookup_insert, Hp. done.
    - pose proof (V2 _ _ a m Hp eq_refl) as Hm. destruct (V3 _ _ Hm) as (o & Ho & _).
      eexists. split; [eapply L_rel_dec; eauto|]. exists t. cbn. rewrite lookup_insert, Hp. done.
    - eexists. split; [eapply L_rel_done; eauto|]. exists t. cbn. rewrite lookup_delete, Hp. done. }
  destruct (l_global s) as [t|] eqn:Eg.
  { destruct (proj1 (V1 t) eq_refl) as (p & Hp & G). eapply Hlive; eauto. }
  apply map_choose in Hne as (t & p & Hp).
  destruct p as [a|a|a m|a m|a m|a m|a m|a m|a m|a]; try (eapply Hlive; [exact Hp|]; cbn; auto; fail).
  - eexists. split; [eapply L_acq_lock; eauto|]. exists t. cbn. rewrite lookup_insert, Hp. done.
  - pose proof (V2 _ _ a m Hp eq_refl) as Hm. destruct (V3 _ _ Hm) as (o & Ho & _).
    destruct (am_held o) as [t'|] eqn:Eh.
    + apply (V5 _ _ t' Ho) in Eh as (q & Hq & E). eapply Hlive; [exact Hq|]. right. rewrite E. done.
    + eexists. split; [eapply L_enter; eauto|]. exists t. cbn. rewrite lookup_insert, Hp. done.
  - eexists. split; [eapply L_rel_lock; eauto|]. exists t. cbn. rewrite lookup_insert, Hp. done.
Qed.

(** C46, the part that fails: releaseAccMut reads the shared map without b.mut, so a
    reachable state has one request about to read the map and another about to write it: in
    Go a data race, and "concurrent map read and map write" is a fatal error. *)
Theorem C74_map_race_refuted : ∃ s, lreach s ∧ map_race s.
Proof.
  pose (a := [1%N]). pose (b := [2%N]).
  eexists. split.
  { eapply LR_step; [eapply LR_step; [eapply LR_step; [eapply LR_step; [eapply LR_step; [eapply LR_step; [eapply LR_step; [eapply LR_step; [exact LR_init|]|]|]|]|]|]|]|].
    - apply (L_start _ 0 a). reflexivity.
    - apply (L_acq_lock _ 0 a); reflexivity.
    - apply (L_create _ 0 a 0); reflexivity.
    - apply (L_acq_unlock _ 0 a 0); reflexivity.
    - apply (L_enter _ 0 a 0 (mkAM 1 None)); reflexivity.
    - apply (L_leave _ 0 a 0); reflexivity.
    - apply (L_start _ 1 b); reflexivity.
    - apply (L_acq_lock _ 1 b); reflexivity. }
  exists 0, 1, (RelRead a 0), (AcqLook b). split; [discriminate|]. split; [reflexivity|]. split; [reflexivity|]. split.
  - exists a, 0. reflexivity.
  - left. exists b. split; reflexivity.
Qed.
(** Two requests for one account: the first inside, the second registered and waiting. *)
Example C46_example : ∃ s, lreach s ∧ in_cs (InCS [1%N] 0) [1%N] ∧ l_pc s !! 0 = Some (InCS [1%N] 0) ∧ l_pc s !! 1 = Some (AcqWait [1%N] 0) ∧
  l_map s !! [1%N] = Some 0 ∧ l_objs s !! 0 = Some (mkAM 2 (Some 0)).
Proof.
  pose (a := [1%N]). eexists. split.
  { eapply LR_step; [eapply LR_step; [eapply LR_step; [eapply LR_step; [eapply LR_step; [eapply LR_step; [eapply LR_step; [eapply LR_step; [eapply LR_step; [exact LR_init|]|]|]|]|]|]|]|]|].
    - apply (L_start _ 0 a). reflexivity.
    - apply (L_acq_lock _ 0 a); reflexivity.
    - apply (L_create _ 0 a 0); reflexivity.
    - apply (L_acq_unlock _ 0 a 0); reflexivity.
    - apply (L_enter _ 0 a 0 (mkAM 1 None)); reflexivity.
    - apply (L_start _ 1 a); reflexivity.
    - apply (L_acq_lock _ 1 a); reflexivity.
    - eapply (L_found _ 1 a 0); reflexivity.
    - apply (L_acq_unlock _ 1 a 0); reflexivity. }
  split; [exists 0; by left|]. split_and!; reflexivity.
Qed.
