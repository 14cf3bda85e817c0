(** Invariant of websocket subscriptions (Model/Subs.v). *)
From Verif.Base Require Import Prelude.
From Verif.Model Require Import EthLog Indexer Filters Subs.
From Verif.Proofs Require Import FiltersP.
Open Scope nat_scope.

Definition wfly (s : wstate) (id : fid) : option fevent :=
  match w_loop s with Some (e, r) => if decide (id ∈ r) then Some e else None | None => None end.
Definition inflight (p : phase) : list fitem := match p with PNotify k _ e => select k e | _ => [] end.

(** One subscription. *)
Definition pok (s : wstate) (id : fid) (p : phase) : Prop :=
  match p with
  | PWait _ => sent s id = [] ∧ wfly s id = None
  | PStart k n | PListen k n | PNotify k n _ =>
      n <= length (w_taken s) ∧ sent s id ++ inflight p ++ flying k (wfly s id) = due k n (w_taken s)
  | PLeave k n => n <= length (w_taken s) ∧ ∃ tail, due k n (w_taken s) = sent s id ++ tail
  | PGone k n => n <= length (w_taken s) ∧ wfly s id = None ∧ ∃ tail, due k n (w_taken s) = sent s id ++ tail
  end.
Record winv (s : wstate) : Prop := {
  WI_ph : ∀ id p, w_ph s !! id = Some p → pok s id p;
  WI_new : ∀ id, w_ph s !! id = None → sent s id = [] ∧ wfly s id = None;
  WI_loop : ∀ e r, w_loop s = Some (e, r) →
     r ≠ [] ∧ NoDup r ∧ (∀ id, id ∈ r → ∃ p k, w_ph s !! id = Some p ∧ installed p = Some k ∧ wants k e = true) ∧
     ∃ t, w_taken s = t ++ [e]
}.

Lemma due_app k n t e tail l : n <= length t → due k n t = l ++ tail → ∃ tail', due k n (t ++ [e]) = l ++ tail'.
Proof. intros Hn H. rewrite due_snoc by done. rewrite H. rewrite <- app_assoc. eauto. Qed.

Lemma wfly_rest e r id s : w_loop s = rest e r → wfly s id = if decide (id ∈ r) then Some e else None.
Proof.
  unfold wfly. intros ->. destruct r as [|x r]; cbn; [|done]. rewrite decide_False; [done|]. apply not_elem_of_nil.
Qed.
(** Same view. *)
Lemma pok_same s s' id p : pok s id p → sent s' id = sent s id → wfly s' id = wfly s id → w_taken s' = w_taken s → pok s' id p.
Proof. intros H E1 E2 E3. destruct p; cbn in *; rewrite ?E1, ?E2, ?E3; done. Qed.

Ltac weqs s' :=
  let P := eval unfold s' in (w_ph s') in let P := eval cbn [w_ph] in P in change (w_ph s') with P;
  let P := eval unfold s' in (w_loop s') in let P := eval cbn [w_loop] in P in change (w_loop s') with P;
  let P := eval unfold s' in (w_taken s') in let P := eval cbn [w_taken] in P in change (w_taken s') with P.

Lemma winv_init : winv w_init.
Proof. constructor; cbn; [intros ? ?; rewrite lookup_empty; done|done|done]. Qed.

(** Steps that touch neither the phases nor the loop nor the notifications. *)
Lemma winv_quiet s s' : winv s → w_ph s' = w_ph s → w_loop s' = w_loop s → w_taken s' = w_taken s → w_sent s' = w_sent s → winv s'.
Proof.
  intros [I1 I2 I3] E1 E2 E3 E4.
  assert (Es : ∀ id, sent s' id = sent s id) by (intros; unfold sent; by rewrite E4).
  assert (Ef : ∀ id, wfly s' id = wfly s id) by (intros; unfold wfly; by rewrite E2).
  constructor.
  - intros id p. rewrite E1. intros H. eapply pok_same; eauto.
  - intros id. rewrite E1, Es, Ef. apply I2.
  - intros e r. rewrite E1, E2, E3. apply I3.
Qed.
(** One phase changes, the loop and the notifications do not. *)
Lemma winv_phase s id p s' : winv s → w_ph s' = <[id := p]> (w_ph s) → w_loop s' = w_loop s → w_taken s' = w_taken s → w_sent s' = w_sent s →
  pok s id p → (w_loop s = None ∨ ∀ q, w_ph s !! id = Some q → installed q = installed p ∨ wfly s id = None) →
  (w_ph s !! id = None → True) → winv s'.
Proof.
  intros [I1 I2 I3] E1 E2 E3 E4 Hp Hin _.
  assert (Es : ∀ id, sent s' id = sent s id) by (intros; unfold sent; by rewrite E4).
  assert (Ef : ∀ id, wfly s' id = wfly s id) by (intros; unfold wfly; by rewrite E2).
  constructor.
  - intros x q. rewrite E1. destruct (decide (x = id)) as [->|Hx].
    + rewrite lookup_insert. intros [= <-]. eapply pok_same; eauto.
    + rewrite lookup_insert_ne by done. intros H. eapply pok_same; eauto.
  - intros x. rewrite E1. destruct (decide (x = id)) as [->|Hx]; [rewrite lookup_insert; done|]. rewrite lookup_insert_ne by done. rewrite Es, Ef. apply I2.
  - intros e r. rewrite E2, E3. intros Hl. destruct (I3 e r Hl) as (H1 & H2 & H3 & H4). split; [done|]. split; [done|]. split; [|done].
    intros x Hx. rewrite E1. destruct (decide (x = id)) as [->|Hne].
    + destruct (H3 id Hx) as (q & k & Hq & Hk & Hw). exists p, k. rewrite lookup_insert. split; [done|]. split; [|done].
      destruct Hin as [Hin|Hin]; [congruence|]. destruct (Hin q Hq) as [He|He]; [congruence|].
      unfold wfly in He. rewrite Hl in He. rewrite decide_True in He by done. done.
    + rewrite lookup_insert_ne by done. apply H3. done.
Qed.

Lemma winv_step w s s' : winv s → wstep w s s' → winv s'.
Proof.
  intros I Hs. destruct Hs as [s m|s i m e es ids Hl Hm He Hnd Hids|s i Hi|s i t Hi|s e id r k n Hl Hp|s e id r k n Hl Hp|s id k n e Hp|s id k n e pre post Hp Hpp|s id k Hp Hk|s id k Hl Hp|s id k n Hp|s id k n Hp|s id k n Hl Hp].
  - eapply winv_quiet; eauto.
  - (* take *)
    destruct I as [I1 I2 I3]. set (s' := mkW _ _ _ _ _ _).
    assert (Hf : ∀ id, wfly s id = None) by (intros; unfold wfly; by rewrite Hl).
    assert (Hf' : ∀ id, wfly s' id = if decide (id ∈ ids) then Some e else None) by (intros; by apply wfly_rest).
    constructor; weqs s'.
    + intros id p Hp. change (w_ph s !! id = Some p) in Hp. specialize (I1 id p Hp).
      assert (Hfl : ∀ k, installed p = Some k → flying k (wfly s' id) = select k e).
      { intros k Hk. rewrite Hf'. destruct (decide (id ∈ ids)) as [Hin|Hin]; [done|]. cbn.
        destruct (wants k e) eqn:Ew; [|by rewrite wants_select]. destruct Hin. apply Hids. eauto. }
      assert (Hnone : installed p = None → wfly s' id = None).
      { intros Hk. rewrite Hf'. destruct (decide (id ∈ ids)) as [Hin|]; [|done]. apply Hids in Hin as (q & k & Hq & Hk' & _). rewrite Hp in Hq. injection Hq as <-. congruence. }
      destruct p as [k|k n|k n|k n e'|k n|k n]; cbn in *.
      * split; [apply I1|]. by apply Hnone.
      * destruct I1 as [Hn HI]. rewrite app_length. split; [lia|]. rewrite due_snoc by done. rewrite <- HI, (Hfl k) by done. rewrite Hf. cbn. by rewrite app_nil_r.
      * destruct I1 as [Hn HI]. rewrite app_length. split; [lia|]. rewrite due_snoc by done. rewrite <- HI, (Hfl k) by done. rewrite Hf. cbn. by rewrite app_nil_r.
      * destruct I1 as [Hn HI]. rewrite app_length. split; [lia|]. rewrite due_snoc by done. rewrite <- HI, (Hfl k) by done. rewrite Hf. cbn. rewrite app_nil_r, <- app_assoc. done.
      * destruct I1 as (Hn & tail & HI). rewrite app_length. split; [lia|]. eapply due_app; eauto.
      * destruct I1 as (Hn & _ & tail & HI). rewrite app_length. split; [lia|]. split; [by apply Hnone|]. eapply due_app; eauto.
    + intros id Hid. change (w_ph s !! id = None) in Hid. split; [apply I2; done|]. rewrite Hf'. destruct (decide (id ∈ ids)) as [Hin|]; [|done]. apply Hids in Hin as (q & k & Hq & _). congruence.
    + intros e' r' Hr. destruct ids as [|x ids]; [done|]. injection Hr as <- <-. split; [done|]. split; [done|]. split; [|eauto].
      intros id Hin. apply Hids. done.
  - eapply winv_quiet; eauto.
  - eapply winv_quiet; eauto.
  - (* deliver *)
    destruct I as [I1 I2 I3]. set (s' := mkW _ _ _ _ _ _). destruct (I3 _ _ Hl) as (_ & Hnd & Hin & t & Ht).
    assert (Hnr : id ∉ r) by (by apply NoDup_cons in Hnd as [? _]).
    assert (Hf' : ∀ x, wfly s' x = if decide (x ∈ r) then Some e else None) by (intros; by apply wfly_rest).
    assert (Hfx : ∀ x, x ≠ id → wfly s' x = wfly s x).
    { intros x Hx. rewrite Hf'. unfold wfly. rewrite Hl. destruct (decide (x ∈ r)) as [Hr|Hr].
      - rewrite decide_True; [done|]. by right.
      - rewrite decide_False; [done|]. intros [->|?]%elem_of_cons; done. }
    assert (Hfid : wfly s id = Some e) by (unfold wfly; rewrite Hl, decide_True; [done|by left]).
    constructor; weqs s'.
    + intros x p. destruct (decide (x = id)) as [->|Hx].
      * rewrite lookup_insert. intros [= <-]. specialize (I1 _ _ Hp). cbn in I1 |- *. destruct I1 as [Hn HI]. split; [done|].
        rewrite Hf', decide_False by done. rewrite Hfid in HI. cbn in *. rewrite app_nil_r. done.
      * rewrite lookup_insert_ne by done. intros H. eapply pok_same; [eauto|done|by apply Hfx|done].
    + intros x. destruct (decide (x = id)) as [->|Hx]; [rewrite lookup_insert; done|]. rewrite lookup_insert_ne by done. intros H. rewrite Hfx by done. apply I2. done.
    + intros e' r' Hr. destruct r as [|y r]; [done|]. injection Hr as <- <-. apply NoDup_cons in Hnd as [_ Hnd]. split; [done|]. split; [done|]. split; [|eauto].
      intros x Hx. destruct (decide (x = id)) as [->|Hne]; [done|]. rewrite lookup_insert_ne by done. apply Hin. by right.
  - (* drain *)
    destruct I as [I1 I2 I3]. set (s' := mkW _ _ _ _ _ _). destruct (I3 _ _ Hl) as (_ & Hnd & Hin & t & Ht).
    assert (Hf' : ∀ x, wfly s' x = if decide (x ∈ r) then Some e else None) by (intros; by apply wfly_rest).
    assert (Hfx : ∀ x, x ≠ id → wfly s' x = wfly s x).
    { intros x Hx. rewrite Hf'. unfold wfly. rewrite Hl. destruct (decide (x ∈ r)) as [Hr|Hr].
      - rewrite decide_True; [done|]. by right.
      - rewrite decide_False; [done|]. intros [->|?]%elem_of_cons; done. }
    constructor; weqs s'.
    + intros x p. destruct (decide (x = id)) as [->|Hx].
      * intros H. rewrite Hp in H. injection H as <-. specialize (I1 _ _ Hp). done.
      * intros H. eapply pok_same; [eauto|done|by apply Hfx|done].
    + intros x H. destruct (decide (x = id)) as [->|Hx]; [congruence|]. rewrite Hfx by done. apply I2. done.
    + intros e' r' Hr. destruct r as [|y r]; [done|]. injection Hr as <- <-. apply NoDup_cons in Hnd as [_ Hnd]. split; [done|]. split; [done|]. split; [|eauto].
      intros x Hx. apply Hin. by right.
  - (* notified *)
    destruct I as [I1 I2 I3]. set (s' := mkW _ _ _ _ _ _).
    assert (Hsx : ∀ x, x ≠ id → sent s' x = sent s x) by (intros; unfold sent; cbn; rewrite lookup_insert_ne by done; done).
    assert (Hsi : sent s' id = sent s id ++ select k e) by (unfold sent; cbn; rewrite lookup_insert; done).
    constructor; weqs s'.
    + intros x p. destruct (decide (x = id)) as [->|Hx].
      * rewrite lookup_insert. intros [= <-]. specialize (I1 _ _ Hp). cbn in I1 |- *. destruct I1 as [Hn HI]. split; [done|].
        rewrite Hsi, <- app_assoc. done.
      * rewrite lookup_insert_ne by done. intros H. eapply pok_same; [eauto|by apply Hsx|done|done].
    + intros x. destruct (decide (x = id)) as [->|Hx]; [rewrite lookup_insert; done|]. rewrite lookup_insert_ne by done. intros H. rewrite Hsx by done. apply I2. done.
    + intros e' r' Hr. destruct (I3 _ _ Hr) as (H1 & H2 & H3 & H4). split; [done|]. split; [done|]. split; [|done].
      intros x Hx. destruct (H3 x Hx) as (q & k' & Hq & Hk' & Hw). destruct (decide (x = id)) as [->|Hne].
      * rewrite lookup_insert. rewrite Hp in Hq. injection Hq as <-. eauto.
      * rewrite lookup_insert_ne by done. eauto.
  - (* broken *)
    destruct I as [I1 I2 I3]. set (s' := mkW _ _ _ _ _ _).
    assert (Hsx : ∀ x, x ≠ id → sent s' x = sent s x) by (intros; unfold sent; cbn; rewrite lookup_insert_ne by done; done).
    assert (Hsi : sent s' id = sent s id ++ pre) by (unfold sent; cbn; rewrite lookup_insert; done).
    constructor; weqs s'.
    + intros x p. destruct (decide (x = id)) as [->|Hx].
      * rewrite lookup_insert. intros [= <-]. specialize (I1 _ _ Hp). cbn in I1 |- *. destruct I1 as [Hn HI]. split; [done|].
        rewrite Hpp in HI. exists (post ++ flying k (wfly s id)). rewrite <- HI, Hsi. rewrite <- !app_assoc. done.
      * rewrite lookup_insert_ne by done. intros H. eapply pok_same; [eauto|by apply Hsx|done|done].
    + intros x. destruct (decide (x = id)) as [->|Hx]; [rewrite lookup_insert; done|]. rewrite lookup_insert_ne by done. intros H. rewrite Hsx by done. apply I2. done.
    + intros e' r' Hr. destruct (I3 _ _ Hr) as (H1 & H2 & H3 & H4). split; [done|]. split; [done|]. split; [|done].
      intros x Hx. destruct (H3 x Hx) as (q & k' & Hq & Hk' & Hw). destruct (decide (x = id)) as [->|Hne].
      * rewrite lookup_insert. rewrite Hp in Hq. injection Hq as <-. eauto.
      * rewrite lookup_insert_ne by done. eauto.
  - (* subscribe *)
    apply (winv_phase s id (PWait k)); [done..| | |done]; [apply (WI_new s I id Hp)|]. right. intros q Hq. congruence.
  - (* install *)
    apply (winv_phase s id (PStart k (length (w_taken s)))); [done..| | |done]; [|by left].
    destruct (WI_ph s I id _ Hp) as [Hs Hf]. cbn. split; [done|]. rewrite Hs, Hf. cbn. symmetry. apply due_all. done.
  - (* start *)
    apply (winv_phase s id (PListen k n)); [done..| | |done]; [exact (WI_ph s I id _ Hp)|]. right. intros q Hq. rewrite Hp in Hq. injection Hq as <-. by left.
  - (* leave *)
    apply (winv_phase s id (PLeave k n)); [done..| | |done]; [|right; intros q Hq; rewrite Hp in Hq; injection Hq as <-; by left].
    destruct (WI_ph s I id _ Hp) as [Hn HI]. split; [done|]. eexists. symmetry. exact HI.
  - (* uninstall *)
    apply (winv_phase s id (PGone k n)); [done..| | |done]; [|by left].
    destruct (WI_ph s I id _ Hp) as [Hn HI]. split; [done|]. split; [|done]. unfold wfly. by rewrite Hl.
Qed.
Lemma winv_reach s : wreach s → winv s.
Proof. induction 1 as [|w s s' _ IH Hs]; [apply winv_init|]. eapply winv_step; eauto. Qed.

(** ** A measure: every step without new work uses some of it up. *)
Definition wphase (p : phase) : nat :=
  match p with PWait _ => 3 | PStart _ _ => 2 | PListen _ _ => 1 | PNotify _ _ _ => 2 | PLeave _ _ => 1 | PGone _ _ => 0 end.
Definition wsum (m : gmap fid phase) : nat := map_fold (fun _ p acc => wphase p + acc) 0 m.
Lemma wsum_insert m i p : m !! i = None → wsum (<[i := p]> m) = wphase p + wsum m.
Proof. intros H. unfold wsum. rewrite map_fold_insert_L; [done| |done]. intros. lia. Qed.
Lemma wsum_update m i q p : m !! i = Some q → wsum (<[i := p]> m) + wphase q = wsum m + wphase p.
Proof.
  intros H. rewrite <- (insert_delete m i q H) at 2. rewrite <- insert_delete_insert.
  rewrite !wsum_insert by apply lookup_delete. lia.
Qed.
Definition wemit (n : nat) (m : option emitter) : nat :=
  match m with None => 0 | Some m => 1 + (3 * n + 1) * length (em_events m) end.
Definition wwork (s : wstate) : nat :=
  sum_list (wemit (size (w_ph s)) <$> w_emit s) +
  match w_loop s with Some (_, r) => 3 * length r | None => 0 end + wsum (w_ph s).
Lemma sum_update {A} (f : A → nat) (l : list A) i x y : l !! i = Some x → sum_list (f <$> <[i := y]> l) + f x = sum_list (f <$> l) + f y.
Proof.
  revert i; induction l as [|a l IH]; intros [|i]; try done.
  - intros [= ->]. change (f y + sum_list (f <$> l) + f x = f x + sum_list (f <$> l) + f y). lia.
  - intros H. specialize (IH i H). change (f a + sum_list (f <$> <[i := y]> l) + f x = f a + sum_list (f <$> l) + f y). lia.
Qed.
Lemma rest_len e r : match rest e r with Some (_, x) => 3 * length x | None => 0 end = 3 * length r.
Proof. by destruct r. Qed.
Lemma ids_size (m : gmap fid phase) ids : NoDup ids → (∀ x, x ∈ ids → is_Some (m !! x)) → length ids <= size m.
Proof.
  intros Hnd H. rewrite <- size_dom. rewrite <- (size_list_to_set (C := gset fid) ids Hnd).
  apply subseteq_size. intros x Hx. apply elem_of_list_to_set in Hx. apply elem_of_dom. by apply H.
Qed.
Lemma size_update (m : gmap fid phase) i q p : m !! i = Some q → size (<[i := p]> m) = size m.
Proof. intros H. apply map_size_insert_Some. eauto. Qed.

Lemma wwork_dec w s s' : w ≠ World → wstep w s s' → wwork s' < wwork s.
Proof.
  intros Hw Hs. destruct Hs as [s m|s i m e es ids Hl Hm He Hnd Hids|s i Hi|s i t Hi|s e id r k n Hl Hp|s e id r k n Hl Hp|s id k n e Hp|s id k n e pre post Hp Hpp|s id k Hp Hk|s id k Hl Hp|s id k n Hp|s id k n Hp|s id k n Hl Hp];
    try done; unfold wwork; cbn [w_emit w_loop w_ph w_taken w_sent w_pool].
  - rewrite rest_len, Hl.
    pose proof (sum_update (wemit (size (w_ph s))) (w_emit s) i (Some m) (Some (em_rest m es)) Hm) as E.
    assert (Hlen : length ids <= size (w_ph s)).
    { apply ids_size; [done|]. intros x (p & k & Hp & _)%Hids. eauto. }
    change (wemit (size (w_ph s)) (Some m)) with (1 + (3 * size (w_ph s) + 1) * length (em_events m)) in E.
    change (wemit (size (w_ph s)) (Some (em_rest m es))) with (1 + (3 * size (w_ph s) + 1) * length (em_events (em_rest m es))) in E.
    rewrite He in E. assert (em_events (em_rest m es) = es) as E' by (by destruct m). rewrite E' in E.
    cbn [length] in E. rewrite Nat.mul_succ_r in E. lia.
  - pose proof (sum_update (wemit (size (w_ph s))) (w_emit s) i _ None Hi) as E. cbn in E. lia.
  - pose proof (sum_update (wemit (size (w_ph s))) (w_emit s) i _ None Hi) as E. cbn in E. lia.
  - rewrite rest_len, Hl. pose proof (wsum_update _ _ _ (PNotify k n e) Hp) as E. cbn [wphase length] in *. erewrite size_update by done. lia.
  - rewrite rest_len, Hl. cbn [length]. lia.
  - pose proof (wsum_update _ _ _ (PListen k n) Hp) as E. cbn [wphase] in *. erewrite size_update by done. lia.
  - pose proof (wsum_update _ _ _ (PLeave k n) Hp) as E. cbn [wphase] in *. erewrite size_update by done. lia.
  - pose proof (wsum_update _ _ _ (PStart k (length (w_taken s))) Hp) as E. cbn [wphase] in *. erewrite size_update by done. lia.
  - pose proof (wsum_update _ _ _ (PListen k n) Hp) as E. cbn [wphase] in *. erewrite size_update by done. lia.
  - pose proof (wsum_update _ _ _ (PGone k n) Hp) as E. cbn [wphase] in *. erewrite size_update by done. lia.
Qed.

(** Where no such step is possible, everything has been handed out. *)
Lemma installed_phase p k : installed p = Some k →
  (∃ n, p = PStart k n) ∨ (∃ n, p = PListen k n) ∨ (∃ n e, p = PNotify k n e) ∨ (∃ n, p = PLeave k n).
Proof. destruct p; cbn; intros [= ->]; naive_solver. Qed.
Lemma take_ids (m : gmap fid phase) e : ∃ ids, NoDup ids ∧ ∀ id, id ∈ ids ↔ ∃ p k, m !! id = Some p ∧ installed p = Some k ∧ wants k e = true.
Proof.
  set (P := fun x : fid * phase => match installed x.2 with Some k => wants k e = true | None => False end).
  assert (∀ x, Decision (P x)) by (intros [? p]; unfold P; cbn; destruct (installed p); apply _).
  exists (fst <$> filter P (map_to_list m)). split.
  - apply NoDup_fmap_fst; [|apply NoDup_filter, NoDup_map_to_list].
    intros x y1 y2 [_ H1]%elem_of_list_filter [_ H2]%elem_of_list_filter. apply elem_of_map_to_list in H1, H2. congruence.
  - intros id. rewrite elem_of_list_fmap. split.
    + intros ([x p] & -> & Hin). apply elem_of_list_filter in Hin as [HP Hin]. apply elem_of_map_to_list in Hin.
      unfold P in HP. cbn in *. destruct (installed p) as [k|] eqn:E; [|done]. eauto.
    + intros (p & k & Hp & Hk & Hw). exists (id, p). split; [done|]. apply elem_of_list_filter. split; [|by apply elem_of_map_to_list].
      unfold P; cbn. by rewrite Hk.
Qed.
Lemma wstuck s : wreach s → (∀ w s', w ≠ World → ¬ wstep w s s') →
  w_loop s = None ∧ (∀ i m, w_emit s !! i = Some m → m = None) ∧
  ∀ id p, w_ph s !! id = Some p → (∃ k n, p = PListen k n) ∨ (∃ k n, p = PGone k n).
Proof.
  intros Hr Hst. pose proof (winv_reach s Hr) as I.
  assert (Hl : w_loop s = None).
  { destruct (w_loop s) as [[e r]|] eqn:Hl; [|done]. destruct (WI_loop s I _ _ Hl) as (Hne & _ & Hin & _).
    destruct r as [|id r]; [done|]. destruct (Hin id) as (p & k & Hp & Hk & _); [by left|].
    apply installed_phase in Hk as [(n & ->)|[(n & ->)|[(n & e' & ->)|(n & ->)]]]; exfalso.
    - eapply (Hst Server); [done|]. by eapply W_start.
    - eapply (Hst Server); [done|]. by eapply W_deliver.
    - eapply (Hst Reader); [done|]. by eapply W_notified.
    - eapply (Hst Server); [done|]. by eapply W_drain. }
  split; [done|]. split.
  - intros i [m|] Hi; [|done]. exfalso. destruct (em_events m) as [|e es] eqn:He.
    + destruct m as [es|t es]; cbn in He; subst es; eapply (Hst Server); try done; [by eapply W_block_done|by eapply W_insert].
    + destruct (take_ids (w_ph s) e) as (ids & H1 & H2). eapply (Hst Server); [done|]. by eapply W_take.
  - intros id p Hp. destruct p as [k|k n|k n|k n e|k n|k n]; try naive_solver; exfalso.
    + eapply (Hst Server); [done|]. by eapply W_install.
    + eapply (Hst Server); [done|]. by eapply W_start.
    + eapply (Hst Reader); [done|]. by eapply W_notified.
    + eapply (Hst Server); [done|]. by eapply W_uninstall.
Qed.
