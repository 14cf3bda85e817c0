(** C126, C127: submissions at the two endpoints of a node (Model/Servers.v). *)
From Verif.Base Require Import Prelude Hex.
From Verif.Model Require Import TxQueue Servers.
From Verif.Proofs Require Import TxQueueP.
From Verif.Props Require Import QueueProps.
Open Scope N_scope.

Lemma at_put n b s : at_end (put_end n b s) b = s.
Proof. by destruct b. Qed.
Lemma at_put_other n b s : at_end (put_end n b s) (other b) = with_seq (at_end n (other b)) (q_seq s).
Proof. by destruct b. Qed.
Lemma other_cases b c : c = b ∨ c = other b.
Proof. destruct b, c; auto. Qed.
Lemma same_seq_step cap seqs P n : nreach cap seqs P n → q_seq (n_http n) = q_seq (n_ws n).
Proof. induction 1 as [|n n' l Hr IH Hs _]; [done|]. destruct Hs as [n b a s _|n a v _]; [by destruct b|]. cbn. by rewrite IH. Qed.
Lemma seq_at cap seqs P n b c : nreach cap seqs P n → q_seq (at_end n b) = q_seq (at_end n c).
Proof. intros H%same_seq_step. by destruct b, c. Qed.
Lemma step_seq a s s' : qstep (Some a) s s' → q_seq s' = q_seq s ∨ q_seq s' = <[a := u64_add (acc_seq s a) 1]> (q_seq s).
Proof. intros H. remember (Some a) as l. destruct H; simplify_eq; auto. Qed.
Lemma u64_add_lt n m : u64_add n m < two64.
Proof. unfold u64_add, u64. apply N.mod_lt. by unfold two64. Qed.
Lemma with_same s : with_seq s (q_seq s) = s.
Proof. by destruct s. Qed.
Lemma step_trace l s s' : qstep l s s' → ∃ es, q_trace s' = q_trace s ++ es ∧ new_events s s' = es.
Proof.
  intros H. assert (He : ∃ es, q_trace s' = q_trace s ++ es).
  { destruct H; cbn; try (by eexists); by exists []; rewrite app_nil_r. }
  destruct He as [es He]. exists es. split; [done|]. unfold new_events. by rewrite He, drop_app.
Qed.

(** ** C126: what each endpoint guarantees by itself *)
(** Each endpoint is a submission queue as in C45, with the node changing sequences: all that C45
    says of every such history (consecutive nonces, at most one broadcast per submission, refusal
    of low nonces, no loss but by replacement or eviction, calls that end) holds of each. *)
Theorem C126_each_endpoint cap seqs n b : nreach cap seqs (λ _, True) n → qreach cap seqs true (at_end n b).
Proof.
  intros H. revert b. induction H as [|n n' l Hr IH Hs _]; intros b; [destruct b; constructor|].
  destruct Hs as [n c a s Hq|n a v Hv].
  - destruct (other_cases c b) as [-> | ->].
    + rewrite at_put. by eapply QR_step; [apply IH|exact Hq|].
    + rewrite at_put_other. destruct (step_seq a _ s Hq) as [E|E]; rewrite E, (seq_at _ _ _ _ c (other c) Hr).
      * rewrite with_same. apply IH.
      * eapply QR_step; [apply IH|apply (Q_env _ a _); apply u64_add_lt|done].
  - destruct b; cbn; [eapply QR_step; [apply (IH Http)|by apply Q_env|done]|eapply QR_step; [apply (IH Ws)|by apply Q_env|done]].
Qed.
(** Whatever is sent to which endpoint, and however the submissions interleave: as long as only
    these submissions move the sequences, the accepted transactions of a sender carry the
    consecutive nonces from the sender's sequence on, each once. *)
Theorem C126_no_gaps cap seqs n a i v : map_Forall (λ _ n, n < two64) seqs → nreach cap seqs (λ l, l ≠ None) n →
  accepted a (n_log n).*2 !! i = Some v → v = u64 (default 0 (seqs !! a) + N.of_nat i).
Proof.
  intros Hb Hr.
  assert (Hinv : (∀ a, acc_seq (n_http n) a = u64 (default 0 (seqs !! a) + N.of_nat (length (accepted a (n_log n).*2)))) ∧
    (∀ a i v, accepted a (n_log n).*2 !! i = Some v → v = u64 (default 0 (seqs !! a) + N.of_nat i))).
  2:{ by apply Hinv. }
  clear a i v. assert (Hr' : nreach cap seqs (λ _, True) n).
  { clear -Hr. induction Hr; [constructor|]. by econstructor. }
  induction Hr as [|n n' l Hr IH Hs Hl].
  { split; [|done]. intros a. unfold acc_seq. cbn. rewrite N.add_0_r. unfold u64. symmetry. apply N.mod_small.
    destruct (seqs !! a) as [m|] eqn:E; cbn; [exact (Hb _ _ E)|unfold two64; lia]. }
  assert (Hr0 : nreach cap seqs (λ _, True) n).
  { clear -Hr. induction Hr; [constructor|]. by econstructor. }
  specialize (IH Hr0). destruct IH as [IH1 IH2].
  destruct Hs as [n b a s Hq|]; [|done].
  assert (Hlog : (n_log (put_end n b s)).*2 = (n_log n).*2 ++ new_events (at_end n b) s).
  { assert (Hm : ∀ (c : endpoint) (l : list ev), fmap (M:=list) (B:=ev) snd (map (pair c) l) = l) by (intros c l; induction l as [|e l IHl]; [done|]; cbn; by f_equal).
    destruct b; cbn [put_end n_log]; by rewrite fmap_app, Hm. }
  assert (Hat : ∀ c, acc_seq (at_end n b) c = acc_seq (n_http n) c).
  { intros c. unfold acc_seq. by rewrite (seq_at _ _ _ _ b Http Hr0). }
  assert (Hput : ∀ c, acc_seq (n_http (put_end n b s)) c = acc_seq s c) by (intros c; by destruct b).
  pose proof (qinv_reach _ _ _ _ (C126_each_endpoint _ _ _ b Hr0)) as Hqi.
  destruct (step_trace _ _ _ Hq) as (es & Hes & Hne). rewrite Hlog, Hne. clear Hlog Hne.
  assert (Hquiet : accepted a es = [] ∧ (∀ c, accepted c es = []) ∧ (∀ c, acc_seq s c = acc_seq (at_end n b) c) ∨
    (∃ y, qt_from y = a ∧ es = [EvBroadcast y true] ∧ qt_nonce y = acc_seq (at_end n b) a ∧
      ∀ c, acc_seq s c = if decide (a = c) then u64_add (acc_seq (at_end n b) a) 1 else acc_seq (at_end n b) c)).
  { remember (Some a) as l eqn:El. revert Hes. set (s0 := at_end n b) in *. destruct Hq; cbn [q_trace]; intros Hes; try discriminate El.
    all: try (apply app_inv_head in Hes; subst es; by left).
    all: try (rewrite <- (app_nil_r (q_trace _)) in Hes at 1; apply app_inv_head in Hes; subst es; by left).
    right. exists y. injection El as ->. apply app_inv_head in Hes. subst es.
    destruct (QI_phase _ Hqi _ _ H) as [Hy1 Hy2]. split; [done|]. split; [done|]. split; [done|]. intros c. by rewrite acc_seq_insert. }
  split.
  - intros c. rewrite Hput, accepted_app, app_length.
    destruct Hquiet as [(_ & H1 & H2)|(y & <- & -> & H2 & H3)].
    + rewrite H1, H2, Hat, IH1. cbn. by rewrite Nat.add_0_r.
    + rewrite H3. cbn. destruct (decide (qt_from y = c)) as [<-|].
      * rewrite Hat, IH1, u64_add_one. cbn. f_equal. lia.
      * rewrite Hat, IH1. cbn. by rewrite Nat.add_0_r.
  - intros c i v. rewrite accepted_app. destruct Hquiet as [(_ & H1 & H2)|(y & <- & -> & H2 & H3)].
    + rewrite H1, app_nil_r. apply IH2.
    + intros [Hi|[Hge Hi]]%lookup_app_Some; [by apply IH2|]. cbn in Hi. destruct (decide (qt_from y = c)) as [<-|]; [|done].
      apply list_lookup_singleton_Some in Hi as [Hz <-]. rewrite H2, Hat, IH1. do 2 f_equal. lia.
Qed.
(** A sender who uses only one endpoint gets what C45 promises: no transaction of theirs is left
    waiting there when it is the one the account expects. *)
Definition lone (a : bytes) (s : qst) : Prop :=
  (∀ p acc, q_call s !! a = Some p → phase_acc p = Some acc → acc = acc_seq s a) ∧
  (early (q_call s !! a) → ∀ x, (cache_key a (acc_seq s a), x) ∉ q_queue s).
Lemma lone_step c l s s' : qinv s → qstep l s s' → (l = None → acc_seq s' c = acc_seq s c) → lone c s → lone c s'.
Proof.
  intros [J1 J2 J3 J4 J5 J6 J7] Hs Henv [K1 K2].
  assert (Hsame : ∀ cap q k t b, acc_seq (mkQ cap q k (q_seq s) t) b = acc_seq s b) by done.
  destruct Hs; (split; cbn [q_call q_queue]).
  - intros p acc. rewrite Hsame. destruct (decide (qt_from x = c)) as [<-|]; [rewrite lookup_insert; by intros [= <-]|].
    rewrite lookup_insert_ne by done. eauto.
  - rewrite Hsame. destruct (decide (qt_from x = c)) as [<-|]; [intros _; apply K2; by rewrite H|]. by rewrite lookup_insert_ne.
  - intros p acc. rewrite Hsame. intros [_ Hp]%lookup_delete_Some. eauto.
  - rewrite Hsame. destruct (decide (a = c)) as [<-|]; [intros _; apply K2; by rewrite H|]. by rewrite lookup_delete_ne.
  - intros p acc. rewrite Hsame. destruct (decide (a = c)) as [<-|]; [rewrite lookup_insert; by intros [= <-] [= <-]|].
    rewrite lookup_insert_ne by done. eauto.
  - rewrite Hsame. destruct (decide (a = c)) as [<-|]; [intros _; apply K2; by rewrite H|]. by rewrite lookup_insert_ne.
  - intros p acc'. rewrite Hsame. destruct (decide (a = c)) as [<-|]; [rewrite lookup_insert; intros [= <-] [= <-]; by eapply K1|].
    rewrite lookup_insert_ne by done. eauto.
  - rewrite Hsame. destruct (decide (a = c)) as [<-|Hn]; [by rewrite lookup_insert|]. rewrite lookup_insert_ne by done.
    intros He z [E|[_ Hz]]%elem_add; [|by eapply K2]. apply (f_equal fst) in E. cbn [fst] in E. by apply cache_key_inj in E as [-> _].
  - intros p acc'. rewrite Hsame. destruct (decide (a = c)) as [<-|]; [rewrite lookup_insert; intros [= <-] [= <-]; by eapply K1|].
    rewrite lookup_insert_ne by done. eauto.
  - rewrite Hsame. destruct (decide (a = c)) as [<-|Hn]; [by rewrite lookup_insert|]. rewrite lookup_insert_ne by done.
    intros He z [E|[_ Hz]]%elem_touch; [|by eapply K2]. apply (f_equal fst) in E. cbn [fst] in E. by apply cache_key_inj in E as [-> _].
  - intros p acc'. rewrite Hsame. intros [_ Hp]%lookup_delete_Some. eauto.
  - rewrite Hsame. destruct (decide (a = c)) as [<-|]; [|by rewrite lookup_delete_ne].
    intros _. rewrite <- (K1 _ _ H eq_refl). by apply lru_find_none.
  - intros p acc'. rewrite Hsame. destruct (decide (a = c)) as [<-|]; [rewrite lookup_insert; intros [= <-] [= <-]; by eapply K1|].
    rewrite lookup_insert_ne by done. eauto.
  - rewrite Hsame. destruct (decide (a = c)) as [<-|Hn]; [by rewrite lookup_insert|]. rewrite lookup_insert_ne by done.
    intros He z [_ Hz]%elem_del. by eapply K2.
  - intros p acc'. rewrite acc_seq_insert. destruct (decide (a = c)) as [<-|].
    + rewrite lookup_insert. intros [= <-] [= <-]. by rewrite (K1 _ _ H eq_refl).
    + rewrite lookup_insert_ne by done. eauto.
  - rewrite acc_seq_insert. destruct (decide (a = c)) as [<-|]; [by rewrite lookup_insert|]. by rewrite lookup_insert_ne.
  - intros p acc'. rewrite Hsame. intros [_ Hp]%lookup_delete_Some. eauto.
  - rewrite Hsame. destruct (decide (a = c)) as [<-|]; [|by rewrite lookup_delete_ne].
    intros _. rewrite <- (K1 _ _ H eq_refl). by eapply J5.
  - intros p acc. rewrite (Henv eq_refl). eauto.
  - rewrite (Henv eq_refl). eauto.
Qed.
Theorem C126_one_endpoint cap seqs n a b x :
  nreach cap seqs (λ l, l ≠ None ∧ l ≠ Some (other b, a)) n →
  q_call (at_end n b) !! a = None → qt_from x = a →
  (cache_key a (qt_nonce x), x) ∈ q_queue (at_end n b) → qt_nonce x ≠ acc_seq (at_end n b) a.
Proof.
  intros Hr Hc Hx Hin E.
  assert (Hl : lone a (at_end n b) ∧ nreach cap seqs (λ _, True) n).
  2:{ destruct Hl as [[_ K2] _]. rewrite Hc in K2. rewrite E in Hin. by eapply K2. }
  clear Hc Hx Hin E. induction Hr as [|n n' l Hr IH Hs [Hl1 Hl2]].
  { split; [|constructor]. destruct b; split; try done; intros _ y H; by apply elem_of_nil in H. }
  destruct IH as [IH Hr0]. split; [|by econstructor].
  destruct Hs as [n c d s Hq|]; [|done].
  destruct (other_cases c b) as [-> | ->].
  - rewrite at_put. eapply lone_step; [|exact Hq|done|exact IH]. eapply qinv_reach, (C126_each_endpoint _ _ _ c Hr0).
  - assert (Hda : d ≠ a) by (intros ->; apply Hl2; by destruct c).
    rewrite at_put_other. assert (Ha : acc_seq (with_seq (at_end n (other c)) (q_seq s)) a = acc_seq (at_end n (other c)) a).
    { unfold acc_seq. cbn [with_seq q_seq]. rewrite <- (seq_at _ _ _ _ c (other c) Hr0).
      destruct (step_seq d _ s Hq) as [-> | ->]; [done|by rewrite lookup_insert_ne]. }
    destruct IH as [K1 K2]. split; [intros p acc; rewrite Ha; apply K1|]. rewrite Ha. apply K2.
Qed.

(** ** C127: it does matter which endpoint is used *)
Lemma put_put n b s s' es es' : q_trace s = q_trace (at_end n b) ++ es → q_trace s' = q_trace s ++ es' →
  put_end (put_end n b s) b s' = put_end n b s'.
Proof.
  intros H1 H2. unfold put_end at 1 3. rewrite at_put.
  assert (Hn : new_events (at_end n b) s' = new_events (at_end n b) s ++ new_events s s').
  { unfold new_events. rewrite H2, drop_app. rewrite H1, <- app_assoc. by rewrite !drop_app. }
  rewrite Hn, map_app. destruct b; cbn; by rewrite app_assoc.
Qed.
Lemma steps_trace a s s' : rtc (qstep (Some a)) s s' → ∃ es, q_trace s' = q_trace s ++ es.
Proof.
  induction 1 as [s|s s1 s' H1 _ [es IH]]; [exists []; by rewrite app_nil_r|].
  destruct (step_trace _ _ _ H1) as (es1 & E & _). exists (es1 ++ es). by rewrite IH, E, app_assoc.
Qed.
Lemma put_self cap seqs P n b : nreach cap seqs P n → put_end n b (at_end n b) = n.
Proof.
  intros Hr. assert (Hnew : new_events (at_end n b) (at_end n b) = []) by (unfold new_events; apply drop_all).
  pose proof (same_seq_step _ _ _ _ Hr) as E. destruct n as [h w lg]. unfold put_end. rewrite Hnew, app_nil_r. cbn in *.
  destruct b; cbn; [rewrite E|rewrite <- E]; by rewrite with_same.
Qed.
Lemma lift_steps cap seqs (P : option (endpoint * bytes) → Prop) n b a s : nreach cap seqs P n → P (Some (b, a)) →
  rtc (qstep (Some a)) (at_end n b) s → nreach cap seqs P (put_end n b s).
Proof.
  intros Hr HP Hs. remember (at_end n b) as s0 eqn:E0.
  assert (Hg : ∀ s1 s2, rtc (qstep (Some a)) s1 s2 → rtc (qstep (Some a)) s0 s1 → nreach cap seqs P (put_end n b s1) → nreach cap seqs P (put_end n b s2)).
  { induction 1 as [s1|s1 s2 s3 H1 _ IH]; [done|]. intros H0 Hn. apply IH; [by eapply rtc_r|].
    destruct (steps_trace _ _ _ H0) as [es Hes]. destruct (step_trace _ _ _ H1) as (es1 & Hes1 & _).
    rewrite <- (put_put n b s1 s2 es es1); [|by rewrite <- E0|done]. eapply NR_step; [exact Hn| |exact HP]. constructor. by rewrite at_put. }
  apply (Hg s0 s Hs); [constructor|]. subst s0. by erewrite put_self.
Qed.
(** A submission that has to wait, and one that goes out, at an empty queue. *)
Lemma waits_steps s x : q_queue s = [] → q_call s = ∅ → (0 < q_cap s)%nat → acc_seq s (qt_from x) < qt_nonce x →
  rtc (qstep (Some (qt_from x))) s
    (mkQ (q_cap s) [(cache_key (qt_from x) (qt_nonce x), x)] ∅ (q_seq s)
       (q_trace s ++ [EvRead x (acc_seq s (qt_from x)); EvQueued x; EvReturn (qt_from x) true])).
Proof.
  intros Hq Hc Hcap Hlt. destruct s as [cap qu ca sq tr]. cbn in *. subst qu ca. set (a := qt_from x) in *.
  set (m := acc_seq _ a) in *.
  eapply rtc_l; [by apply Q_start|]. cbn. fold a. eapply rtc_l; [apply (Q_read _ a x); [apply lookup_insert|apply N.lt_le_incl, Hlt]|]. cbn. fold a.
  eapply rtc_l; [eapply (Q_add _ a x); apply lookup_insert|]. cbn. fold a.
  eapply rtc_l; [eapply (Q_done _ a); [apply lookup_insert|]|].
  { cbn. destruct cap; [lia|]. cbn. unfold lru_find. rewrite filter_cons, decide_False; [by rewrite take_nil|].
    cbn. intros [_ E]%cache_key_inj. unfold m in Hlt. unfold acc_seq in *. cbn in *. lia. }
  cbn. replace (delete a _) with (∅ : gmap bytes phase).
  2:{ rewrite !insert_insert, delete_insert by done. done. }
  rewrite <- !app_assoc. cbn. destruct cap; [lia|]. cbn. rewrite take_nil. apply rtc_refl.
Qed.
Lemma goes_steps s x : q_queue s = [] → q_call s = ∅ → (0 < q_cap s)%nat → acc_seq s (qt_from x) = qt_nonce x →
  rtc (qstep (Some (qt_from x))) s
    (mkQ (q_cap s) [] ∅ (<[qt_from x := u64_add (qt_nonce x) 1]> (q_seq s))
       (q_trace s ++ [EvRead x (qt_nonce x); EvQueued x; EvBroadcast x true; EvReturn (qt_from x) true])).
Proof.
  intros Hq Hc Hcap Heq. destruct s as [cap qu ca sq tr]. cbn in *. subst qu ca. set (a := qt_from x) in *.
  eapply rtc_l; [by apply Q_start|]. cbn [q_cap q_queue q_call q_seq q_trace]. fold a. eapply rtc_l; [apply (Q_read _ a x); [apply lookup_insert|]|].
  { change (acc_seq (mkQ cap [] ∅ sq tr) a <= qt_nonce x). by rewrite Heq. }
  cbn [q_cap q_queue q_call q_seq q_trace]. fold a. change (acc_seq {| q_cap := cap; q_queue := []; q_call := <[a:=PStart x]> ∅; q_seq := sq; q_trace := tr |} a) with (acc_seq (mkQ cap [] ∅ sq tr) a). rewrite Heq.
  eapply rtc_l; [eapply (Q_add _ a x); apply lookup_insert|]. cbn [q_cap q_queue q_call q_seq q_trace]. fold a.
  assert (Ha : lru_add cap (cache_key a (qt_nonce x)) x [] = [(cache_key a (qt_nonce x), x)]).
  { destruct cap; [lia|]. cbn. by rewrite take_nil. }
  rewrite Ha. eapply rtc_l; [apply (Q_get _ a (qt_nonce x) x); [apply lookup_insert|]|].
  { cbn. unfold lru_find. by rewrite filter_cons, decide_True. }
  cbn [q_cap q_queue q_call q_seq q_trace]. assert (Hd : ∀ k v, lru_del k [(k, v)] = []) by (intros k v; unfold lru_del; rewrite filter_cons, decide_False; [done|cbn; auto]).
  unfold lru_touch. rewrite Hd. eapply rtc_l; [apply (Q_rem _ a (qt_nonce x) x); apply lookup_insert|]. cbn [q_cap q_queue q_call q_seq q_trace]. rewrite Hd.
  eapply rtc_l; [apply (Q_ok _ a (qt_nonce x) x); [apply lookup_insert|]|]. { symmetry. exact Heq. }
  cbn [q_cap q_queue q_call q_seq q_trace]. eapply rtc_l; [eapply (Q_done _ a); [apply lookup_insert|done]|]. cbn [q_cap q_queue q_call q_seq q_trace].
  replace (delete a _) with (∅ : gmap bytes phase).
  2:{ rewrite !insert_insert, delete_insert by done. done. }
  rewrite <- !app_assoc. cbn. unfold acc_seq in *. cbn in *. rewrite Heq. apply rtc_refl.
Qed.
(** A wallet sends the transaction with the next but one nonce to one endpoint, and then the one
    with the next nonce to the other. Both are answered with success, the second is accepted, and
    now the account expects the first; but that one goes on waiting, nobody works on it, and it has
    never been broadcast. (At one endpoint it would have gone out with the second: C45.) *)
Theorem C127_waits_at_the_other_endpoint_refuted cap seqs b x y :
  (0 < cap)%nat → qt_from x = qt_from y → qt_nonce y = default 0 (seqs !! qt_from y) →
  qt_nonce x = qt_nonce y + 1 → qt_nonce x < two64 →
  ∃ n, nreach cap seqs (λ l, l ≠ None) n ∧
    n_log n = [(b, EvRead x (qt_nonce y)); (b, EvQueued x); (b, EvReturn (qt_from x) true);
               (other b, EvRead y (qt_nonce y)); (other b, EvQueued y); (other b, EvBroadcast y true);
               (other b, EvReturn (qt_from y) true)] ∧
    (∀ c, q_call (at_end n c) = ∅) ∧ (∀ c, acc_seq (at_end n c) (qt_from x) = qt_nonce x) ∧
    (cache_key (qt_from x) (qt_nonce x), x) ∈ q_queue (at_end n b).
Proof.
  intros Hcap Hf Hy Hx H64. set (n0 := node_init cap seqs).
  assert (H0 : ∀ c, at_end n0 c = q_init cap seqs) by by intros [].
  pose proof (waits_steps (at_end n0 b) x) as Hw. rewrite H0 in Hw.
  specialize (Hw eq_refl eq_refl Hcap). assert (Hacc : acc_seq (q_init cap seqs) (qt_from x) = qt_nonce y) by (unfold acc_seq; cbn; by rewrite Hf, Hy).
  rewrite Hacc in Hw. specialize (Hw ltac:(lia)). set (s1 := mkQ _ _ _ _ _) in Hw.
  pose proof (lift_steps cap seqs (λ l, l ≠ None) n0 b (qt_from x) s1 (NR_init _ _ _) ltac:(done) ltac:(by rewrite H0)) as Hr1.
  set (n1 := put_end n0 b s1) in *.
  assert (H1 : at_end n1 (other b) = q_init cap seqs) by (unfold n1; by destruct b).
  pose proof (goes_steps (at_end n1 (other b)) y) as Hg. rewrite H1 in Hg. rewrite Hf in Hacc. specialize (Hg eq_refl eq_refl Hcap Hacc).
  set (s2 := mkQ _ _ _ _ _) in Hg.
  pose proof (lift_steps cap seqs (λ l, l ≠ None) n1 (other b) (qt_from y) s2 Hr1 ltac:(done) ltac:(by rewrite H1)) as Hr2.
  exists (put_end n1 (other b) s2). split; [done|].
  assert (Hu : u64_add (qt_nonce y) 1 = qt_nonce x). { unfold u64_add, u64. rewrite N.mod_small; lia. }
  split_and!.
  - unfold n1. by destruct b.
  - intros c. unfold n1. by destruct b, c.
  - intros c. rewrite Hf. unfold n1. destruct b, c; unfold acc_seq; cbn; rewrite lookup_insert; exact Hu.
  - unfold n1. destruct b; cbn; by left.
Qed.
(** ** Example *)
Example C126_example : ∃ n, nreach 10 ∅ (λ l, l ≠ None) n ∧ accepted qa (n_log n).*2 = [0].
Proof.
  destruct (C127_waits_at_the_other_endpoint_refuted 10 ∅ Http (ax 1) (ax 0)) as (n & H1 & H2 & _); try done; [lia|].
  exists n. split; [done|]. by rewrite H2.
Qed.
