(** Invariants of the submission queue (TxQueue.v). *)
From stdpp Require Import pretty.
From Coq Require Import Ascii String.
From Verif.Base Require Import Prelude Hex.
From Verif.Model Require Import TxQueue.
Open Scope list_scope.
Open Scope N_scope.

(** ** The key text determines sender and nonce *)
Lemma hexd_lower_inj m n : hexd false m = hexd false n → m = n.
Proof.
  unfold hexd. destruct (N.ltb_spec m 10), (N.ltb_spec n 10); lia.
Qed.
Lemma hexd_ge up n : 48 <= hexd up n.
Proof. unfold hexd. destruct (n <? 10), up; lia. Qed.
Lemma hex_key_inj a : ∀ b d1 d2,
  hex_enc lower a ++ [45] ++ d1 = hex_enc lower b ++ [45] ++ d2 → a = b ∧ d1 = d2.
Proof.
  induction a as [|x a IH]; intros [|y b] d1 d2; cbn; intros H.
  - injection H. auto.
  - injection H as H _. pose proof (hexd_ge (lower 0) (y / 16)). lia.
  - injection H as H _. pose proof (hexd_ge (lower 0) (x / 16)). lia.
  - injection H as H1 H2 H3. apply (IH b d1 d2) in H3 as [-> ->].
    apply hexd_lower_inj in H1. apply hexd_lower_inj in H2.
    split; [|done]. f_equal. rewrite (N.div_mod x 16), (N.div_mod y 16) by lia. lia.
Qed.
Lemma dec_text_inj m n : dec_text m = dec_text n → m = n.
Proof.
  unfold dec_text. intros H.
  assert (Inj (=) (=) N_of_ascii) as Hi.
  { intros c d E. rewrite <- (ascii_N_embedding c), <- (ascii_N_embedding d). congruence. }
  apply (inj (fmap N_of_ascii)) in H.
  assert (pretty m = pretty n) as E.
  { rewrite <- (string_of_list_ascii_of_string (pretty m)), <- (string_of_list_ascii_of_string (pretty n)). congruence. }
  by apply pretty_N_inj in E.
Qed.
Lemma cache_key_inj a m b n : cache_key a m = cache_key b n → a = b ∧ m = n.
Proof.
  unfold cache_key, hexutil_encode. rewrite <- !(assoc_L (++)). intros H.
  cbn in H. injection H as H. apply hex_key_inj in H as [-> H]. split; [done|]. by apply dec_text_inj.
Qed.

(** ** The LRU list *)
Definition key_of (x : qtx) : text := cache_key (qt_from x) (qt_nonce x).
Definition lru_ok (q : lru) : Prop := NoDup q.*1 ∧ Forall (λ e, e.1 = key_of e.2) q.

Lemma elem_del k e q : e ∈ lru_del k q ↔ e.1 ≠ k ∧ e ∈ q.
Proof. unfold lru_del. by rewrite elem_of_list_filter. Qed.
Lemma NoDup_del k q : NoDup q.*1 → NoDup (lru_del k q).*1.
Proof.
  unfold lru_del. induction q as [|e q IH]; [done|]. rewrite fmap_cons, NoDup_cons. intros [Hn H].
  rewrite filter_cons. destruct (decide _); cbn; [|auto].
  rewrite NoDup_cons. split; [|auto]. intros (e' & E & He)%elem_of_list_fmap.
  apply elem_of_list_filter in He as [_ He]. apply Hn. rewrite E. apply elem_of_list_fmap_1. done.
Qed.
Lemma NoDup_take {A} n (l : list A) : NoDup l → NoDup (take n l).
Proof. intros H. rewrite <- (take_drop n l) in H. apply NoDup_app in H. tauto. Qed.
Lemma lru_ok_touch k x q : lru_ok q → k = key_of x → lru_ok (lru_touch k x q).
Proof.
  intros [Hn Hf] ->. unfold lru_touch. split; cbn.
  - rewrite NoDup_cons. split; [|by apply NoDup_del].
    intros (e & E & He)%elem_of_list_fmap. apply elem_del in He as [He _]. congruence.
  - constructor; [done|]. rewrite Forall_forall in *. intros e He. apply elem_del in He. apply Hf, He.
Qed.
Lemma lru_ok_del k q : lru_ok q → lru_ok (lru_del k q).
Proof.
  intros [Hn Hf]. split; [by apply NoDup_del|].
  rewrite Forall_forall in *. intros e He. apply elem_del in He. apply Hf, He.
Qed.
Lemma lru_ok_take n q : lru_ok q → lru_ok (take n q).
Proof.
  intros [Hn Hf]. split; [rewrite fmap_take; by apply NoDup_take|]. by apply Forall_take.
Qed.
Lemma lru_ok_add cap k x q : lru_ok q → k = key_of x → lru_ok (lru_add cap k x q).
Proof. intros. unfold lru_add. by apply lru_ok_take, lru_ok_touch. Qed.
Lemma lru_find_some k q x : lru_find k q = Some x → (k, x) ∈ q.
Proof.
  unfold lru_find. destruct (filter _ q) as [|e l] eqn:E; cbn; [done|]. intros [= <-].
  assert (e ∈ filter (λ e : text * qtx, e.1 = k) q) as H by (rewrite E; left).
  apply elem_of_list_filter in H as [<- H]. by destruct e.
Qed.
Lemma lru_find_none k q : lru_find k q = None → ∀ x, (k, x) ∉ q.
Proof.
  unfold lru_find. destruct (filter _ q) as [|e l] eqn:E; cbn; [|done]. intros _ x Hx.
  assert ((k, x) ∈ filter (λ e : text * qtx, e.1 = k) q) as H by (by apply elem_of_list_filter).
  rewrite E in H. by apply elem_of_nil in H.
Qed.
Lemma elem_take {A} n (l : list A) x : x ∈ take n l → x ∈ l.
Proof. intros H. rewrite <- (take_drop n l). apply elem_of_app. auto. Qed.
Lemma elem_add cap k x q e : e ∈ lru_add cap k x q → e = (k, x) ∨ (e.1 ≠ k ∧ e ∈ q).
Proof.
  unfold lru_add. intros H%elem_take. apply elem_of_cons in H as [->|H]; [auto|].
  apply elem_del in H. auto.
Qed.
Lemma elem_touch k x q e : e ∈ lru_touch k x q ↔ e = (k, x) ∨ (e.1 ≠ k ∧ e ∈ q).
Proof. unfold lru_touch. rewrite elem_of_cons, elem_del. done. Qed.
Lemma lru_uniq q k x y : lru_ok q → (k, x) ∈ q → (k, y) ∈ q → x = y.
Proof.
  intros [Hn _]. induction q as [|e q IH]; intros Hx Hy; [by apply elem_of_nil in Hx|].
  cbn in Hn. apply NoDup_cons in Hn as [Hi Hn].
  apply elem_of_cons in Hx as [E1|Hx]; apply elem_of_cons in Hy as [E2|Hy].
  - congruence.
  - destruct Hi. subst e. cbn. change k with (k, y).1. by apply elem_of_list_fmap_1.
  - destruct Hi. subst e. cbn. change k with (k, x).1. by apply elem_of_list_fmap_1.
  - auto.
Qed.
Lemma lru_key q k x : lru_ok q → (k, x) ∈ q → k = key_of x.
Proof. intros [_ Hf] H. rewrite Forall_forall in Hf. exact (Hf _ H). Qed.

(** ** Traces *)
Definition follows (pre : list ev) (y : qtx) : Prop :=
  ∃ pre', (∃ x, pre = pre' ++ [EvRead x (qt_nonce y); EvQueued x] ∧ qt_nonce y <= qt_nonce x) ∨
          (∃ z, pre = pre' ++ [EvBroadcast z true] ∧ u64_add (qt_nonce z) 1 = qt_nonce y).
Definition good_trace (es : list ev) : Prop :=
  ∀ pre y ok post, es = pre ++ EvBroadcast y ok :: post → follows pre y.

Lemma app_snoc_inv {A} (l pre post : list A) e f :
  l ++ [e] = pre ++ f :: post → (post = [] ∧ l = pre ∧ e = f) ∨ ∃ post', post = post' ++ [e] ∧ l = pre ++ f :: post'.
Proof.
  destruct (decide (post = [])) as [->|Hne].
  - intros H%app_inj_tail. left. tauto.
  - destruct (exists_last Hne) as (post' & g & ->). intros H. right.
    change (f :: post' ++ [g]) with ((f :: post') ++ [g]) in H. rewrite app_assoc in H.
    apply app_inj_tail in H as [-> ->]. eauto.
Qed.
Lemma good_snoc es e : good_trace es → (∀ y ok, e = EvBroadcast y ok → follows es y) → good_trace (es ++ [e]).
Proof.
  intros Hg He pre y ok post H. apply app_snoc_inv in H as [(_ & -> & ->)|(post' & -> & ->)]; eauto.
Qed.
Lemma events_snoc a tr e : events_of a (tr ++ [e]) = events_of a tr ++ (if decide (ev_sender e = a) then [e] else []).
Proof. unfold events_of. by rewrite filter_app. Qed.

(** What the sender's events so far look like, given where its call is. *)
Definition last_ok (es : list ev) (p : phase) : Prop :=
  match p with
  | PStart _ => True
  | PAdd x acc => ∃ pre, es = pre ++ [EvRead x acc]
  | PGet acc | PRem acc _ | PSend acc _ =>
      ∃ pre, (∃ x, es = pre ++ [EvRead x acc; EvQueued x] ∧ acc <= qt_nonce x) ∨
             (∃ z, es = pre ++ [EvBroadcast z true] ∧ u64_add (qt_nonce z) 1 = acc)
  end.
Definition phase_ok (a : bytes) (p : phase) : Prop :=
  match p with
  | PStart x => qt_from x = a
  | PAdd x acc => qt_from x = a ∧ acc <= qt_nonce x
  | PGet _ => True
  | PRem acc y | PSend acc y => qt_from y = a ∧ qt_nonce y = acc
  end.

Record qinv (s : qst) : Prop := {
  QI_lru : lru_ok (q_queue s);
  QI_phase : ∀ a p, q_call s !! a = Some p → phase_ok a p;
  QI_last : ∀ a p, q_call s !! a = Some p → last_ok (events_of a (q_trace s)) p;
  QI_good : ∀ a, good_trace (events_of a (q_trace s));
  QI_sent : ∀ a acc y, q_call s !! a = Some (PSend acc y) → ∀ z, (cache_key a acc, z) ∉ q_queue s;
  QI_rem : ∀ a acc y z, q_call s !! a = Some (PRem acc y) → (cache_key a acc, z) ∈ q_queue s → z = y;
  QI_len : (length (q_queue s) ≤ q_cap s)%nat
}.

Lemma length_del k q : (length (lru_del k q) ≤ length q)%nat.
Proof. unfold lru_del. apply filter_length. Qed.
Lemma length_touch k x q : lru_ok q → (k, x) ∈ q → (length (lru_touch k x q) ≤ length q)%nat.
Proof.
  intros _ Hin. unfold lru_touch. cbn. apply elem_of_list_split in Hin as (l1 & l2 & ->).
  unfold lru_del. rewrite filter_app, filter_cons. rewrite decide_False by (cbn; auto).
  rewrite !app_length. cbn. pose proof (filter_length (λ e : text * qtx, e.1 ≠ k) l1).
  pose proof (filter_length (λ e : text * qtx, e.1 ≠ k) l2). lia.
Qed.

(** A step by [a] leaves the other senders' events alone. *)
Lemma events_other a b tr e : ev_sender e = a → a ≠ b → events_of b (tr ++ [e]) = events_of b tr.
Proof. intros <- H. rewrite events_snoc, decide_False by done. by rewrite app_nil_r. Qed.
Lemma events_own a tr e : ev_sender e = a → events_of a (tr ++ [e]) = events_of a tr ++ [e].
Proof. intros H. by rewrite events_snoc, decide_True. Qed.

Lemma last_step_other a b p tr e :
  ev_sender e = a → a ≠ b → last_ok (events_of b tr) p → last_ok (events_of b (tr ++ [e])) p.
Proof. intros. by erewrite events_other. Qed.
Lemma good_step a tr e : (∀ b, good_trace (events_of b tr)) →
  ev_sender e = a → (∀ y ok, e = EvBroadcast y ok → follows (events_of a tr) y) →
  ∀ b, good_trace (events_of b (tr ++ [e])).
Proof.
  intros Hg He Hf b. rewrite events_snoc. destruct (decide _) as [E|]; [|by rewrite app_nil_r].
  apply good_snoc; [done|]. intros y ok Hy. rewrite <- E, He. eauto.
Qed.

Ltac other Hb := rewrite lookup_insert_ne in Hb by done.

Lemma qinv_step l s s' : qinv s → qstep l s s' → qinv s'.
Proof.
  intros [I1 I2 I3 I4 I5 I6 I7] Hs. destruct Hs.
  - (* start *) constructor; cbn [q_queue q_call q_trace q_cap q_seq]; try done.
    + intros b p. destruct (decide (qt_from x = b)) as [<-|Hn]; [rewrite lookup_insert; by intros [= <-]|].
      rewrite lookup_insert_ne by done. eauto.
    + intros b p. destruct (decide (qt_from x = b)) as [<-|Hn]; [rewrite lookup_insert; by intros [= <-]|].
      rewrite lookup_insert_ne by done. eauto.
    + intros b acc y. destruct (decide (qt_from x = b)) as [<-|Hn]; [by rewrite lookup_insert|].
      rewrite lookup_insert_ne by done. apply I5.
    + intros b acc y z. destruct (decide (qt_from x = b)) as [<-|Hn]; [by rewrite lookup_insert|].
      rewrite lookup_insert_ne by done. apply I6.
  - (* low *) pose proof (I2 _ _ H) as Hx. cbn in Hx. constructor; cbn [q_queue q_call q_trace q_cap q_seq]; try done.
    + intros b p [_ Hb]%lookup_delete_Some. eauto.
    + intros b p [Hn Hb]%lookup_delete_Some. eapply last_step_other; eauto.
    + eapply good_step; [eauto|first [exact Hx|reflexivity]|discriminate].
    + intros b acc y [_ Hb]%lookup_delete_Some. by eapply I5.
    + intros b acc y z [_ Hb]%lookup_delete_Some. by eapply I6.
  - (* read *) pose proof (I2 _ _ H) as Hx. cbn in Hx. constructor; cbn [q_queue q_call q_trace q_cap q_seq]; try done.
    + intros b p. destruct (decide (a = b)) as [<-|Hn]; [rewrite lookup_insert; by intros [= <-]|].
      rewrite lookup_insert_ne by done. eauto.
    + intros b p. destruct (decide (a = b)) as [<-|Hn].
      * rewrite lookup_insert. intros [= <-]. rewrite events_own by done. cbn. eauto.
      * rewrite lookup_insert_ne by done. intros Hb. eapply last_step_other; eauto.
    + eapply good_step; [eauto|first [exact Hx|reflexivity]|discriminate].
    + intros b acc y. destruct (decide (a = b)) as [<-|Hn]; [by rewrite lookup_insert|].
      rewrite lookup_insert_ne by done. apply I5.
    + intros b acc y z. destruct (decide (a = b)) as [<-|Hn]; [by rewrite lookup_insert|].
      rewrite lookup_insert_ne by done. apply I6.
  - (* add *) pose proof (I2 _ _ H) as [Hx Hle]. pose proof (I3 _ _ H) as (pre & Hpre). constructor; cbn [q_queue q_call q_trace q_cap q_seq].
    + apply lru_ok_add; [done|]. unfold key_of. by rewrite Hx.
    + intros b p. destruct (decide (a = b)) as [<-|Hn]; [rewrite lookup_insert; by intros [= <-]|].
      rewrite lookup_insert_ne by done. eauto.
    + intros b p. destruct (decide (a = b)) as [<-|Hn].
      * rewrite lookup_insert. intros [= <-]. rewrite events_own by done. cbn. exists pre. left. exists x.
        rewrite Hpre, <- app_assoc. done.
      * rewrite lookup_insert_ne by done. intros Hb. eapply last_step_other; eauto.
    + eapply good_step; [eauto|first [exact Hx|reflexivity]|discriminate].
    + intros b acc' y. destruct (decide (a = b)) as [<-|Hn]; [by rewrite lookup_insert|].
      rewrite lookup_insert_ne by done. intros Hb z [E|[_ Hz]]%elem_add; [|by eapply I5].
      apply (f_equal fst) in E. cbn [fst] in E. apply cache_key_inj in E as [-> _]. done.
    + intros b acc' y z. destruct (decide (a = b)) as [<-|Hn]; [by rewrite lookup_insert|].
      rewrite lookup_insert_ne by done. intros Hb [E|[_ Hz]]%elem_add; [|by eapply I6].
      apply (f_equal fst) in E. cbn [fst] in E. apply cache_key_inj in E as [-> _]. done.
    + unfold lru_add. rewrite take_length. lia.
  - (* get *) pose proof (I3 _ _ H) as Hl. apply lru_find_some in H0 as Hin.
    pose proof (lru_key _ _ _ I1 Hin) as Hk. apply cache_key_inj in Hk as [Hk1 Hk2].
    constructor; cbn [q_queue q_call q_trace q_cap q_seq].
    + apply lru_ok_touch; [done|]. unfold key_of. congruence.
    + intros b p. destruct (decide (a = b)) as [<-|Hn]; [rewrite lookup_insert; intros [= <-]; split; congruence|].
      rewrite lookup_insert_ne by done. eauto.
    + intros b p. destruct (decide (a = b)) as [<-|Hn]; [rewrite lookup_insert; by intros [= <-]|].
      rewrite lookup_insert_ne by done. eauto.
    + done.
    + intros b acc' y'. destruct (decide (a = b)) as [<-|Hn]; [by rewrite lookup_insert|].
      rewrite lookup_insert_ne by done. intros Hb z [E|[_ Hz]]%elem_touch; [|by eapply I5].
      apply (f_equal fst) in E. cbn [fst] in E. apply cache_key_inj in E as [-> _]. done.
    + intros b acc' y' z. destruct (decide (a = b)) as [<-|Hn].
      * rewrite lookup_insert. intros [= <- <-] [E|[Hne _]]%elem_touch; [congruence|done].
      * rewrite lookup_insert_ne by done. intros Hb [E|[_ Hz]]%elem_touch; [|by eapply I6].
        apply (f_equal fst) in E. cbn [fst] in E. apply cache_key_inj in E as [-> _]. done.
    + etransitivity; [by apply length_touch|done].
  - (* done *) constructor; cbn [q_queue q_call q_trace q_cap q_seq]; try done.
    + intros b p [_ Hb]%lookup_delete_Some. eauto.
    + intros b p [Hn Hb]%lookup_delete_Some. eapply last_step_other; eauto.
    + eapply good_step; [eauto|first [exact Hx|reflexivity]|discriminate].
    + intros b acc' y [_ Hb]%lookup_delete_Some. by eapply I5.
    + intros b acc' y z [_ Hb]%lookup_delete_Some. by eapply I6.
  - (* rem *) pose proof (I3 _ _ H) as Hl. pose proof (I2 _ _ H) as Hp. constructor; cbn [q_queue q_call q_trace q_cap q_seq].
    + by apply lru_ok_del.
    + intros b p. destruct (decide (a = b)) as [<-|Hn]; [rewrite lookup_insert; by intros [= <-]|].
      rewrite lookup_insert_ne by done. eauto.
    + intros b p. destruct (decide (a = b)) as [<-|Hn]; [rewrite lookup_insert; by intros [= <-]|].
      rewrite lookup_insert_ne by done. eauto.
    + done.
    + intros b acc' y'. destruct (decide (a = b)) as [<-|Hn].
      * rewrite lookup_insert. intros [= <- <-] z [Hz _]%elem_del. done.
      * rewrite lookup_insert_ne by done. intros Hb z [_ Hz]%elem_del. by eapply I5.
    + intros b acc' y' z. destruct (decide (a = b)) as [<-|Hn]; [by rewrite lookup_insert|].
      rewrite lookup_insert_ne by done. intros Hb [_ Hz]%elem_del. by eapply I6.
    + etransitivity; [apply length_del|done].
  - (* ok *) pose proof (I3 _ _ H) as Hl. pose proof (I2 _ _ H) as [Hp1 Hp2]. constructor; cbn [q_queue q_call q_trace q_cap q_seq].
    + done.
    + intros b p. destruct (decide (a = b)) as [<-|Hn]; [rewrite lookup_insert; by intros [= <-]|].
      rewrite lookup_insert_ne by done. eauto.
    + intros b p. destruct (decide (a = b)) as [<-|Hn].
      * rewrite lookup_insert. intros [= <-]. rewrite events_own by done. cbn. eexists. right. exists y.
        split; [done|]. by rewrite Hp2.
      * rewrite lookup_insert_ne by done. intros Hb. eapply last_step_other; eauto.
    + eapply good_step; eauto. intros y' ok [= <- <-]. unfold follows. rewrite Hp2. exact Hl.
    + intros b acc' y'. destruct (decide (a = b)) as [<-|Hn]; [by rewrite lookup_insert|].
      rewrite lookup_insert_ne by done. apply I5.
    + intros b acc' y' z. destruct (decide (a = b)) as [<-|Hn]; [by rewrite lookup_insert|].
      rewrite lookup_insert_ne by done. apply I6.
    + done.
  - (* err *) pose proof (I3 _ _ H) as Hl. pose proof (I2 _ _ H) as [Hp1 Hp2].
    change [EvBroadcast y false; EvReturn a false] with ([EvBroadcast y false] ++ [EvReturn a false]).
    constructor; cbn [q_queue q_call q_trace q_cap]; rewrite ?app_assoc; try done.
    + intros b p [_ Hb]%lookup_delete_Some. eauto.
    + intros b p [Hn Hb]%lookup_delete_Some. eapply last_step_other; eauto. eapply last_step_other; eauto.
    + eapply good_step; [eapply good_step; eauto| |]; [| |by intros ? ? [=]].
      * intros y' ok [= <- <-]. unfold follows. rewrite Hp2. exact Hl.
      * done.
    + intros b acc' y' [_ Hb]%lookup_delete_Some. by eapply I5.
    + intros b acc' y' z [_ Hb]%lookup_delete_Some. by eapply I6.
  - (* env *) constructor; done.
Qed.

Lemma qinv_reach cap seqs env s : qreach cap seqs env s → qinv s.
Proof.
  induction 1; [|eapply qinv_step; eauto].
  constructor; try done.
  - split; constructor.
  - intros a pre y ok post H. symmetry in H. apply app_eq_nil in H as [_ ?]. done.
  - cbn. lia.
Qed.
