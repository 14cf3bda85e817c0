(** C45: raw transactions are broadcast in nonce order (TxQueue.v). *)
From Verif.Base Require Import Prelude Hex.
From Verif.Model Require Import TxQueue.
From Verif.Proofs Require Import TxQueueP.
Open Scope list_scope.
Open Scope N_scope.

(** ** Every history, whatever the node does *)

(** C45. Among the events of one sender, each broadcast comes directly after either the
    submission that read the account sequence, and then it is of the transaction with exactly
    that nonce, or an accepted broadcast of the transaction one nonce below. (The successor
    is the machine's 64-bit one.) *)
Theorem C45_consecutive cap seqs s a pre y ok post :
  qreach cap seqs true s → events_of a (q_trace s) = pre ++ EvBroadcast y ok :: post →
  qt_from y = a ∧
  ∃ pre', (∃ x, pre = pre' ++ [EvRead x (qt_nonce y); EvQueued x] ∧ qt_nonce y <= qt_nonce x) ∨
          (∃ z, pre = pre' ++ [EvBroadcast z true] ∧ u64_add (qt_nonce z) 1 = qt_nonce y).
Proof.
  intros Hr H. split.
  - assert (EvBroadcast y ok ∈ events_of a (q_trace s)) as Hin by (rewrite H; set_solver).
    apply elem_of_list_filter in Hin as [Hin _]. exact Hin.
  - exact (QI_good _ (qinv_reach _ _ _ _ Hr) a _ _ _ _ H).
Qed.

Lemma qreach_env cap seqs env s : qreach cap seqs env s → qreach cap seqs true s.
Proof. induction 1; [constructor|eapply QR_step; eauto; discriminate]. Qed.

Lemma times_app x l l' : queued_times x (l ++ l') = (queued_times x l + queued_times x l')%nat.
Proof. unfold queued_times. by rewrite filter_app, app_length. Qed.
Lemma btimes_app x l l' : broadcast_times x (l ++ l') = (broadcast_times x l + broadcast_times x l')%nat.
Proof. unfold broadcast_times. by rewrite filter_app, app_length. Qed.

Lemma times_other x e : e ≠ EvQueued x → queued_times x [e] = 0%nat.
Proof. intros. unfold queued_times. rewrite filter_cons, filter_nil. by rewrite decide_False. Qed.
Lemma btimes_other x e : e ≠ EvBroadcast x true → e ≠ EvBroadcast x false → broadcast_times x [e] = 0%nat.
Proof. intros. unfold broadcast_times. rewrite filter_cons, filter_nil. rewrite decide_False by tauto. done. Qed.

(** The copy of [x] that may still be broadcast. *)
Definition waiting (s : qst) (x : qtx) : Prop :=
  (key_of x, x) ∈ q_queue s ∨ ∃ acc, q_call s !! qt_from x = Some (PRem acc x) ∨ q_call s !! qt_from x = Some (PSend acc x).

Lemma once_inv cap seqs env s x :
  qreach cap seqs env s →
  (broadcast_times x (q_trace s) ≤ queued_times x (q_trace s))%nat ∧
  (waiting s x → (broadcast_times x (q_trace s) < queued_times x (q_trace s))%nat).
Proof.
  intros Hr. induction Hr as [|s s' l Hr [IH1 IH2] Hs Hl]; [split; [done|]|].
  { intros [H|(acc & [H|H])]; [by apply elem_of_nil in H|done|done]. }
  pose proof (qinv_reach _ _ _ _ Hr) as [J1 J2 J3 J4 J5 J6 J7].
  destruct Hs; cbn [q_trace]; rewrite ?times_app, ?btimes_app.
  - split; [done|]. intros [Hw|(acc & Hw)]; cbn [q_queue q_call] in Hw; apply IH2; [left; done|].
    destruct (decide (qt_from x0 = qt_from x)) as [E|E].
    + rewrite E, lookup_insert in Hw. destruct Hw; done.
    + rewrite lookup_insert_ne in Hw by done. right. eauto.
  - rewrite times_other, btimes_other, !Nat.add_0_r by done. split; [done|]. intros Hw. apply IH2.
    destruct Hw as [Hw|(acc & Hw)]; cbn [q_queue q_call] in Hw; [left; done|].
    right. exists acc. destruct Hw as [[_ Hw]%lookup_delete_Some|[_ Hw]%lookup_delete_Some]; auto.
  - rewrite times_other, btimes_other, !Nat.add_0_r by done. split; [done|]. intros Hw. apply IH2.
    destruct Hw as [Hw|(acc & Hw)]; cbn [q_queue q_call] in Hw; [left; done|].
    destruct (decide (a = qt_from x)) as [E|E].
    + rewrite E, lookup_insert in Hw. destruct Hw; done.
    + rewrite lookup_insert_ne in Hw by done. right. eauto.
  - (* add *)
    assert (Hcase : x = x0 ∨ x ≠ x0) by (destruct (decide (x = x0)); auto).
    assert (Hone : queued_times x [EvQueued x0] = if decide (x = x0) then 1%nat else 0%nat).
    { unfold queued_times. rewrite filter_cons, filter_nil. destruct (decide (EvQueued x0 = EvQueued x)), (decide (x = x0)); cbn; congruence. }
    assert (Hz : broadcast_times x [EvQueued x0] = 0%nat).
    { by apply btimes_other. }
    rewrite Hone, Hz. destruct Hcase as [->|Hne].
    + rewrite decide_True by done. split; lia.
    + rewrite decide_False by done. split; [lia|]. intros Hw. rewrite !Nat.add_0_r. apply IH2.
      destruct Hw as [Hw|(acc' & Hw)]; cbn [q_queue q_call] in Hw.
      * apply elem_add in Hw as [E|[_ Hw]]; [|left; done]. apply (f_equal snd) in E. done.
      * destruct (decide (a = qt_from x)) as [E|E].
        -- rewrite E, lookup_insert in Hw. destruct Hw; done.
        -- rewrite lookup_insert_ne in Hw by done. right. eauto.
  - (* get *) split; [done|]. intros Hw. apply IH2.
    apply lru_find_some in H0 as Hin. pose proof (lru_key _ _ _ J1 Hin) as Hk.
    destruct Hw as [Hw|(acc' & Hw)]; cbn [q_queue q_call] in Hw.
    + apply elem_touch in Hw as [E|[_ Hw]]; [|left; done]. left. rewrite E. exact Hin.
    + destruct (decide (a = qt_from x)) as [E|E].
      * rewrite E, lookup_insert in Hw. destruct Hw as [[= _ <-]|[=]]. left. by rewrite <- Hk.
      * rewrite lookup_insert_ne in Hw by done. right. eauto.
  - rewrite times_other, btimes_other, !Nat.add_0_r by done. split; [done|]. intros Hw. apply IH2.
    destruct Hw as [Hw|(acc' & Hw)]; cbn [q_queue q_call] in Hw; [left; done|].
    right. exists acc'. destruct Hw as [[_ Hw]%lookup_delete_Some|[_ Hw]%lookup_delete_Some]; auto.
  - (* rem *) split; [done|]. intros Hw. apply IH2.
    destruct Hw as [Hw|(acc' & Hw)]; cbn [q_queue q_call] in Hw.
    + apply elem_del in Hw as [_ Hw]. left. done.
    + destruct (decide (a = qt_from x)) as [E|E].
      * rewrite E, lookup_insert in Hw. destruct Hw as [[=]|[= _ <-]]. right. exists acc. left. by rewrite <- E.
      * rewrite lookup_insert_ne in Hw by done. right. eauto.
  - (* ok *)
    destruct (J2 _ _ H) as [Hy1 Hy2].
    assert (Hq : queued_times x [EvBroadcast y true] = 0%nat).
    { unfold queued_times. rewrite filter_cons, filter_nil. by destruct (decide _). }
    assert (Hb : broadcast_times x [EvBroadcast y true] = if decide (x = y) then 1%nat else 0%nat).
    { unfold broadcast_times. rewrite filter_cons, filter_nil. destruct (decide (x = y)) as [->|]; destruct (decide _) as [[?|?]|Hn]; cbn; try congruence. destruct Hn; auto. }
    rewrite Hq, Hb, Nat.add_0_r. destruct (decide (x = y)) as [->|Hne].
    + assert (waiting s y) as Hwy by (right; exists acc; right; by rewrite Hy1).
      specialize (IH2 Hwy). split; [lia|]. intros [Hw|(acc' & Hw)]; cbn [q_queue q_call] in Hw.
      * exfalso. unfold key_of in Hw. rewrite Hy1, Hy2 in Hw. exact (J5 _ _ _ H _ Hw).
      * rewrite Hy1, lookup_insert in Hw. destruct Hw; done.
    + split; [lia|]. intros Hw. rewrite Nat.add_0_r. apply IH2. destruct Hw as [Hw|(acc' & Hw)]; cbn [q_queue q_call] in Hw; [left; done|].
      destruct (decide (a = qt_from x)) as [E|E].
      * rewrite E, lookup_insert in Hw. destruct Hw; done.
      * rewrite lookup_insert_ne in Hw by done. right. eauto.
  - (* err *)
    destruct (J2 _ _ H) as [Hy1 Hy2].
    assert (Hq : queued_times x [EvBroadcast y false; EvReturn a false] = 0%nat).
    { unfold queued_times. rewrite !filter_cons, filter_nil. destruct (decide _); [done|]. by destruct (decide _). }
    assert (Hb : broadcast_times x [EvBroadcast y false; EvReturn a false] = if decide (x = y) then 1%nat else 0%nat).
    { unfold broadcast_times. rewrite !filter_cons, filter_nil.
      rewrite (decide_False (P := EvReturn a false = EvBroadcast x true ∨ _)) by (intros [?|?]; done).
      destruct (decide (x = y)) as [->|]; destruct (decide _) as [[?|?]|Hn]; cbn; try congruence. destruct Hn; auto. }
    rewrite Hq, Hb, Nat.add_0_r. destruct (decide (x = y)) as [->|Hne].
    + assert (waiting s y) as Hwy by (right; exists acc; right; by rewrite Hy1).
      specialize (IH2 Hwy). split; [lia|]. intros [Hw|(acc' & Hw)]; cbn [q_queue q_call] in Hw.
      * exfalso. unfold key_of in Hw. rewrite Hy1, Hy2 in Hw. exact (J5 _ _ _ H _ Hw).
      * rewrite Hy1, lookup_delete in Hw. destruct Hw; done.
    + split; [lia|]. intros Hw. rewrite Nat.add_0_r. apply IH2. destruct Hw as [Hw|(acc' & Hw)]; cbn [q_queue q_call] in Hw; [left; done|].
      right. exists acc'. destruct Hw as [[_ Hw]%lookup_delete_Some|[_ Hw]%lookup_delete_Some]; auto.
  - split; [done|]. intros Hw. apply IH2. exact Hw.
Qed.

(** C45. No transaction is broadcast more often than it was submitted and queued. *)
Theorem C45_at_most_once cap seqs s x :
  qreach cap seqs true s → (broadcast_times x (q_trace s) ≤ queued_times x (q_trace s))%nat.
Proof. intros Hr. apply (once_inv _ _ _ _ x Hr). Qed.

(** C45. A transaction whose nonce is below the account sequence is refused: the call's next
    step can only be the refusal, which queues and broadcasts nothing. *)
Theorem C45_low_refused s s' x :
  q_call s !! qt_from x = Some (PStart x) → qt_nonce x < acc_seq s (qt_from x) →
  qstep (Some (qt_from x)) s s' →
  q_trace s' = q_trace s ++ [EvRefused x (acc_seq s (qt_from x))] ∧ q_queue s' = q_queue s ∧
  q_call s' = delete (qt_from x) (q_call s) ∧ q_seq s' = q_seq s.
Proof.
  intros Hc Hn Hs. remember (Some (qt_from x)) as l eqn:El. destruct Hs; try discriminate El; injection El as El;
    rewrite ?El in *; rewrite Hc in *; try discriminate.
  - injection H as <-. done.
  - injection H as <-. lia.
Qed.

(** C45. A queued transaction waits: a step removes it from the queue only to broadcast it,
    because a newer transaction with its sender and nonce replaces it, or because the full
    queue evicts its least recently used entry. *)
Theorem C45_waits cap seqs env s s' l x :
  qreach cap seqs env s → qstep l s s' → (cache_key (qt_from x) (qt_nonce x), x) ∈ q_queue s →
  (cache_key (qt_from x) (qt_nonce x), x) ∈ q_queue s' ∨
  (l = Some (qt_from x) ∧ q_call s' !! qt_from x = Some (PSend (qt_nonce x) x)) ∨
  (∃ z, q_trace s' = q_trace s ++ [EvQueued z] ∧ qt_from z = qt_from x ∧ qt_nonce z = qt_nonce x) ∨
  (∃ z q', q_trace s' = q_trace s ++ [EvQueued z] ∧ length (q_queue s) = cap ∧
           q_queue s = q' ++ [(cache_key (qt_from x) (qt_nonce x), x)]).
Proof.
  intros Hr Hs Hin. pose proof (qinv_reach _ _ _ _ Hr) as [J1 J2 J3 J4 J5 J6 J7].
  assert (Hcap : q_cap s = cap).
  { clear -Hr. induction Hr as [|s s' l Hr IH Hs]; [done|]. by destruct Hs. }
  destruct Hs; cbn [q_queue q_call q_trace]; try (left; exact Hin).
  - (* add *) destruct (J2 _ _ H) as [Hx _].
    destruct (decide (cache_key a (qt_nonce x0) = cache_key (qt_from x) (qt_nonce x))) as [E|E].
    { right. right. left. exists x0. apply cache_key_inj in E as [-> E]. auto. }
    set (k := cache_key (qt_from x) (qt_nonce x)) in *. set (k0 := cache_key a (qt_nonce x0)) in *.
    assert (Hd : (k, x) ∈ lru_del k0 (q_queue s)) by (apply elem_del; split; [intros E1; apply E; symmetry; exact E1|done]).
    unfold lru_add.
    destruct (decide (length (lru_del k0 (q_queue s)) < q_cap s)%nat) as [Hl|Hl].
    { left. rewrite take_ge by (cbn [length]; lia). by right. }
    assert (Hall : lru_del k0 (q_queue s) = q_queue s ∧ length (q_queue s) = q_cap s).
    { pose proof (length_del k0 (q_queue s)). split; [|lia].
      assert (∀ q : lru, length (lru_del k0 q) = length q → lru_del k0 q = q) as Haux.
      { clear. unfold lru_del. induction q as [|e q IH]; [done|]. rewrite filter_cons. destruct (decide _); cbn [length]; intros E.
        - f_equal. apply IH. lia.
        - pose proof (filter_length (λ e : text * qtx, e.1 ≠ k0) q). lia. }
      apply Haux. lia. }
    destruct Hall as [Hall Hlen]. rewrite Hall.
    destruct (exists_last (l := q_queue s)) as (q' & e & Hq); [by intros E'; rewrite E' in Hin; apply elem_of_nil in Hin|].
    rewrite Hq in *. rewrite app_length in Hlen; cbn in Hlen.
    apply elem_of_app in Hin as [Hin|Hin].
    + left. rewrite <- Hlen, Nat.add_1_r. cbn. right. rewrite take_app. done.
    + apply elem_of_list_singleton in Hin as <-. right. right. right. exists x0, q'. split; [done|]. rewrite app_length; cbn. split; [lia|done].
  - (* get *) left. apply lru_find_some in H0 as Hin'. apply elem_touch.
    destruct (decide (cache_key (qt_from x) (qt_nonce x) = cache_key a acc)) as [E|E].
    + left. rewrite E in *. f_equal. eapply lru_uniq; eauto.
    + right. done.
  - (* rem *)
    destruct (decide (cache_key (qt_from x) (qt_nonce x) = cache_key a acc)) as [E|E].
    + right. left. pose proof E as E'. apply cache_key_inj in E' as [<- <-].
      rewrite (J6 _ _ _ _ H Hin). rewrite lookup_insert.
      destruct (J2 _ _ H) as [E1 E2]. pose proof (J6 _ _ _ _ H Hin) as ->. done.
    + left. apply elem_del. done.
Qed.

(** C45. A call ends: its own steps decrease a number that no other step increases. *)
Definition own (a : bytes) (q : lru) : nat := length (filter (λ e : text * qtx, qt_from e.2 = a) q).
Definition steps_left (a : bytes) (s : qst) : nat :=
  match q_call s !! a with
  | None => 0
  | Some (PStart _) => 3 * own a (q_queue s) + 8
  | Some (PAdd _ _) => 3 * own a (q_queue s) + 7
  | Some (PGet _) => 3 * own a (q_queue s) + 3
  | Some (PRem acc _) => 3 * own a (lru_del (cache_key a acc) (q_queue s)) + 5
  | Some (PSend acc _) => 3 * own a (lru_del (cache_key a acc) (q_queue s)) + 4
  end%nat.
Lemma own_app a q q' : own a (q ++ q') = (own a q + own a q')%nat.
Proof. unfold own. by rewrite filter_app, app_length. Qed.
Lemma own_take a n q : (own a (take n q) ≤ own a q)%nat.
Proof. rewrite <- (take_drop n q) at 2. rewrite own_app. lia. Qed.
Lemma own_cons a e q : own a (e :: q) = ((if decide (qt_from e.2 = a) then 1 else 0) + own a q)%nat.
Proof. change (e :: q) with ([e] ++ q). rewrite own_app. f_equal. unfold own. rewrite filter_cons, filter_nil. by destruct (decide _). Qed.
Lemma own_del_le a k q : (own a (lru_del k q) ≤ own a q)%nat.
Proof.
  unfold lru_del. induction q as [|e q IH]; [done|]. rewrite filter_cons, own_cons.
  destruct (decide (e.1 ≠ k)); [rewrite own_cons; lia|]. lia.
Qed.
Lemma own_del_in a k x q : (k, x) ∈ q → qt_from x = a → (own a (lru_del k q) < own a q)%nat.
Proof.
  intros Hin Hx. apply elem_of_list_split in Hin as (q1 & q2 & ->).
  unfold lru_del. rewrite filter_app, filter_cons, decide_False by (cbn; auto).
  rewrite !own_app, own_cons. cbn [snd]. rewrite decide_True by done.
  pose proof (own_del_le a k q1). pose proof (own_del_le a k q2). unfold lru_del in *. lia.
Qed.
Lemma del_take_own a k n q : (own a (lru_del k (take n q)) ≤ own a (lru_del k q))%nat.
Proof.
  rewrite <- (take_drop n q) at 2. unfold lru_del. rewrite filter_app, own_app. lia.
Qed.
Lemma del_del k q : lru_del k (lru_del k q) = lru_del k q.
Proof. unfold lru_del. rewrite list_filter_filter_l; [done|]. auto. Qed.
Lemma del_comm k k' q : lru_del k (lru_del k' q) = lru_del k' (lru_del k q).
Proof.
  unfold lru_del. rewrite !list_filter_filter. apply list_filter_iff. tauto.
Qed.
Lemma other_add a b k x q cap : qt_from x = a → a ≠ b → (own b (lru_add cap k x q) ≤ own b q)%nat.
Proof.
  intros Hx Hn. unfold lru_add. etransitivity; [apply own_take|]. rewrite own_cons. cbn [snd].
  rewrite decide_False by congruence. apply own_del_le.
Qed.
Lemma other_del_add a b k k' x q cap : qt_from x = a → a ≠ b →
  (own b (lru_del k' (lru_add cap k x q)) ≤ own b (lru_del k' q))%nat.
Proof.
  intros Hx Hn. unfold lru_add. etransitivity; [apply del_take_own|].
  unfold lru_del at 1. rewrite filter_cons. fold (lru_del k' (lru_del k q)).
  destruct (decide _); [rewrite own_cons; cbn [snd]; rewrite decide_False by congruence|]; cbn; rewrite del_comm; apply own_del_le.
Qed.
Lemma other_touch a b k x q : qt_from x = a → a ≠ b → (own b (lru_touch k x q) ≤ own b q)%nat.
Proof. intros. unfold lru_touch. rewrite own_cons. cbn [snd]. rewrite decide_False by congruence. apply own_del_le. Qed.
Lemma other_del_touch a b k k' x q : qt_from x = a → a ≠ b →
  (own b (lru_del k' (lru_touch k x q)) ≤ own b (lru_del k' q))%nat.
Proof.
  intros Hx Hn. unfold lru_touch. unfold lru_del at 1. rewrite filter_cons. fold (lru_del k' (lru_del k q)).
  destruct (decide _); [rewrite own_cons; cbn [snd]; rewrite decide_False by congruence|]; cbn; rewrite del_comm; apply own_del_le.
Qed.

Theorem C45_calls_end cap seqs env s s' l a :
  qreach cap seqs env s → qstep l s s' → q_call s !! a ≠ None →
  (l = Some a → (steps_left a s' < steps_left a s)%nat) ∧
  (l ≠ Some a → (steps_left a s' ≤ steps_left a s)%nat).
Proof.
  intros Hr Hs Hact. pose proof (qinv_reach _ _ _ _ Hr) as [J1 J2 J3 J4 J5 J6 J7].
  unfold steps_left.
  destruct Hs; cbn [q_call q_queue].
  1:{ split; [intros [= E]; rewrite E in H; done|]. intros Hl. rewrite lookup_insert_ne by congruence. done. }
  all: (split; [intros [= ->]|intros Hl]); try (assert (a ≠ a0) as Hna by congruence);
    rewrite ?lookup_insert, ?lookup_delete, ?H;
    try (rewrite lookup_insert_ne by congruence); try (rewrite lookup_delete_ne by congruence); try done; try lia.
  all: try (destruct (q_call s !! a) as [[]|]; cbn; lia).
  - destruct (J2 _ _ H) as [Hx _]. unfold lru_add.
    pose proof (own_take a (q_cap s) ((cache_key a (qt_nonce x), x) :: lru_del (cache_key a (qt_nonce x)) (q_queue s))) as Ht.
    rewrite own_cons in Ht. cbn [snd] in Ht. rewrite decide_True in Ht by done.
    pose proof (own_del_le a (cache_key a (qt_nonce x)) (q_queue s)). lia.
  - destruct (J2 _ _ H) as [Hx _].
    destruct (q_call s !! a) as [[]|]; try done;
    try (pose proof (other_add a0 a (cache_key a0 (qt_nonce x)) x (q_queue s) (q_cap s) Hx ltac:(congruence)); lia);
    match goal with |- context [lru_del (cache_key a ?n)] =>
      pose proof (other_del_add a0 a (cache_key a0 (qt_nonce x)) (cache_key a n) x (q_queue s) (q_cap s) Hx ltac:(congruence)); lia end.
  - apply lru_find_some in H0 as Hin. pose proof (lru_key _ _ _ J1 Hin) as Hk.
    apply cache_key_inj in Hk as [Hk1 Hk2].
    pose proof (own_del_in a _ _ _ Hin ltac:(congruence)).
    unfold lru_touch. unfold lru_del at 1. rewrite filter_cons, decide_False by (cbn; auto).
    fold (lru_del (cache_key a acc) (lru_del (cache_key a acc) (q_queue s))). rewrite del_del. lia.
  - apply lru_find_some in H0 as Hin. pose proof (lru_key _ _ _ J1 Hin) as Hk.
    apply cache_key_inj in Hk as [Hk1 Hk2].
    destruct (q_call s !! a) as [[]|]; try done;
    try (pose proof (other_touch a0 a (cache_key a0 acc) y (q_queue s) ltac:(congruence) ltac:(congruence)); lia);
    match goal with |- context [lru_del (cache_key a ?n)] =>
      pose proof (other_del_touch a0 a (cache_key a0 acc) (cache_key a n) y (q_queue s) ltac:(congruence) ltac:(congruence)); lia end.
  - rewrite del_del. lia.
  - destruct (q_call s !! a) as [[]|]; try done;
    try (pose proof (own_del_le a (cache_key a0 acc) (q_queue s)); lia);
    match goal with |- context [lru_del (cache_key a ?n) (lru_del ?k _)] =>
      rewrite (del_comm (cache_key a n)); pose proof (own_del_le a k (lru_del (cache_key a n) (q_queue s))); lia end.
  - assert (lru_del (cache_key a acc) (q_queue s) = q_queue s) as ->; [|lia].
    assert (∀ z, (cache_key a acc, z) ∉ q_queue s) as Hno by (eapply J5; eauto). clear -Hno.
    unfold lru_del. induction (q_queue s) as [|e q IH]; [done|]. rewrite filter_cons, decide_True.
    + f_equal. apply IH. intros z Hz. apply (Hno z). by right.
    + intros E. apply (Hno e.2). rewrite <- E. destruct e. left.
Qed.

(** ** Histories in which the node changes no sequence by itself *)

Definition phase_acc (p : phase) : option N :=
  match p with PStart _ => None | PAdd _ acc | PGet acc | PRem acc _ | PSend acc _ => Some acc end.
Definition early (o : option phase) : Prop :=
  match o with None | Some (PStart _) | Some (PAdd _ _) => True | _ => False end.
Record sinv (seqs : gmap bytes N) (s : qst) : Prop := {
  SI_acc : ∀ a p acc, q_call s !! a = Some p → phase_acc p = Some acc → acc = acc_seq s a;
  SI_none : ∀ a, early (q_call s !! a) → ∀ x, (cache_key a (acc_seq s a), x) ∉ q_queue s;
  SI_count : ∀ a, acc_seq s a = u64 (default 0 (seqs !! a) + N.of_nat (length (accepted a (q_trace s))));
  SI_nonce : ∀ pre y ok post, q_trace s = pre ++ EvBroadcast y ok :: post →
    qt_nonce y = u64 (default 0 (seqs !! qt_from y) + N.of_nat (length (accepted (qt_from y) pre)))
}.
Lemma accepted_app a l l' : accepted a (l ++ l') = accepted a l ++ accepted a l'.
Proof. unfold accepted. apply omap_app. Qed.
Lemma u64_add_one n : u64_add (u64 n) 1 = u64 (n + 1).
Proof. unfold u64_add, u64. rewrite N.add_mod_idemp_l; [done|]. unfold two64. lia. Qed.

Lemma acc_seq_insert s a n b q c t cap : acc_seq (mkQ cap q c (<[a := n]> (q_seq s)) t) b = if decide (a = b) then n else acc_seq s b.
Proof. unfold acc_seq. cbn. destruct (decide (a = b)) as [<-|]; [by rewrite lookup_insert|by rewrite lookup_insert_ne]. Qed.
Lemma nonce_snoc (seqs : gmap bytes N) tr e :
  (∀ pre y ok post, tr = pre ++ EvBroadcast y ok :: post →
    qt_nonce y = u64 (default 0 (seqs !! qt_from y) + N.of_nat (length (accepted (qt_from y) pre)))) →
  (∀ y ok, e = EvBroadcast y ok → qt_nonce y = u64 (default 0 (seqs !! qt_from y) + N.of_nat (length (accepted (qt_from y) tr)))) →
  ∀ pre y ok post, tr ++ [e] = pre ++ EvBroadcast y ok :: post →
    qt_nonce y = u64 (default 0 (seqs !! qt_from y) + N.of_nat (length (accepted (qt_from y) pre))).
Proof.
  intros Hg He pre y ok post H. apply app_snoc_inv in H as [(_ & -> & ->)|(post' & -> & ->)]; eauto.
Qed.

Lemma sinv_reach cap seqs s : map_Forall (λ _ n, n < two64) seqs → qreach cap seqs false s → sinv seqs s.
Proof.
  intros Hb Hr. remember false as env eqn:Henv in Hr. induction Hr as [|s s' l Hr IH Hs Hl]; subst env.
  { constructor; try done.
    - intros a _ x H. by apply elem_of_nil in H.
    - intros a. unfold acc_seq. cbn. rewrite N.add_0_r. unfold u64. symmetry. apply N.mod_small.
      destruct (seqs !! a) as [n|] eqn:E; cbn; [exact (Hb _ _ E)|unfold two64; lia].
    - intros pre y ok post H. symmetry in H. apply app_eq_nil in H as [_ ?]. done. }
  pose proof (qinv_reach _ _ _ _ Hr) as [J1 J2 J3 J4 J5 J6 J7].
  destruct IH as [K1 K2 K3 K4]. specialize (Hl eq_refl).
  assert (Hsame : ∀ cap q c t b, acc_seq (mkQ cap q c (q_seq s) t) b = acc_seq s b) by done.
  destruct Hs; [..|done].
  - constructor; cbn [q_call q_queue q_trace].
    + intros b p acc. rewrite Hsame. destruct (decide (qt_from x = b)) as [<-|]; [rewrite lookup_insert; by intros [= <-]|].
      rewrite lookup_insert_ne by done. eauto.
    + intros b. rewrite Hsame. destruct (decide (qt_from x = b)) as [<-|].
      * rewrite lookup_insert. intros _. apply K2. by rewrite H.
      * rewrite lookup_insert_ne by done. eauto.
    + intros b. rewrite Hsame. apply K3.
    + done.
  - constructor; cbn [q_call q_queue q_trace].
    + intros b p acc. rewrite Hsame. intros [_ Hp]%lookup_delete_Some. eauto.
    + intros b. rewrite Hsame. destruct (decide (a = b)) as [<-|].
      * intros _. apply K2. by rewrite H.
      * rewrite lookup_delete_ne by done. eauto.
    + intros b. rewrite Hsame. rewrite accepted_app. cbn. rewrite app_nil_r. apply K3.
    + apply nonce_snoc; [done|discriminate].
  - constructor; cbn [q_call q_queue q_trace].
    + intros b p acc. rewrite Hsame. destruct (decide (a = b)) as [<-|].
      * rewrite lookup_insert. intros [= <-] [= <-]. done.
      * rewrite lookup_insert_ne by done. eauto.
    + intros b. rewrite Hsame. destruct (decide (a = b)) as [<-|].
      * intros _. apply K2. by rewrite H.
      * rewrite lookup_insert_ne by done. eauto.
    + intros b. rewrite Hsame. rewrite accepted_app. cbn. rewrite app_nil_r. apply K3.
    + apply nonce_snoc; [done|discriminate].
  - constructor; cbn [q_call q_queue q_trace].
    + intros b p acc'. rewrite Hsame. destruct (decide (a = b)) as [<-|].
      * rewrite lookup_insert. intros [= <-] [= <-]. eapply K1; eauto.
      * rewrite lookup_insert_ne by done. eauto.
    + intros b. rewrite Hsame. destruct (decide (a = b)) as [<-|Hn].
      * rewrite lookup_insert. done.
      * rewrite lookup_insert_ne by done. intros He z [E|[_ Hz]]%elem_add; [|by eapply K2].
        apply (f_equal fst) in E. cbn [fst] in E. apply cache_key_inj in E as [-> _]. done.
    + intros b. rewrite Hsame. rewrite accepted_app. cbn. rewrite app_nil_r. apply K3.
    + apply nonce_snoc; [done|discriminate].
  - constructor; cbn [q_call q_queue q_trace].
    + intros b p acc'. rewrite Hsame. destruct (decide (a = b)) as [<-|].
      * rewrite lookup_insert. intros [= <-] [= <-]. eapply K1; eauto.
      * rewrite lookup_insert_ne by done. eauto.
    + intros b. rewrite Hsame. destruct (decide (a = b)) as [<-|Hn].
      * rewrite lookup_insert. done.
      * rewrite lookup_insert_ne by done. intros He z [E|[_ Hz]]%elem_touch; [|by eapply K2].
        apply (f_equal fst) in E. cbn [fst] in E. apply cache_key_inj in E as [-> _]. done.
    + intros b. rewrite Hsame. apply K3.
    + done.
  - constructor; cbn [q_call q_queue q_trace].
    + intros b p acc'. rewrite Hsame. intros [_ Hp]%lookup_delete_Some. eauto.
    + intros b. rewrite Hsame. destruct (decide (a = b)) as [<-|].
      * intros _. rewrite <- (K1 _ _ _ H eq_refl). by apply lru_find_none.
      * rewrite lookup_delete_ne by done. eauto.
    + intros b. rewrite Hsame. rewrite accepted_app. cbn. rewrite app_nil_r. apply K3.
    + apply nonce_snoc; [done|discriminate].
  - constructor; cbn [q_call q_queue q_trace].
    + intros b p acc'. rewrite Hsame. destruct (decide (a = b)) as [<-|].
      * rewrite lookup_insert. intros [= <-] [= <-]. eapply K1; eauto.
      * rewrite lookup_insert_ne by done. eauto.
    + intros b. rewrite Hsame. destruct (decide (a = b)) as [<-|Hn].
      * rewrite lookup_insert. done.
      * rewrite lookup_insert_ne by done. intros He z [_ Hz]%elem_del. by eapply K2.
    + intros b. rewrite Hsame. apply K3.
    + done.
  - destruct (J2 _ _ H) as [Hy1 Hy2]. constructor; cbn [q_call q_queue q_trace].
    + intros b p acc'. rewrite acc_seq_insert. destruct (decide (a = b)) as [<-|].
      * rewrite lookup_insert. intros [= <-] [= <-]. by rewrite (K1 _ _ _ H eq_refl).
      * rewrite lookup_insert_ne by done. eauto.
    + intros b. rewrite acc_seq_insert. destruct (decide (a = b)) as [<-|Hn].
      * rewrite lookup_insert. done.
      * rewrite lookup_insert_ne by done. eauto.
    + intros b. rewrite acc_seq_insert, accepted_app. cbn. rewrite Hy1. destruct (decide (a = b)) as [<-|Hn].
      * rewrite (K3 a), u64_add_one, app_length. cbn. f_equal. lia.
      * rewrite app_nil_r. apply K3.
    + apply nonce_snoc; [done|]. intros y' ok [= <- <-]. rewrite H0, <- Hy1. rewrite K3. by rewrite Hy1.
  - destruct (J2 _ _ H) as [Hy1 Hy2]. constructor; cbn [q_call q_queue q_trace].
    + intros b p acc'. rewrite Hsame. intros [_ Hp]%lookup_delete_Some. eauto.
    + intros b. rewrite Hsame. destruct (decide (a = b)) as [<-|].
      * intros _. rewrite <- (K1 _ _ _ H eq_refl). eapply J5; eauto.
      * rewrite lookup_delete_ne by done. eauto.
    + intros b. rewrite Hsame. rewrite accepted_app. cbn. rewrite app_nil_r. apply K3.
    + change [EvBroadcast y false; EvReturn a false] with ([EvBroadcast y false] ++ [EvReturn a false]). rewrite app_assoc.
      apply nonce_snoc; [|discriminate]. apply nonce_snoc; [done|]. intros y' ok [= <- <-].
      rewrite Hy1, Hy2, (K1 _ _ _ H eq_refl). apply K3.
Qed.

(** C45. Then every broadcast attempted for a sender carries exactly the account's sequence
    at that time (the initial one plus the number of accepted broadcasts so far), so the
    accepted ones are the consecutive nonces from the initial sequence on, each once. *)
Theorem C45_no_gaps cap seqs s :
  map_Forall (λ _ n, n < two64) seqs → qreach cap seqs false s →
  (∀ pre y ok post, q_trace s = pre ++ EvBroadcast y ok :: post →
     qt_nonce y = u64 (default 0 (seqs !! qt_from y) + N.of_nat (length (accepted (qt_from y) pre)))) ∧
  (∀ a i n, accepted a (q_trace s) !! i = Some n → n = u64 (default 0 (seqs !! a) + N.of_nat i)).
Proof.
  intros Hb Hr. pose proof (sinv_reach _ _ _ Hb Hr) as [K1 K2 K3 K4]. split; [exact K4|].
  intros a. clear K1 K2 K3. revert K4. generalize (q_trace s) as tr. clear.
  induction tr as [|e tr IH] using rev_ind; intros K4 i n; [done|].
  rewrite accepted_app. intros H.
  assert (IHt : ∀ i n, accepted a tr !! i = Some n → n = u64 (default 0 (seqs !! a) + N.of_nat i)).
  { apply IH. intros pre y ok post E. apply (K4 pre y ok (post ++ [e])). rewrite E, <- app_assoc. done. }
  apply lookup_app_Some in H as [H|[Hle H]]; [by apply IHt|].
  destruct e as [| |y [|]| |]; cbn in H; try done.
  destruct (decide (qt_from y = a)) as [<-|]; [|done].
  apply list_lookup_singleton_Some in H as [Hi <-].
  rewrite (K4 tr y true [] eq_refl). f_equal. f_equal. lia.
Qed.

(** C45. And nothing that could be broadcast is left waiting: when no call of the sender is
    active, the queue holds no transaction with the sender's current sequence. *)
Theorem C45_nothing_ready_left cap seqs s x :
  map_Forall (λ _ n, n < two64) seqs → qreach cap seqs false s →
  q_call s !! qt_from x = None → (cache_key (qt_from x) (qt_nonce x), x) ∈ q_queue s →
  qt_nonce x ≠ acc_seq s (qt_from x).
Proof.
  intros Hb Hr Hc Hin E. pose proof (sinv_reach _ _ _ Hb Hr) as [K1 K2 K3 K4].
  rewrite E in Hin. eapply (K2 (qt_from x)); [by rewrite Hc|exact Hin].
Qed.

(** ** Runs: an executable form of the steps, to exhibit histories *)
Inductive cmd := Submit (x : qtx) | Go (a : bytes) | Fail (a : bytes) | Env (a : bytes) (n : N).
Definition run1 (c : cmd) (s : qst) : option (option bytes * qst) :=
  match c with
  | Submit x => if decide (q_call s !! qt_from x = None) then
      Some (Some (qt_from x), mkQ (q_cap s) (q_queue s) (<[qt_from x := PStart x]> (q_call s)) (q_seq s) (q_trace s)) else None
  | Go a =>
      match q_call s !! a with
      | None => None
      | Some (PStart x) => Some (Some a,
          if decide (qt_nonce x < acc_seq s a)
          then mkQ (q_cap s) (q_queue s) (delete a (q_call s)) (q_seq s) (q_trace s ++ [EvRefused x (acc_seq s a)])
          else mkQ (q_cap s) (q_queue s) (<[a := PAdd x (acc_seq s a)]> (q_call s)) (q_seq s) (q_trace s ++ [EvRead x (acc_seq s a)]))
      | Some (PAdd x acc) => Some (Some a,
          mkQ (q_cap s) (lru_add (q_cap s) (cache_key a (qt_nonce x)) x (q_queue s)) (<[a := PGet acc]> (q_call s)) (q_seq s) (q_trace s ++ [EvQueued x]))
      | Some (PGet acc) => Some (Some a,
          match lru_find (cache_key a acc) (q_queue s) with
          | Some y => mkQ (q_cap s) (lru_touch (cache_key a acc) y (q_queue s)) (<[a := PRem acc y]> (q_call s)) (q_seq s) (q_trace s)
          | None => mkQ (q_cap s) (q_queue s) (delete a (q_call s)) (q_seq s) (q_trace s ++ [EvReturn a true])
          end)
      | Some (PRem acc y) => Some (Some a,
          mkQ (q_cap s) (lru_del (cache_key a acc) (q_queue s)) (<[a := PSend acc y]> (q_call s)) (q_seq s) (q_trace s))
      | Some (PSend acc y) =>
          if decide (qt_nonce y = acc_seq s a) then
            Some (Some a, mkQ (q_cap s) (q_queue s) (<[a := PGet (u64_add acc 1)]> (q_call s)) (<[a := u64_add (acc_seq s a) 1]> (q_seq s)) (q_trace s ++ [EvBroadcast y true]))
          else None
      end
  | Fail a =>
      match q_call s !! a with
      | Some (PSend acc y) => Some (Some a,
          mkQ (q_cap s) (q_queue s) (delete a (q_call s)) (q_seq s) (q_trace s ++ [EvBroadcast y false; EvReturn a false]))
      | _ => None
      end
  | Env a n => if decide (n < two64) then Some (None, mkQ (q_cap s) (q_queue s) (q_call s) (<[a := n]> (q_seq s)) (q_trace s)) else None
  end.
Fixpoint run (env : bool) (cs : list cmd) (s : qst) : option qst :=
  match cs with
  | [] => Some s
  | c :: cs => match run1 c s with
               | Some (l, s') => if decide (env = false ∧ l = None) then None else run env cs s'
               | None => None
               end
  end.
Lemma run1_step c s l s' : run1 c s = Some (l, s') → qstep l s s'.
Proof.
  destruct c; cbn.
  - destruct (decide _); [|done]. intros [= <- <-]. by constructor.
  - destruct (q_call s !! a) as [[]|] eqn:E; [| | | | |done].
    + intros [= <- <-]. destruct (decide _); [by constructor|]. constructor; [done|lia].
    + intros [= <- <-]. by constructor.
    + intros [= <- <-]. destruct (lru_find _ _) eqn:F; econstructor; eauto.
    + intros [= <- <-]. by econstructor.
    + destruct (decide _); [|done]. intros [= <- <-]. by econstructor.
  - destruct (q_call s !! a) as [[]|] eqn:E; try done. intros [= <- <-]. by econstructor.
  - destruct (decide _); [|done]. intros [= <- <-]. by constructor.
Qed.
Lemma run_reach cap seqs env cs : ∀ s s', qreach cap seqs env s → run env cs s = Some s' → qreach cap seqs env s'.
Proof.
  induction cs as [|c cs IH]; cbn; intros s s' Hr H; [by injection H as <-|].
  destruct (run1 c s) as [[l s1]|] eqn:E; [|done]. destruct (decide _) as [|Hn]; [done|].
  eapply IH; [|exact H]. eapply QR_step; [exact Hr|by eapply run1_step|]. tauto.
Qed.

Global Instance phase_eq_dec : EqDecision phase.
Proof. solve_decision. Defined.
Definition outcome (cap : nat) (env : bool) (cs : list cmd) : qst :=
  default (q_init cap ∅) (run env cs (q_init cap ∅)).
Lemma outcome_reach cap env cs : qreach cap ∅ env (outcome cap env cs).
Proof.
  unfold outcome. destruct (run env cs _) as [s|] eqn:E; [|constructor].
  eapply run_reach; [constructor|exact E].
Qed.
Ltac computed := apply (bool_decide_unpack _); vm_compute; exact I.
Definition qa : bytes := replicate 20 1.
Definition qb : bytes := replicate 20 2.
Definition ax (n : N) : qtx := mkQtx qa n [n].
Definition bx (n : N) : qtx := mkQtx qb n [100 + n].
(** A submission whose broadcasts are all accepted, [k] of them. *)
Fixpoint loops (a : bytes) (k : nat) : list cmd := match k with O => [Go a] | S k => [Go a; Go a; Go a] ++ loops a k end.
Definition call (x : qtx) (k : nat) : list cmd := [Submit x; Go (qt_from x); Go (qt_from x)] ++ loops (qt_from x) k.

(** A concrete history: nonces 2, 1 and 0 arrive in that order with another sender in
    between; they are broadcast 0, 1, 2. *)
Example C45_out_of_order : ∃ s, qreach 10 ∅ false s ∧
  accepted qa (q_trace s) = [0; 1; 2] ∧ accepted qb (q_trace s) = [0] ∧ q_queue s = [] ∧ q_call s = ∅.
Proof.
  set (s := outcome 10 false (call (ax 2) 0 ++ call (bx 0) 1 ++ call (ax 1) 0 ++ call (ax 0) 3)).
  exists s. split; [apply outcome_reach|].
  split_and!; computed.
Qed.

(** ** What the property's wording promises and the code does not do *)

(** C45. A submission can be lost: the queue is shared between senders and bounded, so other
    senders' submissions evict a waiting transaction whose submission was answered with
    success. Here the gap is filled, nothing is active, the account expects exactly the lost
    nonce, and the transaction is neither broadcast nor waiting. *)
Theorem C73_eviction_refuted : ∃ cap seqs s x, (0 < cap)%nat ∧ qreach cap seqs false s ∧
  q_call s = ∅ ∧ queued_times x (q_trace s) = 1%nat ∧
  events_of (qt_from x) (take 3 (q_trace s)) = [EvRead x 0; EvQueued x; EvReturn (qt_from x) true] ∧
  acc_seq s (qt_from x) = qt_nonce x ∧ broadcast_times x (q_trace s) = 0%nat ∧ q_queue s = [(cache_key qb 5, bx 5)].
Proof.
  set (s := outcome 1 false (call (ax 1) 0 ++ call (bx 5) 0 ++ call (bx 6) 0 ++ call (ax 0) 1 ++ call (bx 5) 0)).
  exists 1%nat, ∅, s, (ax 1). split; [lia|]. split; [apply outcome_reach|].
  split_and!; computed.
Qed.

(** C45. A waiting transaction is only looked at when its sender submits again: if the
    account's sequence reaches its nonce by another way, it is ready, no call is active, and
    it is not broadcast. *)
Theorem C73_waits_for_next_call_refuted : ∃ cap seqs s x, qreach cap seqs true s ∧
  q_call s = ∅ ∧ (cache_key (qt_from x) (qt_nonce x), x) ∈ q_queue s ∧ acc_seq s (qt_from x) = qt_nonce x.
Proof.
  set (s := outcome 10 true (call (ax 1) 0 ++ [Env qa 1])).
  exists 10%nat, ∅, s, (ax 1). split; [apply outcome_reach|].
  split_and!; computed.
Qed.

(** C45. The answer to a submission can be an error although its transaction was broadcast
    and accepted: the failure of a later queued one is returned to the wrong submission. *)
Theorem C73_error_of_another_refuted : ∃ cap seqs s x y, qreach cap seqs false s ∧ x ≠ y ∧
  q_trace s = [EvRead y 0; EvQueued y; EvReturn (qt_from y) true;
               EvRead x 0; EvQueued x; EvBroadcast x true; EvBroadcast y false; EvReturn (qt_from x) false].
Proof.
  set (s := outcome 10 false (call (ax 1) 0 ++ [Submit (ax 0); Go qa; Go qa; Go qa; Go qa; Go qa; Go qa; Go qa; Fail qa])).
  exists 10%nat, ∅, s, (ax 0), (ax 1). split; [apply outcome_reach|].
  split; [discriminate|]. computed.
Qed.
