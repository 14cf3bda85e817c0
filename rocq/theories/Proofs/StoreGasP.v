(** The refund counter over the contexts: proofs for C132. *)
From Verif.Base Require Import Prelude.
From Verif.Model Require Import Paths StoreGas.
From Verif.Spec Require Import StoreGasSpec.
Local Open Scope N_scope.

(** ** Slots that were cleared *)
Definition clearedb (c : cell) (p : slot * N) : Prop := p.2 ≠ 0 ∧ value_in c p.1 = 0.
Global Instance clearedb_dec c p : Decision (clearedb c p) := _.
Definition count (b c : cell) : N := N.of_nat (size (filter (clearedb c) (c_slots b))).
Definition need (b c : cell) : N := 4800 * count b c.

Lemma count_self b : count b b = 0.
Proof.
  unfold count. rewrite (proj2 (map_filter_empty_iff _ _)); [by rewrite map_size_empty|].
  intros x v Hv [H1 H2]. unfold value_in in H2. simpl in *. rewrite Hv in H2. by simpl in H2.
Qed.
Lemma count_upd b c x v r :
  count b (Cell (<[x := v]> (c_slots c)) r) + (if bool_decide (value_in b x ≠ 0 ∧ value_in c x = 0) then 1 else 0) =
  count b c + (if bool_decide (value_in b x ≠ 0 ∧ v = 0) then 1 else 0).
Proof.
  set (c' := Cell (<[x := v]> (c_slots c)) r).
  assert (Hx : value_in c' x = v) by (unfold value_in; simpl; by rewrite lookup_insert).
  assert (Hy : ∀ y, y ≠ x → value_in c' y = value_in c y) by (intros y Hn; unfold value_in; simpl; by rewrite lookup_insert_ne).
  assert (Hd : filter (clearedb c') (delete x (c_slots b)) = filter (clearedb c) (delete x (c_slots b))).
  { apply map_filter_ext. intros y w [Hn _]%lookup_delete_Some. unfold clearedb. simpl. by rewrite Hy. }
  unfold count. destruct (c_slots b !! x) as [w|] eqn:Eb.
  - assert (Hw : value_in b x = w) by (unfold value_in; by rewrite Eb). rewrite Hw.
    set (f := filter (clearedb c) (delete x (c_slots b))) in *.
    assert (Hnone : f !! x = None) by (apply map_filter_lookup_None; left; by rewrite lookup_delete).
    assert (Hs : size (<[x := w]> f) = S (size f)) by (by apply map_size_insert_None).
    assert (G : ∀ d, filter (clearedb d) (delete x (c_slots b)) = f →
      size (filter (clearedb d) (c_slots b)) = if decide (clearedb d (x, w)) then S (size f) else size f).
    { intros d Hf. rewrite <- (insert_delete (c_slots b) x w Eb), map_filter_insert, delete_idemp, Hf. by destruct (decide _). }
    rewrite (G c' Hd), (G c eq_refl).
    assert (P1 : clearedb c' (x, w) ↔ w ≠ 0 ∧ v = 0) by (unfold clearedb; simpl; by rewrite Hx).
    assert (P2 : clearedb c (x, w) ↔ w ≠ 0 ∧ value_in c x = 0) by done.
    destruct (decide (clearedb c' (x, w))) as [D1|D1], (decide (clearedb c (x, w))) as [D2|D2];
      rewrite P1 in D1; rewrite P2 in D2; repeat (first [rewrite (bool_decide_eq_true_2 _ D1) | rewrite (bool_decide_eq_false_2 _ D1) | rewrite (bool_decide_eq_true_2 _ D2) | rewrite (bool_decide_eq_false_2 _ D2)]); lia.
  - assert (Hw : value_in b x = 0) by (unfold value_in; by rewrite Eb). rewrite Hw.
    rewrite !bool_decide_eq_false_2 by tauto. rewrite (delete_notin _ _ Eb) in Hd. by rewrite Hd.
Qed.

(** ** The invariant: every context can pay for what is cleared in it *)
Definition base (m : cells) : cell := pt_base (pt_cur m) (pt_up m).
Definition fine (B : N) (b c : cell) : Prop := need b c <= c_refund c /\ c_refund c <= B.
Record inv (B : N) (m : cells) : Prop := {
  i_cur : fine B (base m) (pt_cur m);
  i_up : Forall (fun e => fine B (base m) e.2) (pt_up m) }.

Lemma fine_more B B' b c : fine B b c → B <= B' → fine B' b c.
Proof. unfold fine. lia. Qed.
Lemma inv_more B B' m : inv B m → B <= B' → inv B' m.
Proof.
  intros [H1 H2] Hb. split; [by eapply fine_more|]. eapply Forall_impl; [exact H2|]. intros e He. eapply fine_more; [exact He|exact Hb].
Qed.
Lemma inv_snapshot B m : inv B m → inv B (pt_snapshot m).1.
Proof. intros [H1 H2]. split; [exact H1|]. simpl. apply Forall_cons. split; [exact H1|exact H2]. Qed.
Lemma inv_base B m : inv B m → inv B (Path (base m) []).
Proof.
  intros [H1 H2]. split; [|by apply Forall_nil]. unfold base at 1. simpl. unfold fine, need. rewrite count_self.
  assert (H : ∀ u c, fine B (base m) c → Forall (fun e : bool * cell => fine B (base m) e.2) u → fine B (base m) (pt_base c u)).
  { induction u as [|[f c'] u IH]; intros c Hc Hu; [done|]. apply Forall_cons in Hu as [Hu1 Hu2]. simpl. by apply IH. }
  specialize (H _ _ H1 H2). fold (base m) in H. unfold fine in H. simpl. lia.
Qed.
Lemma inv_back B b i : ∀ u c p, pt_base c u = b → fine B b c → Forall (fun e : bool * cell => fine B b e.2) u → pt_back i c u = Some p →
  base p = b ∧ fine B b (pt_cur p) ∧ Forall (fun e => fine B b e.2) (pt_up p) ∧ pt_up p ≠ [].
Proof.
  induction u as [|[f c'] u IH]; intros c p Hb Hc Hu; simpl; [done|]. apply Forall_cons in Hu as [Hu1 Hu2]. simpl in *.
  destruct (f && (pt_live u =? i)%nat).
  - intros [= <-]. unfold base. simpl. split; [done|]. split; [done|]. split; [|done]. apply Forall_cons. by split.
  - intros H. by apply (IH c').
Qed.
Lemma inv_revert B m id m' : inv B m → pt_revert m id = Some m' → inv B m'.
Proof.
  intros HI. unfold pt_revert. destruct (id =? -1)%Z; [intros [= <-]; by apply inv_base|]. destruct (id <? 0)%Z; [done|].
  destruct HI as [H1 H2]. intros H. destruct (inv_back B (base m) _ _ _ _ eq_refl H1 H2 H) as (Hb & Hc & Hu & _). split; by rewrite Hb.
Qed.

(** ** A store *)
Ltac nums := repeat match goal with
  | H : context [?a =? ?b] |- _ => destruct (N.eqb_spec a b)
  | |- context [?a =? ?b] => destruct (N.eqb_spec a b)
  end.
Lemma base_set m c : pt_up m ≠ [] → base (pt_set m c) = base m.
Proof. unfold base, pt_set. simpl. by destruct (pt_up m) as [|[??]?]. Qed.
(** Changing the newest context keeps the invariant if the newest is fine, or is the only one and its counter is bounded. *)
Lemma inv_set B m c : inv B m → (pt_up m ≠ [] → need (base m) c <= c_refund c) → c_refund c <= B → inv B (pt_set m c).
Proof.
  intros [H1 H2] Hn Hb. destruct (decide (pt_up m = [])) as [Hu|Hu].
  - destruct m as [c0 u]. simpl in *. subst u. split; [|by apply Forall_nil]. unfold base. simpl. unfold fine, need. rewrite count_self. lia.
  - split; rewrite (base_set _ _ Hu); simpl; [|done]. split; [by apply Hn|done].
Qed.
Lemma N_64 : ∃ t, 2 ^ 64 = t ∧ 19900 < t.
Proof. by eexists. Qed.
Lemma store_changes B m x v g cost l :
  inv B m → 2300 < g → store_gas (committed m x) (current m x) v = (cost, l) → B + 199 * g < 2 ^ 64 → 
  ∃ m1, apply_changes m l = Some m1 ∧ 100 <= cost ∧
    c_slots (pt_cur m1) = c_slots (pt_cur m) ∧ pt_up m1 = pt_up m ∧
    Z.of_N (c_refund (pt_cur m1)) = (Z.of_N (c_refund (pt_cur m)) + eip_refund (committed m x) (current m x) v)%Z ∧
    cost = eip_gas (committed m x) (current m x) v ∧
    (g < cost + 2100 → inv (B + 199 * g) m1) ∧
    inv (B + 199 * N.min cost g) (write_slot m1 x v).
Proof.
  intros HI Hg Hs Hb. pose proof HI as HI0.
  destruct (N_64) as (t & Et & Ht). rewrite Et in Hb.
  destruct m as [cur u]. destruct HI as [Hcur Hup]. unfold committed, current, base in *. cbn [pt_cur pt_up] in *. set (b := pt_base cur u) in *.
  pose proof (count_upd b cur x v) as Hc. unfold fine, need in Hcur. destruct Hcur as [Hc1 Hc2].
  set (o := value_in b x) in *. set (c := value_in cur x) in *.
  assert (Hone : u = [] → o = c) by (intros Hu; unfold o, c, b; by rewrite Hu).
  assert (F : ∀ r k, c_refund cur <= r → r <= B + k → inv (B + k) (Path (Cell (c_slots cur) r) u)).
  { intros r k Hr1 Hr2. apply (inv_set (B + k) (Path cur u) (Cell (c_slots cur) r)); simpl; [|intros _|lia].
    - eapply inv_more; [exact HI0|lia].
    - unfold base. simpl. fold b. unfold need. etrans; [|exact Hr1]. etrans; [|exact Hc1]. done. }
  assert (G : ∀ r k, (u ≠ [] → need b (Cell (<[x := v]> (c_slots cur)) r) <= r) → r <= B + k → inv (B + k) (Path (Cell (<[x := v]> (c_slots cur)) r) u)).
  { intros r k Hr1 Hr2. apply (inv_set (B + k) (Path cur u) (Cell (<[x := v]> (c_slots cur)) r)); simpl; [|done|lia].
    eapply inv_more; [exact HI0|lia]. }
  unfold need in G.
  assert (FIN : ∀ r, apply_changes (Path cur u) l = Some (Path (Cell (c_slots cur) r) u) → 100 <= cost →
    Z.of_N r = (Z.of_N (c_refund cur) + eip_refund o c v)%Z → cost = eip_gas o c v →
    (g < cost + 2100 → c_refund cur <= r ∧ r <= B + 199 * g) →
    (u ≠ [] → 4800 * count b (Cell (<[x := v]> (c_slots cur)) r) <= r) → r <= B + 199 * N.min cost g →
    ∃ m1, apply_changes (Path cur u) l = Some m1 ∧ 100 <= cost ∧
    c_slots (pt_cur m1) = c_slots cur ∧ pt_up m1 = u ∧
    Z.of_N (c_refund (pt_cur m1)) = (Z.of_N (c_refund cur) + eip_refund o c v)%Z ∧
    cost = eip_gas o c v ∧
    (g < cost + 2100 → inv (B + 199 * g) m1) ∧
    inv (B + 199 * N.min cost g) (write_slot m1 x v)).
  { intros r E1 E2 E3 E4 E5 E6 E7. eexists. split; [exact E1|]. split; [done|]. simpl. do 4 (split; [done|]). split.
    - intros Hx. destruct (E5 Hx). by apply F.
    - by apply G. }
  unfold store_gas in Hs. 
  assert (A0 : apply_changes (Path cur u) [] = Some (Path (Cell (c_slots cur) (c_refund cur)) u)) by (by destruct cur).
  assert (A1 : ∀ n, n <= 19900 → apply_changes (Path cur u) [Add n] = Some (Path (Cell (c_slots cur) (c_refund cur + n)) u)).
  { intros n Hn. cbn [apply_changes]. unfold add_refund, pt_set. cbn [pt_cur pt_up]. rewrite Et, N.mod_small; [done|]. lia. }
  destruct (N.eqb_spec c v) as [Ecv|Ecv].
  { injection Hs as <- <-. apply (FIN (c_refund cur)); [exact A0|lia| | |intros; lia| |lia].
    - unfold eip_refund. rewrite bool_decide_eq_true_2 by done. lia.
    - unfold eip_gas. by rewrite bool_decide_eq_true_2.
    - intros _. specialize (Hc (c_refund cur)). destruct (bool_decide (o ≠ 0 ∧ c = 0)) eqn:D1, (bool_decide (o ≠ 0 ∧ v = 0)) eqn:D2; rewrite Ecv in D1; rewrite D1 in D2; try done; lia. }
  destruct (N.eqb_spec o c) as [Eoc|Eoc].
  { destruct (N.eqb_spec o 0) as [Eo|Eo].
    { injection Hs as <- <-. apply (FIN (c_refund cur)); [exact A0|lia| | |intros; lia| |lia].
      - unfold eip_refund. rewrite !bool_decide_eq_false_2 by lia. lia.
      - unfold eip_gas. rewrite bool_decide_eq_false_2, !bool_decide_eq_true_2 by done. done.
      - intros _. specialize (Hc (c_refund cur)). rewrite !bool_decide_eq_false_2 in Hc by lia. lia. }
    destruct (N.eqb_spec v 0) as [Ev|Ev]; injection Hs as <- <-.
    - apply (FIN (c_refund cur + 4800)); [apply A1; lia|lia| | |intros; lia| |lia].
      + unfold eip_refund. rewrite (bool_decide_eq_false_2 (c = v)) by done. rewrite (bool_decide_eq_false_2 (o ≠ 0 ∧ c = 0)) by lia.
        rewrite (bool_decide_eq_true_2 (o ≠ 0 ∧ c ≠ 0 ∧ v = 0)) by lia. rewrite !bool_decide_eq_false_2 by lia. lia.
      + unfold eip_gas. rewrite bool_decide_eq_false_2, bool_decide_eq_true_2, bool_decide_eq_false_2 by done. done.
      + intros _. specialize (Hc (c_refund cur + 4800)). rewrite bool_decide_eq_false_2, bool_decide_eq_true_2 in Hc by lia. lia.
    - apply (FIN (c_refund cur)); [exact A0|lia| | |intros; lia| |lia].
      + unfold eip_refund. rewrite !bool_decide_eq_false_2 by lia. lia.
      + unfold eip_gas. rewrite bool_decide_eq_false_2, bool_decide_eq_true_2, bool_decide_eq_false_2 by done. done.
      + intros _. specialize (Hc (c_refund cur)). rewrite !bool_decide_eq_false_2 in Hc by lia. lia. }
  assert (Hu : u ≠ []) by (intros Hu; by apply Eoc, Hone).
  assert (Hgas : 100 = eip_gas o c v) by (unfold eip_gas; rewrite !bool_decide_eq_false_2 by done; done).
  assert (Hr : eip_refund o c v = Z.add (Z.add (if bool_decide (o ≠ 0 ∧ c = 0) then (-4800)%Z else 0%Z) (if bool_decide (o ≠ 0 ∧ c ≠ 0 ∧ v = 0) then 4800%Z else 0%Z))
             (Z.add (if bool_decide (v = o ∧ o = 0) then 19900%Z else 0%Z) (if bool_decide (v = o ∧ o ≠ 0) then 2800%Z else 0%Z))).
  { unfold eip_refund. by rewrite bool_decide_eq_false_2. }
  injection Hs as <- <-.
  destruct (N.eqb_spec o 0) as [Eo|Eo].
  { simpl app in *. destruct (N.eqb_spec o v) as [Eov|Eov].
    - apply (FIN (c_refund cur + 19900)); [apply A1; lia|lia| |done|intros; lia| |lia].
      + rewrite Hr. rewrite (bool_decide_eq_true_2 (v = o ∧ o = 0)) by done. rewrite !bool_decide_eq_false_2 by lia. lia.
      + intros _. specialize (Hc (c_refund cur + 19900)). rewrite !bool_decide_eq_false_2 in Hc by lia. lia.
    - apply (FIN (c_refund cur)); [exact A0|lia| |done|intros; lia| |lia].
      + rewrite Hr. rewrite !bool_decide_eq_false_2 by lia. lia.
      + intros _. specialize (Hc (c_refund cur)). rewrite !bool_decide_eq_false_2 in Hc by lia. lia. }
  destruct (N.eqb_spec c 0) as [Ec|Ec].
  { assert (Hv : v ≠ 0) by congruence. assert (Hpos : 1 <= count b cur).
    { specialize (Hc 0). rewrite (bool_decide_eq_true_2 (o ≠ 0 ∧ c = 0)), bool_decide_eq_false_2 in Hc by lia. lia. }
    assert (AS : apply_changes (Path cur u) [Sub 4800] = Some (Path (Cell (c_slots cur) (c_refund cur - 4800)) u)).
    { simpl. unfold sub_refund, pt_set. simpl. destruct (N.ltb_spec (c_refund cur) 4800); [lia|]. done. }
    destruct (N.eqb_spec o v) as [Eov|Eov]; simpl app in *.
    - apply (FIN (c_refund cur - 4800 + 2800)); [|lia| |done|intros; lia| |lia].
      + cbn [apply_changes] in AS |- *. destruct (sub_refund (Path cur u) 4800) as [m1|]; cbn [mbind option_bind] in AS |- *; [|done]. injection AS as ->.
        unfold add_refund, pt_set. cbn [pt_cur pt_up c_slots c_refund]. rewrite Et, N.mod_small; [done|]. lia.
      + rewrite Hr. rewrite (bool_decide_eq_true_2 (o ≠ 0 ∧ c = 0)) by done. rewrite (bool_decide_eq_true_2 (v = o ∧ o ≠ 0)) by done. rewrite !bool_decide_eq_false_2 by lia. lia.
      + intros _. specialize (Hc (c_refund cur - 4800 + 2800)). rewrite (bool_decide_eq_true_2 (o ≠ 0 ∧ c = 0)), bool_decide_eq_false_2 in Hc by lia. lia.
    - apply (FIN (c_refund cur - 4800)); [exact AS|lia| |done|intros; lia| |lia].
      + rewrite Hr. rewrite (bool_decide_eq_true_2 (o ≠ 0 ∧ c = 0)) by done. rewrite !bool_decide_eq_false_2 by lia. lia.
      + intros _. specialize (Hc (c_refund cur - 4800)). rewrite (bool_decide_eq_true_2 (o ≠ 0 ∧ c = 0)), bool_decide_eq_false_2 in Hc by lia. lia. }
  destruct (N.eqb_spec v 0) as [Ev|Ev].
  { destruct (N.eqb_spec o v) as [Eov|Eov]; [congruence|]. simpl app in *.
    apply (FIN (c_refund cur + 4800)); [apply A1; lia|lia| |done|intros; lia| |lia].
    - rewrite Hr. rewrite (bool_decide_eq_true_2 (o ≠ 0 ∧ c ≠ 0 ∧ v = 0)) by done. rewrite !bool_decide_eq_false_2 by lia. lia.
    - intros _. specialize (Hc (c_refund cur + 4800)). rewrite bool_decide_eq_false_2, bool_decide_eq_true_2 in Hc by lia. lia. }
  destruct (N.eqb_spec o v) as [Eov|Eov]; simpl app in *.
  - apply (FIN (c_refund cur + 2800)); [apply A1; lia|lia| |done|intros; lia| |lia].
    + rewrite Hr. rewrite (bool_decide_eq_true_2 (v = o ∧ o ≠ 0)) by done. rewrite !bool_decide_eq_false_2 by lia. lia.
    + intros _. specialize (Hc (c_refund cur + 2800)). rewrite !bool_decide_eq_false_2 in Hc by lia. lia.
  - apply (FIN (c_refund cur)); [exact A0|lia| |done|intros; lia| |lia].
    + rewrite Hr. rewrite !bool_decide_eq_false_2 by lia. lia.
    + intros _. specialize (Hc (c_refund cur)). rewrite !bool_decide_eq_false_2 in Hc by lia. lia.
Qed.

(** ** Programs *)
(** The refund counter grows by at most [K] for each gas. *)
Fixpoint costs (K : N) (p : code) : Prop :=
  match p with
  | Stop | Revert | Fail => True
  | Gas k | Load _ k => ∀ v, costs K (k v)
  | Burn _ k => costs K k
  | Store _ _ _ k => 199 <= K ∧ costs K k
  | Enter _ body k => costs K body ∧ ∀ ok r, costs K (k ok r)
  | Token n body k => (∃ K', costs K' body ∧ K' * token_gas <= K * n) ∧ costs K k
  end.
Definition good (K B g : N) (o : outcome) : Prop :=
  match o with
  | Ended _ r m => r <= g ∧ inv (B + K * (g - r)) m
  | BadRefund => False
  | _ => True
  end.
Lemma good_frame K B g f m : inv B m → (∀ m1, inv B m1 → good K B g (f m1)) → good K B g (in_frame f m).
Proof.
  intros HI Hf. unfold in_frame. pose proof (inv_snapshot _ _ HI) as H. destruct (pt_snapshot m) as [m1 id]. simpl in H.
  specialize (Hf m1 H). destruct (f m1) as [[] r m2| | |]; try done. destruct Hf as [Hr H2].
  destruct (pt_revert m2 id) as [m3|] eqn:E; [|done]. split; [done|]. by eapply inv_revert.
Qed.
Lemma le_mul a b k : a <= b → k * a <= k * b.
Proof. apply N.mul_le_mono_l. Qed.
Lemma go_good t p : ∀ K g B m, 2 ^ 64 = t → costs K p → inv B m → B + K * g < t → good K B g (go 2300 p g m).
Proof.
  induction p as [| | |k IH|n k IH|x k IH|x v cold k IH|a body IHb k IH|n body IHb k IH]; intros K g B m Et Hp HI Hb; cbn [go costs] in *.
  - split; [done|]. eapply inv_more; [done|lia].
  - split; [done|]. eapply inv_more; [done|lia].
  - split; [lia|]. eapply inv_more; [done|lia].
  - by apply IH.
  - destruct (N.ltb_spec g n); [split; [lia|]; eapply inv_more; [done|lia]|].
    pose proof (le_mul (g - n) g K ltac:(lia)) as HK. assert (Hg : good K B (g - n) (go 2300 k (g - n) m)) by (apply IH; [done..|lia]).
    destruct (go 2300 k (g - n) m) as [ok r m'| | |]; try done. destruct Hg as [Hr Hi]. split; [lia|]. eapply inv_more; [done|].
    pose proof (le_mul (g - n - r) (g - r) K ltac:(lia)). lia.
  - by apply IH.
  - destruct Hp as [HK Hp]. destruct (N.leb_spec g 2300); [split; [lia|]; eapply inv_more; [done|lia]|].
    destruct (store_gas (committed m x) (current m x) v) as [cost l] eqn:Es.
    pose proof (N.mul_le_mono_r 199 K g HK) as HKg.
    destruct (store_changes B m x v g cost l HI ltac:(done) Es ltac:(rewrite Et; lia)) as (m1 & Ea & Hc & _ & _ & _ & _ & Ho & Hi).
    rewrite Ea. set (cost' := if cold then cost + 2100 else cost). assert (Hc' : cost <= cost' <= cost + 2100) by (unfold cost'; destruct cold; lia).
    clearbody cost'. destruct (N.ltb_spec g cost').
    + split; [lia|]. eapply inv_more; [apply Ho; lia|]. rewrite N.sub_0_r. lia.
    + pose proof (N.mul_le_mono_r 199 K cost' HK) as HKc. pose proof (le_mul cost cost' 199 ltac:(lia)) as Hcc.
      assert (HI' : inv (B + K * cost') (write_slot m1 x v)) by (eapply inv_more; [exact Hi|]; rewrite N.min_l by lia; lia).
      assert (Hadd : K * cost' + K * (g - cost') = K * g) by (rewrite <- N.mul_add_distr_l; f_equal; lia).
      pose proof (IH K (g - cost') _ _ Et Hp HI' ltac:(lia)) as Hg. destruct (go 2300 k _ _) as [ok r m'| | |]; try done. destruct Hg as [Hr Hi2]. split; [lia|].
      eapply inv_more; [exact Hi2|]. rewrite <- N.add_assoc, <- N.mul_add_distr_l. by replace (cost' + (g - cost' - r)) with (g - r) by lia.
  - destruct Hp as [Hp1 Hp2]. set (g1 := N.min a g). assert (Hg1 : g1 <= g) by (unfold g1; lia). clearbody g1.
    pose proof (le_mul g1 g K Hg1) as HK1.
    assert (Hf : good K B g1 (in_frame (go 2300 body g1) m)) by (apply good_frame; [done|]; intros m1 H1; apply IHb; [done..|lia]).
    destruct (in_frame (go 2300 body g1) m) as [ok r m'| | |]; try done. destruct Hf as [Hr Hi].
    assert (Hadd : K * (g1 - r) + K * (g - g1 + r) = K * g) by (rewrite <- N.mul_add_distr_l; f_equal; lia).
    pose proof (IH ok r K (g - g1 + r) _ _ Et (Hp2 ok r) Hi ltac:(lia)) as Hg. destruct (go 2300 (k ok r) _ _) as [ok' r' m2| | |]; try done.
    destruct Hg as [Hr' Hi']. split; [lia|]. eapply inv_more; [exact Hi'|]. rewrite <- N.add_assoc, <- N.mul_add_distr_l.
    by replace (g1 - r + (g - g1 + r - r')) with (g - r') by lia.
  - destruct Hp as [(K' & Hp1 & HK) Hp2]. destruct (N.ltb_spec g n); [split; [lia|]; eapply inv_more; [done|lia]|].
    assert (Hadd : K * n + K * (g - n) = K * g) by (rewrite <- N.mul_add_distr_l; f_equal; lia).
    assert (Hf : good K' B token_gas (in_frame (go 2300 body token_gas) m)) by (apply good_frame; [done|]; intros m1 H1; apply IHb; [done..|lia]).
    destruct (in_frame (go 2300 body token_gas) m) as [[] r m'| | |]; try done. destruct Hf as [Hr Hi].
    pose proof (le_mul (token_gas - r) token_gas K' ltac:(lia)) as HK'.
    assert (HI' : inv (B + K * n) m') by (eapply inv_more; [exact Hi|lia]).
    pose proof (IH K (g - n) _ _ Et Hp2 HI' ltac:(lia)) as Hg. destruct (go 2300 k _ _) as [ok' r' m2| | |]; try done.
    destruct Hg as [Hr' Hi']. split; [lia|]. eapply inv_more; [exact Hi'|]. rewrite <- N.add_assoc, <- N.mul_add_distr_l.
    by replace (n + (g - n - r')) with (g - r') by lia.
Qed.
Lemma costs_plain p K : no_token p → 199 <= K → costs K p.
Proof. intros Hp HK. induction p; simpl in *; naive_solver. Qed.
Lemma costs_look p K : no_token p → no_store p → costs K p.
Proof. intros Hp HK. induction p; simpl in *; naive_solver. Qed.
Lemma costs_fair p : fair p → costs 13267 p.
Proof.
  induction p as [| | |k IH|n k IH|x k IH|x v cold k IH|a body IHb k IH|n body IHb k IH]; cbn [fair costs]; try naive_solver.
  - intros Hp. split; [lia|by apply IH].
  - intros (Hb & Hn & Hk). split; [|by apply IH]. destruct Hn as [Hn|Hn].
    + exists 199. split; [by apply costs_plain|]. unfold token_gas. lia.
    + exists 0. split; [by apply costs_look|]. unfold token_gas. lia.
Qed.
Lemma execution_good pre p g slots : (∀ b, pre = Some b → no_token b) → fair p → g < 2 ^ 50 →
  good 13267 19900000 g (execution 2300 pre p g slots) .
Proof.
  intros Hpre Hp Hg. unfold execution.
  assert (HI : inv 19900000 (Path (Cell slots 0) [])).
  { split; [|by apply Forall_nil]. unfold base, fine, need. simpl pt_base. simpl pt_cur. rewrite count_self. simpl c_refund. lia. }
  assert (H0 : inv 0 (Path (Cell slots 0) [])).
  { split; [|by apply Forall_nil]. unfold base, fine, need. simpl pt_base. simpl pt_cur. rewrite count_self. simpl c_refund. lia. }
  destruct pre as [b|].
  - assert (HP : ∀ m1, inv 0 m1 → good 13267 19900000 g (after_pre 2300 (Some b) (go 2300 p g) m1)).
    { intros m1 H1. unfold after_pre.
      assert (Hf : good 199 0 token_gas (in_frame (go 2300 b token_gas) m1)).
      { apply good_frame; [done|]. intros m2 H2. eapply go_good; [reflexivity|by apply costs_plain; [apply Hpre|]|done|]. done. }
      destruct (in_frame _ m1) as [[] r m'| | |]; try done. destruct Hf as [Hr Hi].
      eapply go_good; [reflexivity|by apply costs_fair|eapply inv_more; [exact Hi|]|].
      - unfold token_gas in *. lia.
      - change (2 ^ 64) with 18446744073709551616. change (2 ^ 50) with 1125899906842624 in Hg. lia. }
    unfold in_frame. pose proof (inv_snapshot _ _ H0) as H. destruct (pt_snapshot (Path (Cell slots 0) [])) as [m1 id]. simpl in H.
    specialize (HP m1 H). destruct (after_pre _ _ _ m1) as [[] r m2| | |]; try done. destruct HP as [Hr H2].
    destruct (pt_revert m2 id) as [m3|] eqn:E; [|done]. split; [done|]. by eapply inv_revert.
  - apply good_frame; [done|]. intros m1 H1. simpl after_pre. eapply go_good; [reflexivity|by apply costs_fair|done|].
    change (2 ^ 64) with 18446744073709551616. change (2 ^ 50) with 1125899906842624 in Hg. lia.
Qed.

(** ** Ethereum's rules, as long as no call fails *)
Record rel (b : cell) (m : cells) (s : est) : Prop := {
  r_slots : c_slots (pt_cur m) = e_slots s;
  r_refund : Z.of_N (c_refund (pt_cur m)) = e_refund s;
  r_up : pt_up m ≠ [];
  r_live : Forall (fun e => e.1 = true) (pt_up m);
  r_base : base m = b }.
Lemma rel_snapshot b m s : rel b m s → rel b (pt_snapshot m).1 s.
Proof. intros [H1 H2 H3 H4 H5]. split; simpl; [done..| |done]. by apply Forall_cons. Qed.
Definition agrees (b : cell) (e : bool * N * est * bool) (o : outcome) : Prop :=
  let '(ok, r, s, _) := e in
  match o with Ended ok' r' m => ok' = ok ∧ r' = r ∧ base m = b ∧ (ok = true → rel b m s) | _ => False end.
Lemma agrees_frame b e f m s : rel b m s → (∀ m1, rel b m1 s → agrees b e (f m1)) → e.1.1.1 = true → agrees b e (in_frame f m).
Proof.
  intros Hr Hf He. destruct e as [[[ok r] s'] fl]. simpl in He. subst ok. unfold in_frame. pose proof (rel_snapshot _ _ _ Hr) as H.
  destruct (pt_snapshot m) as [m1 id]. simpl in H. specialize (Hf m1 H). simpl in *. destruct (f m1) as [ok' r' m2| | |]; try done.
  destruct Hf as (-> & ?). done.
Qed.
Lemma go_eth t b p : ∀ K g B m s, 2 ^ 64 = t → costs K p → inv B m → B + K * g < t → rel b m s →
  (eth (c_slots b) p g s).2 = false → agrees b (eth (c_slots b) p g s) (go 2300 p g m).
Proof.
  induction p as [| | |k IH|n k IH|x k IH|x v cold k IH|a body IHb k IH|n body IHb k IH]; intros K g B m s Et Hp HI Hb HR; cbn [go costs eth] in *.
  - intros _. by destruct HR.
  - intros _. by destruct HR.
  - intros _. by destruct HR.
  - intros Hf. by eapply IH.
  - destruct (N.ltb_spec g n).
    + rewrite bool_decide_eq_true_2 by lia. intros _. by destruct HR.
    + rewrite bool_decide_eq_false_2 by lia. intros Hf. pose proof (le_mul (g - n) g K ltac:(lia)). eapply IH; [done..|lia|done|done].
  - assert (E : current m x = default 0 (e_slots s !! x)) by (unfold current, value_in; by rewrite (r_slots _ _ _ HR)).
    rewrite <- E. intros Hf. by eapply IH.
  - assert (E1 : current m x = default 0 (e_slots s !! x)) by (unfold current, value_in; by rewrite (r_slots _ _ _ HR)).
    assert (E2 : committed m x = default 0 (c_slots b !! x)) by (unfold committed, value_in; by rewrite <- (r_base _ _ _ HR)).
    rewrite <- E1, <- E2. destruct Hp as [HK Hp]. destruct (N.leb_spec g 2300).
    { rewrite bool_decide_eq_true_2 by lia. intros _. by destruct HR. }
    destruct (store_gas (committed m x) (current m x) v) as [cost l] eqn:Es.
    pose proof (N.mul_le_mono_r 199 K g HK) as HKg.
    destruct (store_changes B m x v g cost l HI ltac:(done) Es ltac:(rewrite Et; lia)) as (m1 & Ea & Hc & Hs1 & Hu1 & Hr1 & Hg1 & Ho & Hi).
    rewrite Ea, <- Hg1. set (cost' := if cold then cost + 2100 else cost).
    assert (Ecost : cost + (if cold then 2100 else 0) = cost') by (unfold cost'; destruct cold; lia). rewrite Ecost.
    assert (Hc' : cost <= cost' <= cost + 2100) by (unfold cost'; destruct cold; lia).
    clearbody cost'. destruct HR as [R1 R2 R3 R4 R5].
    assert (Hbase : ∀ c, base (Path c (pt_up m)) = b) by (intros c; rewrite <- R5; unfold base; simpl; by destruct (pt_up m) as [|[??]?]).
    destruct (N.ltb_spec g cost').
    + rewrite bool_decide_eq_true_2 by lia. intros _. split; [done|]. split; [done|]. split; [|done].
      specialize (Hbase (pt_cur m1)). rewrite <- Hu1 in Hbase. by destruct m1.
    + rewrite bool_decide_eq_false_2 by lia. intros Hf.
      pose proof (N.mul_le_mono_r 199 K cost' HK) as HKc. pose proof (le_mul cost cost' 199 ltac:(lia)) as Hcc.
      assert (HI' : inv (B + K * cost') (write_slot m1 x v)) by (eapply inv_more; [exact Hi|]; rewrite N.min_l by lia; lia).
      assert (Hadd : K * cost' + K * (g - cost') = K * g) by (rewrite <- N.mul_add_distr_l; f_equal; lia).
      eapply IH; [done|done|exact HI'|lia| |done]. split; simpl.
      * by rewrite Hs1, R1.
      * by rewrite Hr1, R2.
      * by rewrite Hu1.
      * by rewrite Hu1.
      * unfold write_slot, pt_set. rewrite Hu1. apply Hbase.
  - destruct Hp as [Hp1 Hp2]. set (g1 := N.min a g). assert (Hg1 : g1 <= g) by (unfold g1; lia). clearbody g1.
    pose proof (le_mul g1 g K Hg1) as HK1.
    assert (Hf : good K B g1 (in_frame (go 2300 body g1) m)) by (apply good_frame; [done|]; intros m1 H1; eapply go_good; [done..|lia]).
    assert (Hb1 : ∀ m1, inv B m1 → rel b m1 s → (eth (c_slots b) body g1 s).2 = false → agrees b (eth (c_slots b) body g1 s) (go 2300 body g1 m1)).
    { intros m1 H1 H2 H3. eapply IHb; [done..|lia|done|done]. }
    destruct (eth (c_slots b) body g1 s) as [[[ok r] s1] f] eqn:Eb.
    destruct ok; [|by destruct (eth (c_slots b) (k false r) _ s) as [[[??]?]?]; simpl; rewrite orb_true_r].
    destruct (eth (c_slots b) (k true r) (g - g1 + r) s1) as [[[ok2 r2] s2] f2] eqn:E2. cbn [snd negb]. intros Hff.
    destruct f; [done|]. destruct f2; [done|].
    assert (HA : agrees b (true, r, s1, false) (in_frame (go 2300 body g1) m)).
    { unfold in_frame. pose proof (rel_snapshot _ _ _ HR) as HR1. pose proof (inv_snapshot _ _ HI) as HI1. destruct (pt_snapshot m) as [m1 id].
      specialize (Hb1 m1 HI1 HR1 eq_refl). simpl in *. destruct (go 2300 body g1 m1) as [ok' r' m2| | |]; try done. destruct Hb1 as (-> & ?). done. }
    destruct (in_frame (go 2300 body g1) m) as [ok' r' m'| | |]; try done. destruct HA as (-> & -> & Hbs & HR'). destruct Hf as [Hr Hi].
    assert (Hadd : K * (g1 - r) + K * (g - g1 + r) = K * g) by (rewrite <- N.mul_add_distr_l; f_equal; lia).
    pose proof (IH true r K (g - g1 + r) _ _ s1 Et (Hp2 true r) Hi ltac:(lia) (HR' eq_refl)) as Hg. rewrite E2 in Hg. by specialize (Hg eq_refl).
  - destruct Hp as [(K' & Hp1 & HK) Hp2]. destruct (N.ltb_spec g n).
    { rewrite bool_decide_eq_true_2 by lia. intros _. by destruct HR. }
    rewrite bool_decide_eq_false_2 by lia.
    assert (Hadd : K * n + K * (g - n) = K * g) by (rewrite <- N.mul_add_distr_l; f_equal; lia).
    assert (Hf : good K' B token_gas (in_frame (go 2300 body token_gas) m)) by (apply good_frame; [done|]; intros m1 H1; eapply go_good; [done..|lia]).
    assert (Hb1 : ∀ m1, inv B m1 → rel b m1 s → (eth (c_slots b) body token_gas s).2 = false → agrees b (eth (c_slots b) body token_gas s) (go 2300 body token_gas m1)).
    { intros m1 H1 H2 H3. eapply IHb; [done..|lia|done|done]. }
    destruct (eth (c_slots b) body token_gas s) as [[[ok r] s1] f] eqn:Eb. destruct ok; [|done].
    destruct (eth (c_slots b) k (g - n) s1) as [[[ok2 r2] s2] f2] eqn:E2. cbn [snd]. intros Hff. destruct f; [done|]. destruct f2; [done|].
    assert (HA : agrees b (true, r, s1, false) (in_frame (go 2300 body token_gas) m)).
    { unfold in_frame. pose proof (rel_snapshot _ _ _ HR) as HR1. pose proof (inv_snapshot _ _ HI) as HI1. destruct (pt_snapshot m) as [m1 id].
      specialize (Hb1 m1 HI1 HR1 eq_refl). simpl in *. destruct (go 2300 body token_gas m1) as [ok' r' m2| | |]; try done. destruct Hb1 as (-> & ?). done. }
    destruct (in_frame (go 2300 body token_gas) m) as [ok' r' m'| | |]; try done. destruct HA as (-> & -> & Hbs & HR'). destruct Hf as [Hr Hi].
    pose proof (le_mul (token_gas - r) token_gas K' ltac:(lia)) as HK'.
    assert (HI' : inv (B + K * n) m') by (eapply inv_more; [exact Hi|lia]).
    pose proof (IH K (g - n) _ _ s1 Et Hp2 HI' ltac:(lia) (HR' eq_refl)) as Hg. rewrite E2 in Hg. by specialize (Hg eq_refl).
Qed.
Lemma flush_live (u : list (bool * cell)) : Forall (fun e => e.1 = true) u → ∀ c, pt_flush c u = c.
Proof. induction u as [|[f c'] u IH]; intros Hu c; [done|]. apply Forall_cons in Hu as [Hf Hu]. simpl in *. subst f. by apply IH. Qed.
