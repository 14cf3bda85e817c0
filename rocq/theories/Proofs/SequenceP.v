From Verif.Base Require Import Prelude.
From Verif.Model Require Import Sequence.
From Verif.Spec Require Import SequenceSpec.
Local Open Scope Z_scope.

Lemma count_app {A} `{EqDecision A} (x : A) l1 l2 : count x (l1 ++ l2) = count x l1 + count x l2.
Proof. induction l1 as [|y l IH]; cbn; [done|]. rewrite IH. case_decide; lia. Qed.
Lemma count_nonneg {A} `{EqDecision A} (x : A) l : 0 <= count x l.
Proof. induction l as [|y l IH]; cbn; [lia|]. case_decide; lia. Qed.
Lemma count_pos {A} `{EqDecision A} (x : A) l : x ∈ l -> 1 <= count x l.
Proof.
  induction l as [|y l IH]; [intros Hx; apply elem_of_nil in Hx; done|]. intros Hx.
  pose proof (count_nonneg x l). apply elem_of_cons in Hx as [->|Hx]; cbn.
  - rewrite decide_True by done. lia.
  - specialize (IH Hx). case_decide; lia.
Qed.
Lemma count_zero {A} `{EqDecision A} (x : A) l : x ∉ l -> count x l = 0.
Proof.
  induction l as [|y l IH]; cbn; [done|]. intros Hx. apply not_elem_of_cons in Hx as [H1 H2].
  rewrite decide_False by congruence. rewrite IH; done.
Qed.
Lemma count_nodup {A} `{EqDecision A} (x : A) l : NoDup l -> count x l = if decide (x ∈ l) then 1 else 0.
Proof.
  induction 1 as [|y l Hn Hnd IH]; cbn; [done|]. rewrite IH. destruct (decide (y = x)) as [->|Hne].
  - rewrite (decide_False (P := x ∈ l)) by done. rewrite decide_True by left. done.
  - destruct (decide (x ∈ l)) as [Hi|Hi].
    + rewrite decide_True by (right; done). done.
    + rewrite decide_False; [done|]. intros Hx. apply elem_of_cons in Hx as [?|?]; congruence.
Qed.

Lemma elem_of_filter_ne {A} `{EqDecision A} (x y : A) l :
  y ∈ List.filter (fun z => negb (bool_decide (z = x))) l <-> y ∈ l /\ y <> x.
Proof.
  rewrite !elem_of_list_In, filter_In. destruct (bool_decide_reflect (y = x)); cbn; naive_solver.
Qed.
Lemma elem_of_dedup {A} `{EqDecision A} (x : A) l : x ∈ dedup l <-> x ∈ l.
Proof.
  induction l as [|y l IH]; cbn; [done|]. rewrite !elem_of_cons, elem_of_filter_ne, IH.
  destruct (decide (x = y)); naive_solver.
Qed.
Lemma NoDup_filter_list {A} (f : A -> bool) l : NoDup l -> NoDup (List.filter f l).
Proof.
  induction 1 as [|x l Hx _ IH]; cbn; [constructor|]. destruct (f x); [|done]. constructor; [|done].
  rewrite elem_of_list_In, filter_In. rewrite elem_of_list_In in Hx. naive_solver.
Qed.
Lemma NoDup_dedup {A} `{EqDecision A} (l : list A) : NoDup (dedup l).
Proof.
  induction l as [|x l IH]; cbn; [constructor|]. constructor; [rewrite elem_of_filter_ne; naive_solver|].
  apply NoDup_filter_list. done.
Qed.
Lemma count_dedup_le {A B} `{EqDecision A} `{EqDecision B} (f : A -> B) x l :
  count x (map f (dedup l)) <= count x (map f l).
Proof.
  assert (Hf : forall g l', count x (map f (List.filter g l')) <= count x (map f l')).
  { intros g l'. induction l' as [|y l' IH]; [cbn; lia|]. cbn [List.filter].
    destruct (g y); cbn; case_decide; lia. }
  induction l as [|y l IH]; [cbn; lia|]. cbn. pose proof (Hf (fun z => negb (bool_decide (z = y))) (dedup l)). lia.
Qed.

Lemma seqv_bump d st a b : seqv (bump d st a) b = seqv st b + if decide (a = b) then d else 0.
Proof.
  unfold bump. destruct (decide (a = b)) as [->|Hne].
  - unfold seqv at 1. simplify_map_eq. done.
  - unfold seqv. rewrite lookup_insert_ne by done. lia.
Qed.
Lemma lookup_bump d st a b : bump d st a !! b = if decide (a = b) then Some (seqv st a + d) else st !! b.
Proof. unfold bump. case_decide; simplify_map_eq; done. Qed.
Lemma seqv_bumps d l : forall st b, seqv (fold_left (bump d) l st) b = seqv st b + d * count b l.
Proof.
  induction l as [|a l IH]; intros st b; cbn; [lia|]. rewrite IH, seqv_bump. case_decide; lia.
Qed.
Lemma seqv_effects xs : forall st b, seqv (fst (run_effects st xs)) b = seqv st b + count b (map eff_addr xs).
Proof.
  induction xs as [|x xs IH]; intros st b; [cbn; lia|].
  cbn [run_effects]. destruct (run_effect st x) as [st1 d1] eqn:E.
  specialize (IH st1 b). destruct (run_effects st1 xs) as [st2 d2]. cbn [fst] in *. rewrite IH.
  destruct x as [a|a]; cbn in E; injection E as <- <-; rewrite seqv_bump; cbn; lia.
Qed.

(** Deployments of a run: each at a nonce between the start and the end value of its account,
    and no two the same. *)
Lemma effects_deploy xs : forall st st' ds, run_effects st xs = (st', ds) ->
  (forall a n, (a, n) ∈ ds -> seqv st a <= n < seqv st' a) /\ NoDup ds.
Proof.
  induction xs as [|x xs IH]; intros st st' ds; cbn [run_effects].
  - intros [= <- <-]. split; [|constructor]. intros a n Hx. apply elem_of_nil in Hx. done.
  - destruct (run_effect st x) as [st1 d1] eqn:E. destruct (run_effects st1 xs) as [st2 d2] eqn:E2.
    intros [= <- <-]. destruct (IH _ _ _ E2) as [H1 H2].
    assert (Hmono : forall b, seqv st1 b <= seqv st2 b).
    { intros b. pose proof (seqv_effects xs st1 b) as Hs. rewrite E2 in Hs. cbn in Hs. pose proof (count_nonneg b (map eff_addr xs)). lia. }
    assert (Hst : forall b, seqv st b <= seqv st1 b).
    { intros b. destruct x; cbn in E; injection E as <- <-; rewrite seqv_bump; case_decide; lia. }
    assert (Hd1 : forall a n, (a, n) ∈ d1 -> n = seqv st a /\ seqv st1 a = seqv st a + 1).
    { intros a n Hin. destruct x as [b|b]; cbn in E; injection E as <- <-.
      - apply elem_of_nil in Hin. done.
      - apply elem_of_list_singleton in Hin. injection Hin as -> ->. rewrite seqv_bump, decide_True by done. done. }
    split.
    + intros a n Hin. apply elem_of_app in Hin as [Hin|Hin].
      * apply Hd1 in Hin as [-> Hs]. specialize (Hmono a). lia.
      * apply H1 in Hin. specialize (Hst a). lia.
    + apply NoDup_app. split; [|split; [|done]].
      * destruct x; cbn in E; injection E as <- <-; [constructor|apply NoDup_singleton].
      * intros [a n] Ha Hb. apply Hd1 in Ha as [-> Hs]. apply H1 in Hb. lia.
Qed.

Section seq.
Variable decode : string -> bytes.

Lemma seqv_ante t st st1 b : ante decode true st t = Some st1 ->
  seqv st1 b = seqv st b + count b (signers decode t) - count b (map decode (evm_senders t)).
Proof.
  unfold ante. destruct (sigs_ok decode st t); [|done]. intros [= <-]. unfold increment.
  rewrite !seqv_bumps. lia.
Qed.

Lemma evm_sender_signer m s : evm_sender m = Some s -> decode s ∈ msg_signers decode m.
Proof. destruct m; cbn; try done; intros [= ->]; left. Qed.
Lemma evm_senders_signers t s : s ∈ evm_senders t -> decode s ∈ signers decode t.
Proof.
  intros Hs. unfold evm_senders in Hs. rewrite elem_of_dedup in Hs. apply elem_of_list_omap in Hs as (m & Hm & Hs).
  unfold signers. rewrite elem_of_dedup, elem_of_app. left. apply elem_of_list_In, in_concat.
  exists (msg_signers decode m). split; [apply in_map; apply elem_of_list_In; done|].
  apply elem_of_list_In, evm_sender_signer. done.
Qed.

(** What one message advances, apart from nested effects. *)
Definition own (m : msg) : list bytes :=
  match m with MCall s => [decode s] | MCreate s | MCreate2 s => [evm_addr (decode s)] | MOther _ => [] end.
Lemma count_all_effects b (ms : list msg) : forall extras, length extras = length ms ->
  count b (map eff_addr (concat (zip_with (msg_effects decode) ms extras))) =
  count b (concat (map own ms)) + count b (map eff_addr (concat extras)).
Proof.
  induction ms as [|m ms IH]; intros [|e es] Hl; cbn in Hl; try lia; [done|].
  cbn [zip_with concat map]. rewrite !map_app, !count_app. rewrite IH by lia.
  assert (count b (map eff_addr (msg_effects decode m e)) = count b (own m) + count b (map eff_addr e)).
  { destruct m; cbn; lia. }
  lia.
Qed.
(** With 20-byte senders this is once per EVM message. *)
Lemma own_senders t : senders20 decode t -> concat (map own (t_msgs t)) = map decode (omap evm_sender (t_msgs t)).
Proof.
  unfold senders20. induction (t_msgs t) as [|m ms IH]; [done|]. intros H.
  assert (IH' := IH (fun m' s Hm => H m' s (elem_of_list_further _ _ _ Hm))).
  cbn. rewrite IH'. pose proof (fun s => H m s (elem_of_list_here _ _)) as Hm.
  destruct m; cbn in *; try done; unfold evm_addr; rewrite decide_True by (apply Hm; done); done.
Qed.

(** Sequences after delivery. *)
Lemma deliver_seq st t o st' ds b : outcome_fits t o -> deliver decode st t o = Some (st', ds) ->
  seqv st' b = match o with
    | Succeeded extras => seqv st b + count b (signers decode t) - count b (map decode (evm_senders t))
                          + count b (concat (map own (t_msgs t))) + count b (map eff_addr (concat extras))
    | Failed true => seqv st b + count b (signers decode t)
    | Failed false => seqv st b + count b (signers decode t) - count b (map decode (evm_senders t))
    end.
Proof.
  intros Hfit. unfold deliver. destruct (ante decode true st t) as [st1|] eqn:E; [|done].
  pose proof (seqv_ante t st st1 b E) as H1. destruct o as [ex|[]].
  - intros [= Hs]. unfold all_effects in Hs. pose proof (seqv_effects (concat (zip_with (msg_effects decode) (t_msgs t) ex)) st1 b) as H2.
    rewrite Hs in H2. cbn [fst] in H2. rewrite count_all_effects in H2 by exact Hfit. lia.
  - intros [= <- _]. unfold post_failed. rewrite seqv_bumps. lia.
  - intros [= <- _]. lia.
Qed.

Lemma deliver_mono st t o st' ds b : senders20 decode t -> outcome_fits t o -> o <> Failed false ->
  deliver decode st t o = Some (st', ds) ->
  seqv st b + count b (signers decode t) <= seqv st' b.
Proof.
  intros H20 Hfit Hf Hd. rewrite (deliver_seq _ _ _ _ _ b Hfit Hd). destruct o as [ex|[]]; [|lia|done].
  rewrite (own_senders t H20). unfold evm_senders. pose proof (count_dedup_le decode b (omap evm_sender (t_msgs t))).
  pose proof (count_nonneg b (map eff_addr (concat ex))). lia.
Qed.

Lemma hist_mono st st' ds : hist decode (senders20 decode) st st' ds -> forall b, seqv st b <= seqv st' b.
Proof.
  induction 1 as [|st t o st1 d1 st2 d2 HP Hfit Hf Hd _ IH]; intros b; [lia|].
  pose proof (deliver_mono st t o st1 d1 b HP Hfit Hf Hd). pose proof (count_nonneg b (signers decode t)).
  specialize (IH b). lia.
Qed.

Lemma sigs_ok_iff st t evm :
  ante decode evm st t <> None <->
  length (t_seqs t) = length (signers decode t) /\
  forall i a q, signers decode t !! i = Some a -> t_seqs t !! i = Some q -> st !! a = Some q.
Proof.
  unfold ante, sigs_ok. generalize (increment decode evm st t). intros inc. generalize (signers decode t) as l. intros l.
  generalize (t_seqs t) as qs. intros qs.
  assert (H : bool_decide (length qs = length l) && forallb (fun p => match st !! fst p with Some s => s =? snd p | None => false end) (zip l qs) = true
    <-> length qs = length l /\ forall i a q, l !! i = Some a -> qs !! i = Some q -> st !! a = Some q).
  { rewrite andb_true_iff, bool_decide_eq_true, forallb_forall. split; intros [Hl H]; (split; [done|]).
    - intros i a q Ha Hq. specialize (H (a, q)). cbn in H.
      assert (Hin : In (a, q) (zip l qs)).
      { apply elem_of_list_In, elem_of_list_lookup. exists i. apply lookup_zip_with_Some. eauto. }
      specialize (H Hin). destruct (st !! a); [|done]. apply Z.eqb_eq in H. congruence.
    - intros [a q] Hin. apply elem_of_list_In, elem_of_list_lookup in Hin as (i & Hi).
      apply lookup_zip_with_Some in Hi as (a' & q' & [= -> ->] & Ha & Hq). cbn. rewrite (H i a' q' Ha Hq). apply Z.eqb_refl. }
  destruct (bool_decide _ && _); split; intros H1.
  - apply H. done.
  - done.
  - done.
  - apply H in H1. done.
Qed.

Lemma sigs_ok_first st t a : sigs_ok decode st t = true -> signers decode t !! 0%nat = Some a ->
  exists s, t_seqs t !! 0%nat = Some s /\ st !! a = Some s.
Proof.
  unfold sigs_ok. intros H Ha. apply andb_true_iff in H as [Hl Hz]. apply bool_decide_eq_true in Hl.
  destruct (signers decode t) as [|a' l]; [done|]. injection Ha as ->. destruct (t_seqs t) as [|s ss]; [done|].
  exists s. split; [done|]. cbn in Hz. apply andb_true_iff in Hz as [Hz _].
  destruct (st !! a); [|done]. apply Z.eqb_eq in Hz. congruence.
Qed.

Lemma no_replay st t o st1 d1 st2 d2 : senders20 decode t -> outcome_fits t o -> o <> Failed false ->
  signers decode t <> [] ->
  deliver decode st t o = Some (st1, d1) -> hist decode (senders20 decode) st1 st2 d2 ->
  forall evm, ante decode evm st2 t = None.
Proof.
  intros H20 Hfit Hf Hne Hd Hh evm. unfold ante. destruct (sigs_ok decode st2 t) eqn:E2; [|done]. exfalso.
  destruct (signers decode t) as [|a l] eqn:Es; [done|].
  assert (Ha : signers decode t !! 0%nat = Some a) by (rewrite Es; done).
  assert (E1 : sigs_ok decode st t = true).
  { unfold deliver, ante in Hd. destruct (sigs_ok decode st t); done. }
  destruct (sigs_ok_first _ _ _ E1 Ha) as (s1 & Hs1 & Hl1). destruct (sigs_ok_first _ _ _ E2 Ha) as (s2 & Hs2 & Hl2).
  pose proof (deliver_mono st t o st1 d1 a H20 Hfit Hf Hd) as Hm. pose proof (hist_mono _ _ _ Hh a) as Hm2.
  assert (1 <= count a (signers decode t)). { apply count_pos. rewrite Es. left. }
  unfold seqv in *. rewrite Hl1 in Hm. rewrite Hl2 in Hm2. cbn in *. assert (s1 = s2) by congruence. lia.
Qed.

(** Deployments *)
Lemma NoDup_evm_senders t : canonical decode t -> NoDup (map decode (evm_senders t)).
Proof.
  intros Hc. unfold canonical in Hc.
  assert (Hsub : forall s, s ∈ evm_senders t -> s ∈ omap evm_sender (t_msgs t)) by (intros s; unfold evm_senders; rewrite elem_of_dedup; done).
  assert (Hn : NoDup (evm_senders t)) by apply NoDup_dedup.
  revert Hsub. induction Hn as [|s l Hs Hn IH]; intros Hsub; cbn; [constructor|]. constructor.
  - intros Hx. apply elem_of_list_In, in_map_iff in Hx as (s' & Hd & Hs'). apply elem_of_list_In in Hs'.
    assert (s' = s) by (apply Hc; [apply Hsub; right; done|apply Hsub; left|done]). congruence.
  - apply IH. intros s' Hs'. apply Hsub. right. done.
Qed.
Lemma ante_start st t st1 b : canonical decode t -> ante decode true st t = Some st1 -> seqv st b <= seqv st1 b.
Proof.
  intros Hc Ha. rewrite (seqv_ante _ _ _ b Ha).
  pose proof (NoDup_evm_senders t Hc) as Hnd.
  rewrite (count_nodup b _ Hnd). rewrite (count_nodup b (signers decode t)) by apply NoDup_dedup.
  destruct (decide (b ∈ map decode (evm_senders t))) as [Hi|Hi]; [|case_decide; lia].
  rewrite decide_True; [lia|]. apply elem_of_list_In, in_map_iff in Hi as (s & <- & Hs). apply elem_of_list_In in Hs.
  apply evm_senders_signers. done.
Qed.

Lemma hist_deploy st st' ds : hist decode (fun t => senders20 decode t /\ canonical decode t) st st' ds ->
  (forall a n, (a, n) ∈ ds -> seqv st a <= n < seqv st' a) /\ NoDup ds.
Proof.
  induction 1 as [|st t o st1 d1 st2 d2 [HP1 HP2] Hfit Hf Hd Hh [IH1 IH2]].
  - split; [|constructor]. intros a n Hx. apply elem_of_nil in Hx. done.
  - assert (Hmono : forall b, seqv st b <= seqv st1 b).
    { intros b. pose proof (deliver_mono st t o st1 d1 b HP1 Hfit Hf Hd). pose proof (count_nonneg b (signers decode t)). lia. }
    assert (Hmono2 : forall b, seqv st1 b <= seqv st2 b).
    { apply (hist_mono st1 st2 d2). clear -Hh. induction Hh as [|st t o st1 d1 st2 d2 [? ?]]; [constructor|]. econstructor; eauto. }
    assert (Hd1 : (forall a n, (a, n) ∈ d1 -> seqv st a <= n < seqv st1 a) /\ NoDup d1).
    { unfold deliver in Hd. destruct (ante decode true st t) as [sa|] eqn:Ea; [|done].
      destruct o as [ex|[]].
      - assert (Hr : run_effects sa (all_effects decode t ex) = (st1, d1)) by congruence.
        destruct (effects_deploy _ _ _ _ Hr) as [H1 H2].
        split; [|done]. intros a n Hin. apply H1 in Hin. pose proof (ante_start st t sa a HP2 Ea). lia.
      - injection Hd as <- <-. split; [|constructor]. intros a n Hx. apply elem_of_nil in Hx. done.
      - done. }
    destruct Hd1 as [H1 H2]. split.
    + intros a n Hin. specialize (Hmono a). specialize (Hmono2 a). apply elem_of_app in Hin as [Hin|Hin].
      * apply H1 in Hin. lia.
      * apply IH1 in Hin. lia.
    + apply NoDup_app. split; [done|]. split; [|done]. intros [a n] Ha Hb. apply H1 in Ha. apply IH1 in Hb. lia.
Qed.
End seq.
