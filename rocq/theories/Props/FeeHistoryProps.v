(** C47: eth_feeHistory (FeeHistory.v). *)
From Verif.Base Require Import Prelude.
From Verif.Model Require Import FeeHistory.
From Verif.Proofs Require Import FeeHistoryP.
From Coq Require Import Sorting.Sorted.
Open Scope N_scope.

(** ** Which requests are refused *)

(** Percentiles a caller may ask for: at most 100 of them, each within 0..100, strictly increasing. *)
Definition percentiles_fine (ps : list Q) : Prop :=
  (length ps ≤ 100)%nat ∧
  (∀ p, p ∈ ps → Qle 0 p ∧ Qle p 100) ∧
  (∀ i p q, ps !! i = Some p → ps !! S i = Some q → Qlt p q).
Lemma Qle_bool_false p q : Qle_bool p q = false ↔ Qlt q p.
Proof.
  split.
  - intros H. destruct (Qlt_le_dec q p) as [|Hle]; [done|]. apply Qle_bool_iff in Hle. congruence.
  - intros H. destruct (Qle_bool p q) eqn:E; [|done]. apply Qle_bool_iff in E.
    by apply Qlt_not_le in H.
Qed.
Lemma percentiles_ok_spec ps prev :
  percentiles_ok prev ps = true ↔
  (∀ p, p ∈ ps → Qle 0 p ∧ Qle p 100) ∧
  (∀ i p q, ps !! i = Some p → ps !! S i = Some q → Qlt p q) ∧
  (∀ p q, prev = Some p → ps !! 0%nat = Some q → Qlt p q).
Proof.
  revert prev. induction ps as [|x ps IH]; intros prev; cbn [percentiles_ok].
  - split; [intros _|done]. split_and!; [|done|done]. intros p Hp. by apply elem_of_nil in Hp.
  - rewrite !andb_true_iff, IH, !Qle_bool_iff. split.
    + intros [[[H1 H2] H3] (H4 & H5 & H6)]. split_and!.
      * intros p. rewrite elem_of_cons. intros [->|?]; [done|by apply H4].
      * intros [|i] p q; cbn; [intros [= <-] ?; by apply H6|by apply H5].
      * intros p q -> [= <-]. by apply negb_true_iff, Qle_bool_false in H3.
    + intros (H1 & H2 & H3). split_and!.
      * apply H1. left.
      * apply H1. left.
      * destruct prev as [p|]; [|done]. apply negb_true_iff, Qle_bool_false. by apply H3.
      * intros p Hp. apply H1. by right.
      * intros i p q Hp Hq. by apply (H2 (S i)).
      * intros p q [= <-] Hq. by apply (H2 0%nat).
Qed.
(** C47. A request for at least one block is refused for its percentiles exactly when they are not
    acceptable, whatever else the request says. *)
Theorem C47_percentiles e blocks reqEnd ps nd c a x' :
  0 < blocks → fee_history e blocks reqEnd ps (nd, c) a x' →
  (a = FError EPercentile ↔ ¬ percentiles_fine ps).
Proof.
  intros Hb H. split.
  - intros ->. inversion H as [? ? ? Hp| | |? ? ? ? ? ? ? ? ? ? Hfin]; subst.
    + intros (F1 & F2 & F3). revert Hp. unfold plan, resolve_block_range.
      destruct (N.ltb_spec blocks 1); [lia|]. destruct (Nat.ltb_spec 100 (length ps)); [lia|].
      assert (percentiles_ok None ps = true) as ->. { by apply percentiles_ok_spec. }
      cbn. repeat case_match; congruence.
    + unfold finish in *. by case_match.
  - intros Hps.
    assert (Hp : ∀ nd, plan e nd blocks reqEnd ps = RErr EPercentile).
    { intros nd'. unfold plan. destruct (N.ltb_spec blocks 1); [lia|].
      destruct (Nat.ltb_spec 100 (length ps)); [done|].
      destruct (percentiles_ok None ps) eqn:E; [|done].
      exfalso. apply Hps. apply percentiles_ok_spec in E as (?&?&?). done. }
    inversion H; subst; rewrite Hp in *; congruence.
Qed.
(** C47. With acceptable percentiles and the head indexed, a request for at least one block is
    refused exactly when its last block lies beyond the head. *)
Theorem C47_beyond_head e blocks reqEnd ps nd c a x' :
  fnode_reach e (nd, c) → is_Some (fn_index nd !! fn_height nd) →
  0 < blocks → percentiles_fine ps → fee_history e blocks reqEnd ps (nd, c) a x' →
  (a = FError EBeyondHead ↔ (Z.of_N (fn_height nd) < reqEnd)%Z) ∧ a ≠ FCrash.
Proof.
  intros Hr [hd Hhd] Hb (F1 & F2 & F3) H.
  destruct (reach_ok _ _ Hr) as [Hok _]. cbn in Hok.
  assert (Hp : plan e nd blocks reqEnd ps = RErr EBeyondHead ↔ (Z.of_N (fn_height nd) < reqEnd)%Z).
  { unfold plan, resolve_block_range.
    destruct (N.ltb_spec blocks 1); [lia|]. destruct (Nat.ltb_spec 100 (length ps)); [lia|].
    assert (percentiles_ok None ps = true) as ->. { by apply percentiles_ok_spec. }
    cbn [negb]. unfold header_by_number, resolve_nr. cbn [Z.ltb]. change (-2 <? 0)%Z with true. cbn. rewrite Hhd. cbn.
    destruct (Hok _ _ Hhd) as (-> & _). destruct (Z.ltb_spec (Z.of_N (fn_height nd)) reqEnd); [done|].
    split; [|lia]. repeat case_match; done. }
  assert (Hpan : plan e nd blocks reqEnd ps ≠ RPanic).
  { unfold plan, resolve_block_range.
    destruct (N.ltb_spec blocks 1); [lia|]. destruct (Nat.ltb_spec 100 (length ps)); [lia|].
    unfold header_by_number, resolve_nr. cbn [Z.ltb]. change (-2 <? 0)%Z with true. cbn. rewrite Hhd. cbn.
    repeat case_match; done. }
  split.
  - rewrite <- Hp. inversion H; subst; unfold finish; repeat case_match; split; congruence.
  - inversion H; subst; [done|done|done|]. unfold finish. by case_match.
Qed.
(** C47. Asking for no block gives an empty answer, whatever the rest of the request. *)
Theorem C47_no_blocks e reqEnd ps nd c a x' :
  fee_history e 0 reqEnd ps (nd, c) a x' → a = FEmpty.
Proof. inversion 1 as [? ? ? Hp|? ? Hp|? ? ? Hp|? ? ? ? ? ? Hp Hn]; subst; cbn in Hp; [done|done|done|]. injection Hp as <- <-. lia. Qed.

(** ** The range *)

(** The block the range should end with, and how many blocks it should have: the requested
    number, but no more than configured and not more than there are numbers up to the last. *)
Definition wanted_last (nd : fnode) (reqEnd : Z) : N :=
  if (reqEnd <? 0)%Z then fn_height nd else Z.to_N reqEnd.
Definition wanted_blocks (e : fenv) (nd : fnode) (blocks : N) (reqEnd : Z) (ps : list Q) : N :=
  N.min (N.min blocks (match ps with [] => fe_max_headers e | _ => fe_max_blocks e end))
        (wanted_last nd reqEnd + 1).

Lemma plan_range e nd blocks reqEnd ps last n :
  fnode_ok nd → plan e nd blocks reqEnd ps = RRange last n → 0 < n →
  last = wanted_last nd reqEnd ∧ n = wanted_blocks e nd blocks reqEnd ps ∧
  (reqEnd <= Z.of_N (fn_height nd))%Z ∧ percentiles_fine ps ∧ is_Some (fn_index nd !! fn_height nd).
Proof.
  intros Hok. unfold plan, resolve_block_range.
  destruct (N.ltb_spec blocks 1); [intros [= <- <-]; lia|].
  destruct (Nat.ltb_spec 100 (length ps)) as [|Hlen]; [done|].
  destruct (percentiles_ok None ps) eqn:Eps; [|done]. cbn [negb].
  apply percentiles_ok_spec in Eps as (Hp1 & Hp2 & _).
  unfold header_by_number, resolve_nr. change (-2 <? 0)%Z with true. cbn.
  destruct (fn_index nd !! fn_height nd) as [hd|] eqn:Ehd; [|done]. cbn.
  destruct (Hok _ _ Ehd) as (-> & _).
  destruct (Z.ltb_spec (Z.of_N (fn_height nd)) reqEnd) as [|Hbh]; [done|].
  set (cap := match ps with [] => _ | _ => _ end).
  destruct (N.eqb_spec (if cap <? blocks then cap else blocks) 0); [intros [= <- <-]; lia|].
  intros [= E1 E2] Hn. unfold wanted_blocks. fold cap.
  assert (Hl : last = wanted_last nd reqEnd). { rewrite <- E1. unfold wanted_last. destruct (Z.ltb_spec reqEnd 0); lia. }
  split; [done|]. split; [|done].
  rewrite <- Hl, <- E2, <- E1. revert E2.
  destruct (N.ltb_spec cap blocks); destruct (Z.ltb_spec reqEnd 0); case_match; lia.
Qed.

(** Everything about an answer with columns, in one statement. *)
Lemma history_facts e blocks reqEnd ps nd c oldest reward bases ratio nd' c' :
  fnode_reach e (nd, c) →
  fee_history e blocks reqEnd ps (nd, c) (FHistory oldest reward bases ratio) (nd', c') →
  let last := wanted_last nd reqEnd in let n := wanted_blocks e nd blocks reqEnd ps in
  0 < n ∧ oldest = last + 1 - n ∧ n <= last + 1 ∧
  (reqEnd <= Z.of_N (fn_height nd))%Z ∧ percentiles_fine ps ∧ fnode_ok nd ∧ fnode_ok nd' ∧ grows nd nd' ∧
  ∃ got m, NoDup got.*1 ∧ (∀ i, i ∈ got.*1 ↔ (i < N.to_nat n)%nat) ∧
    (∀ i r, (i, Some r) ∈ got → fetch e nd' (num oldest i) ps = Some r) ∧
    (∀ i, (i, None) ∈ got → fetch e nd (num oldest i) ps = None) ∧
    m = w_missing (rows_of (N.to_nat n) got) ∧ (0 < m)%nat ∧
    reward = match ps with [] => None | _ => Some (take m (w_reward (rows_of (N.to_nat n) got))) end ∧
    bases = take (S m) (w_base (rows_of (N.to_nat n) got)) ∧
    ratio = take m (w_ratio (rows_of (N.to_nat n) got)).
Proof.
  intros Hr H. destruct (reach_ok _ _ Hr) as [Hok Hc]. cbn in Hok, Hc.
  inversion H as [| | |? ? last n ? s' Hp Hn Hrun Hl]; subst.
  destruct (plan_range _ _ _ _ _ _ _ Hok Hp Hn) as (-> & -> & Hbh & Hps & _).
  cbn. set (n := wanted_blocks e nd blocks reqEnd ps) in *. set (last := wanted_last nd reqEnd) in *.
  assert (Hle : n <= last + 1). { unfold n, wanted_blocks. fold last. lia. }
  assert (Hrun' : rtc (fstep e ps (last + 1 - n) (last + 1 - n + n - 1) (workers n))
     (nd, FStage (last + 1 - n) [] (rows0 (N.to_nat n)) c (N.to_nat n)) (nd', s')).
  { replace (last + 1 - n + n - 1) with last by lia. done. }
  destruct (request_got _ _ _ _ _ _ _ _ Hok Hc Hn Hrun' Hl) as (Hok' & Hg & _ & got & Hrows & G1 & G2 & G3 & G4).
  match goal with Hx : finish _ _ _ = _ |- _ => rename Hx into Hfin end.
  unfold finish in Hfin. destruct (w_missing (fs_rows s')) as [|m] eqn:Em; [done|].
  injection Hfin as <- <- <- <-.
  split_and!; try done. exists got, (S m). rewrite <- Hrows. split_and!; try done. lia.
Qed.

(** C47. An answer ends no later than the requested block (the head for a block tag), starts at the
    same number for a given request, has at most the requested (and configured) number of blocks,
    and its columns fit together. *)
Theorem C47_range e blocks reqEnd ps nd c oldest reward bases ratio nd' c' :
  fnode_reach e (nd, c) →
  fee_history e blocks reqEnd ps (nd, c) (FHistory oldest reward bases ratio) (nd', c') →
  oldest = wanted_last nd reqEnd + 1 - wanted_blocks e nd blocks reqEnd ps ∧
  (0 < length ratio)%nat ∧
  oldest + N.of_nat (length ratio) <= wanted_last nd reqEnd + 1 ∧
  wanted_last nd reqEnd <= fn_height nd ∧
  N.of_nat (length ratio) <= blocks ∧
  length bases = S (length ratio) ∧
  match ps with [] => reward = None | _ => ∃ rows, reward = Some rows ∧ length rows = length ratio end.
Proof.
  intros Hr H. destruct (history_facts _ _ _ _ _ _ _ _ _ _ _ _ Hr H)
    as (Hn & -> & Hle & Hbh & Hps & _ & _ & _ & got & m & _ & _ & _ & _ & Em & Hm & -> & -> & ->).
  set (n := wanted_blocks e nd blocks reqEnd ps) in *. set (last := wanted_last nd reqEnd) in *.
  destruct (rows_lengths (N.to_nat n) got) as (L1 & L2 & L3).
  destruct (rows_missing (N.to_nat n) got) as (M1 & _). rewrite <- Em in M1.
  rewrite !take_length, L2, L3. split_and!; [done|lia|lia| |unfold n, wanted_blocks in *; lia|lia|].
  - unfold last, wanted_last. destruct (Z.ltb_spec reqEnd 0); lia.
  - destruct ps; [done|]. eexists. split; [done|]. rewrite take_length. lia.
Qed.

(** C47. When every block of the range is indexed, the answer covers the whole range: it ends
    exactly at the requested block and has as many blocks as asked for and allowed. *)
Theorem C47_complete e blocks reqEnd ps nd c a nd' c' :
  fnode_reach e (nd, c) →
  0 < blocks → 0 < match ps with [] => fe_max_headers e | _ => fe_max_blocks e end →
  percentiles_fine ps → (reqEnd <= Z.of_N (fn_height nd))%Z →
  (∀ n, 1 <= n <= fn_height nd → is_Some (fn_index nd !! n)) → 1 <= fn_height nd →
  fee_history e blocks reqEnd ps (nd, c) a (nd', c') →
  ∃ oldest reward bases ratio, a = FHistory oldest reward bases ratio ∧
    N.of_nat (length ratio) = wanted_blocks e nd blocks reqEnd ps ∧
    oldest + N.of_nat (length ratio) = wanted_last nd reqEnd + 1.
Proof.
  intros Hr Hb Hcap Hps Hbh Hall Hh H.
  destruct (reach_ok _ _ Hr) as [Hok Hc]. cbn in Hok, Hc.
  assert (Hidx : is_Some (fn_index nd !! fn_height nd)) by (apply Hall; lia).
  destruct (C47_beyond_head e blocks reqEnd ps nd c a _ Hr Hidx Hb Hps H) as [Hnb Hnc].
  pose proof (C47_percentiles _ _ _ _ _ _ _ _ Hb H) as Hnp.
  assert (Hwb : 0 < wanted_blocks e nd blocks reqEnd ps) by (unfold wanted_blocks; lia).
  inversion H as [? ? x Hp|? ? Hp|? ? last Hp|? ? last n ? s' Hp Hn Hrun Hl]; subst.
  - exfalso. destruct x; [by apply Hnp|]. destruct Hnb as [Hnb _]. specialize (Hnb eq_refl). lia.
  - done.
  - exfalso. revert Hp. unfold plan, resolve_block_range.
    destruct (N.ltb_spec blocks 1); [lia|]. destruct Hps as (P1 & P2 & P3).
    destruct (Nat.ltb_spec 100 (length ps)) as [|Hlen]; [done|].
    assert (percentiles_ok None ps = true) as -> by by apply percentiles_ok_spec. cbn [negb].
    match goal with |- context [header_by_number ?x (-2)] => destruct (header_by_number x (-2)) as [f|]; [|done] end.
    set (cap := match ps with [] => _ | _ => _ end) in *.
    destruct (Z.ltb_spec (Z.of_N (fh_number f)) reqEnd); [done|].
    destruct (N.eqb_spec (if cap <? blocks then cap else blocks) 0); [destruct (N.ltb_spec cap blocks); lia|].
    intros [= ? Hz]. revert Hz. destruct (Z.ltb_spec reqEnd 0); match goal with |- context [(?a <? ?b)%Z] => destruct (Z.ltb_spec a b) end; lia.
  - destruct (plan_range _ _ _ _ _ _ _ Hok Hp Hn) as (-> & -> & _ & _ & _).
    set (n := wanted_blocks e nd blocks reqEnd ps) in *. set (last := wanted_last nd reqEnd) in *.
    assert (Hle : n <= last + 1). { unfold n, wanted_blocks. fold last. lia. }
    assert (Hrun' : rtc (fstep e ps (last + 1 - n) (last + 1 - n + n - 1) (workers n))
     (nd, FStage (last + 1 - n) [] (rows0 (N.to_nat n)) c (N.to_nat n)) (nd', s')).
    { replace (last + 1 - n + n - 1) with last by lia. done. }
    destruct (request_got _ _ _ _ _ _ _ _ Hok Hc Hn Hrun' Hl) as (_ & _ & _ & got & Hrows & G1 & G2 & G3 & G4).
    assert (Hm : w_missing (fs_rows s') = N.to_nat n).
    { rewrite Hrows. destruct (rows_missing (N.to_nat n) got) as (M1 & M2 & [M3|M3]); [done|]. exfalso.
      assert (Hi : w_missing (rows_of (N.to_nat n) got) ∈ got.*1) by (apply elem_of_list_fmap; by eexists (_, _)).
      apply G2 in Hi. specialize (G4 _ M3). apply fetch_none in G4.
      destruct (Hall (N.max 1 (num (last + 1 - n) (w_missing (rows_of (N.to_nat n) got))))) as [b Eb]; [|congruence].
      split; [lia|]. unfold num. assert (last <= fn_height nd); [|lia].
      unfold last, wanted_last. destruct (Z.ltb_spec reqEnd 0); lia. }
    unfold finish. rewrite Hm. destruct (N.to_nat n) as [|k] eqn:Ek; [lia|].
    do 4 eexists. split; [done|]. rewrite Hrows. destruct (rows_lengths (S k) got) as (L1 & L2 & L3).
    rewrite take_length, L3. split; lia.
Qed.

(** C47. Every row shows an indexed block: the gas column the block's gas used and limit; the
    reward column one non-decreasing entry per percentile; the base-fee column either the base fee
    of the block or what EIP-1559 would make of the previous block's; and the extra last entry
    what EIP-1559 makes of the last block shown. *)
Definition shown (nd : fnode) (n : N) : option fhead := fb_head <$> fn_index nd !! N.max 1 n.
Theorem C47_rows e blocks reqEnd ps nd c oldest reward bases ratio nd' c' i :
  fnode_reach e (nd, c) →
  fee_history e blocks reqEnd ps (nd, c) (FHistory oldest reward bases ratio) (nd', c') →
  (i < length ratio)%nat →
  ∃ h, shown nd' (oldest + N.of_nat i) = Some h ∧
    ratio !! i = Some (Some (fh_used h, fh_limit h)) ∧
    (bases !! i = Some (Some (fh_base h)) ∨
     ∃ j h', i = S j ∧ shown nd' (oldest + N.of_nat j) = Some h' ∧ bases !! i = Some (Some (calc_base_fee h'))) ∧
    (S i = length ratio → bases !! S i = Some (Some (calc_base_fee h))) ∧
    (∀ rows, reward = Some rows → ∃ row, rows !! i = Some (Some row) ∧ length row = length ps ∧ StronglySorted Z.le row).
Proof.
  intros Hr H Hi. destruct (history_facts _ _ _ _ _ _ _ _ _ _ _ _ Hr H)
    as (Hn & _ & Hle & Hbh & Hps & _ & _ & _ & got & m & G1 & G2 & G3 & G4 & Em & Hm & -> & -> & ->).
  set (n := wanted_blocks e nd blocks reqEnd ps) in *.
  destruct (rows_lengths (N.to_nat n) got) as (L1 & L2 & L3).
  destruct (rows_missing (N.to_nat n) got) as (M1 & M2 & M3). rewrite <- Em in M1, M2, M3.
  rewrite take_length, L3 in *.
  assert (Hrow : ∀ k, (k < m)%nat → ∃ r, (k, Some r) ∈ got).
  { intros k Hk. assert (Hk' : k ∈ got.*1) by (apply G2; lia).
    apply elem_of_list_fmap in Hk' as ([k' [r|]] & [= ->] & Hin); [by exists r|].
    specialize (M2 _ Hin). lia. }
  assert (Hsh : ∀ k r, (k, Some r) ∈ got → ∃ h, shown nd' (oldest + N.of_nat k) = Some h ∧ fr_base r = fh_base h ∧
     fr_next r = calc_base_fee h ∧ fr_ratio r = (fh_used h, fh_limit h) ∧
     (ps ≠ [] → ∃ row, fr_reward r = Some row ∧ length row = length ps ∧ StronglySorted Z.le row)).
  { intros k r Hk. specialize (G3 _ _ Hk). apply fetch_some in G3 as (b & Hb & ->).
    exists (fb_head b). unfold shown, num in *. rewrite Hb. split_and!; try done.
    intros Hne. unfold process_block. cbn [fr_reward]. destruct ps as [|p0 ps']; [done|].
    eexists. split; [done|].
    match goal with |- context [sort_rewards ?l] => pose proof (sort_rewards_sorted l) as Hs; destruct (sort_rewards l) as [|[r0 g0] rest] end.
    - split; [by rewrite fmap_length|]. clear. induction (p0 :: ps') as [|x l IH]; [constructor|].
      cbn. constructor; [done|]. apply Forall_forall. intros y Hy. apply elem_of_list_fmap in Hy as (? & -> & _). lia.
    - split; [|by eapply pick_rewards_sorted].
      clear Hs. generalize (p0 :: ps'). intros l. revert g0 r0 rest. induction l as [|x l IH]; intros; cbn; [done|].
      destruct (advance _ _ _ _) as [[? ?] ?]. cbn. by rewrite IH. }
  destruct (Hrow i ltac:(lia)) as [r Hin]. destruct (Hsh _ _ Hin) as (h & Eh & Hb & Hx & Hra & Hre).
  exists h. split; [done|].
  destruct (rows_own (N.to_nat n) got i r G1 ltac:(lia) Hin) as [R1 R2].
  split_and!.
  - rewrite lookup_take by lia. by rewrite R1, Hra.
  - rewrite lookup_take by lia.
    destruct (rows_base_own (N.to_nat n) got i r G1 ltac:(lia) Hin) as [Hbase|(j & r' & -> & Hj & Hbase)].
    + left. by rewrite Hbase, Hb.
    + right. destruct (Hsh _ _ Hj) as (h' & Eh' & _ & Hx' & _). exists j, h'. by rewrite Hbase, Hx'.
  - intros Hlast. rewrite lookup_take by lia. rewrite <- Hx. apply rows_base_next; [done|lia|done|].
    intros r' Hr'. assert (Hk : S i ∈ got.*1) by (apply elem_of_list_fmap; by exists (S i, Some r')).
    apply G2 in Hk. destruct M3 as [M3|M3]; [lia|].
    assert (Esi : S i = m) by lia. rewrite <- Esi in M3.
    apply elem_of_list_lookup in M3 as [a1 A1]. apply elem_of_list_lookup in Hr' as [a2 A2].
    assert (a1 = a2).
    { eapply (NoDup_lookup got.*1 a1 a2 (S i)); [done| |]; rewrite list_lookup_fmap; [by rewrite A1|by rewrite A2]. }
    subst. congruence.
  - intros rows Hrows. destruct ps as [|p0 ps']; [done|]. injection Hrows as <-.
    destruct (Hre ltac:(done)) as (row & Er & Hl & Hs). exists row. rewrite lookup_take by lia. by rewrite R2, Er.
Qed.

(** C47. The reward entry of a percentile, for thresholds that grow with the percentile: the
    smallest tip such that the transactions paying at most that tip used the threshold gas, or
    the largest tip if all of them together used less ([reward_spec], FeeHistoryP.v). *)
Theorem C47_reward_meaning e h txs ps i p v :
  txs ≠ [] → sum_gas txs < two64 →
  StronglySorted N.le (fe_threshold e (fh_used h) <$> ps) →
  ps !! i = Some p → fr_reward (process_block e h txs ps) ≫= (.!! i) = Some v →
  reward_spec txs (fe_threshold e (fh_used h) p) v.
Proof.
  intros Hne Hb Ht Hp. unfold process_block. cbn [fr_reward].
  destruct ps as [|p0 ps']; [done|]. cbn [mbind option_bind].
  pose proof (sort_rewards_perm txs) as Hperm. pose proof (sort_rewards_sorted txs) as Hs.
  destruct (sort_rewards txs) as [|[r g] rest] eqn:E; [by apply Permutation_nil_l in Hperm|].
  intros Hv.
  destruct (pick_rewards_ok ((r, g) :: rest) (fe_threshold e (fh_used h)) Hs) with
    (ps := p0 :: ps') (t0 := 0) (dn := @nil (Z * N)) (cur := r) (g := g) (rest := rest) (sum := g) as [_ H].
  - by rewrite (sum_gas_perm _ _ Hperm).
  - constructor; [done|]. apply Forall_forall. intros; lia.
  - split; [done|]. split; [cbn; lia|by left].
  - specialize (H i p v Hp Hv). destruct H as ([g' Hg] & H2 & H3). split_and!.
    + exists g'. by rewrite <- Hperm.
    + destruct H2 as [H2|H2]; [left; by rewrite <- (gas_upto_perm _ _ _ Hperm)|right].
      intros x Hx. apply H2. by rewrite Hperm.
    + intros x Hx Hlt. rewrite <- (gas_upto_perm _ _ _ Hperm). apply H3; [by rewrite Hperm|done].
Qed.
(** Block without transactions: a row of zeros. *)
Theorem C47_reward_empty e h ps : ps ≠ [] →
  fr_reward (process_block e h [] ps) = Some (replicate (length ps) 0%Z).
Proof.
  intros H. unfold process_block. cbn. destruct ps as [|p ps]; [done|]. f_equal. clear H.
  induction (p :: ps) as [|x l IH]; [done|]. cbn. by rewrite IH.
Qed.

(** C47. What the cache holds never changes an answer: with an empty cache and the same requests,
    a fetcher finds for every block what it finds with the cache of any node's history. *)
Theorem C47_cache_transparent e nd c n ps :
  fnode_reach e (nd, c) → fst (fetch_cached e nd c n ps) = fst (fetch_cached e nd ∅ n ps).
Proof.
  intros Hr. destruct (reach_ok _ _ Hr) as [_ Hc]. cbn in Hc.
  destruct (fetch_cached_ok e nd c n ps Hc) as [-> _]. unfold fetch_cached. by rewrite lookup_empty.
Qed.

(** C47. EIP-1559's step: a full block raises, an empty one lowers the base fee, by at most an
    eighth (at least one unit upwards); a block at its target keeps it. *)
Theorem C47_next_base_fee h : 0 < fh_limit h / 2 → fh_used h <= 2 * (fh_limit h / 2) →
  (fh_used h = fh_limit h / 2 → calc_base_fee h = fh_base h) ∧
  (fh_limit h / 2 < fh_used h → fh_base h < calc_base_fee h <= fh_base h + N.max 1 (fh_base h / 8)) ∧
  (fh_used h < fh_limit h / 2 → fh_base h - fh_base h / 8 <= calc_base_fee h <= fh_base h).
Proof.
  intros Ht Hu. unfold calc_base_fee. set (t := fh_limit h / 2) in *.
  assert (Hd : ∀ d, d <= t → fh_base h * d / t / 8 <= fh_base h / 8).
  { intros d Hd. apply N.div_le_mono; [done|]. apply N.div_le_upper_bound; [lia|]. nia. }
  split_and!.
  - intros E. destruct (N.eqb_spec (fh_used h) t); [done|lia].
  - intros Hlt. destruct (N.eqb_spec (fh_used h) t); [lia|]. destruct (N.ltb_spec t (fh_used h)); [|lia].
    assert (Hdt : fh_used h - t <= t) by lia. specialize (Hd _ Hdt). revert Hd. generalize (fh_base h * (fh_used h - t) / t / 8), (fh_base h / 8). lia.
  - intros Hlt. destruct (N.eqb_spec (fh_used h) t); [lia|]. destruct (N.ltb_spec t (fh_used h)); [lia|].
    assert (Hdt : t - fh_used h <= t) by lia. specialize (Hd _ Hdt). revert Hd. generalize (fh_base h * (t - fh_used h) / t / 8), (fh_base h / 8). lia.
Qed.

(** C47. If every indexed block has the base fee EIP-1559 makes of its predecessor, the base-fee
    column is the blocks' base fees, in every schedule. *)
Theorem C75_base_fees_partial e blocks reqEnd ps nd c oldest reward bases ratio nd' c' i h :
  fnode_reach e (nd, c) →
  fee_history e blocks reqEnd ps (nd, c) (FHistory oldest reward bases ratio) (nd', c') →
  (∀ n h1 h2, 0 < n → shown nd' n = Some h1 → shown nd' (n + 1) = Some h2 → fh_base h2 = calc_base_fee h1) →
  0 < oldest →
  (i < length ratio)%nat → shown nd' (oldest + N.of_nat i) = Some h →
  bases !! i = Some (Some (fh_base h)).
Proof.
  intros Hr H Hag Ho Hi Hh.
  destruct (C47_rows _ _ _ _ _ _ _ _ _ _ _ _ i Hr H Hi) as (h2 & Eh & _ & Hb & _).
  assert (h2 = h) by congruence. subst h2.
  destruct Hb as [Hb|(j & h' & -> & Eh' & Hb)]; [done|]. rewrite Hb. do 2 f_equal. symmetry.
  apply (Hag (oldest + N.of_nat j)); [lia|done|]. rewrite <- Hh. f_equal. lia.
Qed.

(** ** Where the property's wording and the code differ *)

(** Exact thresholds, for concrete cases. *)
Definition exact_threshold (g : N) (p : Q) : N := Z.to_N (Z.of_N g * Qnum p / Zpos (Qden p * 100)).
Definition x_fenv : fenv := FEnv 1024 1024 exact_threshold.
Definition x_block (n base used : N) (txs : list (Z * N)) : N * fblock :=
  (n, FBlock (FHead n base used 200) txs).
Definition x_index : gmap N fblock :=
  list_to_map [x_block 1 800 0 []; x_block 2 800 100 [(5%Z, 40); (3%Z, 60)]; x_block 3 800 0 []].
Definition x_node : fnode := FNode 3 x_index.
Lemma x_node_ok : fnode_ok x_node.
Proof.
  intros n b H. apply elem_of_list_to_map_2 in H.
  cbn in H. rewrite !elem_of_cons, elem_of_nil in H.
  destruct H as [[= -> ->]|[[= -> ->]|[[= -> ->]|[]]]]; cbn; lia.
Qed.

(** C47, base fees: block i's row is written by block i (its base fee) and by block i-1 (its
    projection); the base fee of this chain does not follow EIP-1559, so which one a client sees
    depends on which of the fetchers finishes last: two schedules of one request on one
    node give different answers. *)
Theorem C75_base_fee_schedule_refuted : ∃ e nd blocks reqEnd a1 a2 x1 x2,
  fnode_reach e (nd, ∅) ∧
  fee_history e blocks reqEnd [] (nd, ∅) a1 x1 ∧ fee_history e blocks reqEnd [] (nd, ∅) a2 x2 ∧
  (∃ o r g b1 b2, a1 = FHistory o r b1 g ∧ a2 = FHistory o r b2 g ∧
     b1 = [Some 800; Some 800; Some 700] ∧ b2 = [Some 800; Some 700; Some 700]) ∧
  (∀ n b, fn_index nd !! n = Some b → fh_base (fb_head b) = 800).
Proof.
  exists x_fenv, (FNode 3 (list_to_map [x_block 1 800 0 []; x_block 2 800 0 []; x_block 3 800 0 []])), 2, (-2)%Z.
  set (nd := FNode _ _).
  assert (Hok : ∀ n b, fn_index nd !! n = Some b → fh_base (fb_head b) = 800 ∧ fh_number (fb_head b) = n ∧ 1 <= n ∧ n <= 3).
  { intros n b H. apply elem_of_list_to_map_2 in H. cbn in H. rewrite !elem_of_cons, elem_of_nil in H.
    destruct H as [[= -> ->]|[[= -> ->]|[[= -> ->]|[]]]]; cbn; lia. }
  eexists _, _, _, _. split.
  { apply FN_start. intros n b H. apply Hok in H. tauto. }
  split.
  { eapply (FH_run _ _ _ _ _ _ 3 2); [vm_compute; reflexivity|lia| |].
    - eapply rtc_l; [apply FS_take; [vm_compute; lia|vm_compute; discriminate]|].
      eapply rtc_l; [apply FS_take; [vm_compute; lia|vm_compute; discriminate]|].
      eapply rtc_l; [eapply (FS_result _ _ _ _ _ _ _ 2 [3] []); [reflexivity|reflexivity]|].
      eapply rtc_l; [eapply (FS_result _ _ _ _ _ _ _ 3 [] []); [reflexivity|reflexivity]|].
      apply rtc_refl.
    - reflexivity. }
  split.
  { eapply (FH_run _ _ _ _ _ _ 3 2); [vm_compute; reflexivity|lia| |].
    - eapply rtc_l; [apply FS_take; [vm_compute; lia|vm_compute; discriminate]|].
      eapply rtc_l; [apply FS_take; [vm_compute; lia|vm_compute; discriminate]|].
      eapply rtc_l; [eapply (FS_result _ _ _ _ _ _ _ 3 [] [2]); [reflexivity|reflexivity]|].
      eapply rtc_l; [eapply (FS_result _ _ _ _ _ _ _ 2 [] []); [reflexivity|reflexivity]|].
      apply rtc_refl.
    - reflexivity. }
  split; [|intros n b H; by destruct (Hok n b H) as [? _]].
  eexists _, _, _, _, _. split; [vm_compute; reflexivity|]. split; [vm_compute; reflexivity|]. done.
Qed.

(** C47, first block: a request reaching back far enough starts at block 0, which does not exist
    (the first block is 1), and shows block 1 in its row, so block 1 is counted twice. *)
Theorem C75_block_zero_refuted : ∃ e nd blocks reqEnd r b g x,
  fnode_reach e (nd, ∅) ∧ fn_index nd !! 0 = None ∧
  fee_history e blocks reqEnd [] (nd, ∅) (FHistory 0 r b g) x ∧
  g = [Some (0, 200); Some (0, 200)] ∧ fn_height nd = 1.
Proof.
  set (nd := FNode 1 (list_to_map [x_block 1 800 0 []])).
  assert (H : ∃ s r b, rtc (fstep x_fenv [] 0 1 2) (nd, FStage 0 [] (rows0 2) ∅ 2) (nd, s) ∧ fs_left s = 0%nat ∧
     finish 0 [] (fs_rows s) = FHistory 0 r b [Some (0, 200); Some (0, 200)]).
  { eexists _, _, _. split.
    - eapply rtc_l; [apply FS_take; [vm_compute; lia|vm_compute; discriminate]|].
      eapply rtc_l; [apply FS_take; [vm_compute; lia|vm_compute; discriminate]|].
      eapply rtc_l; [eapply (FS_result _ _ _ _ _ _ _ 0 [1] []); [reflexivity|reflexivity]|].
      eapply rtc_l; [eapply (FS_result _ _ _ _ _ _ _ 1 [] []); [reflexivity|reflexivity]|].
      apply rtc_refl.
    - split; [reflexivity|]. vm_compute. reflexivity. }
  destruct H as (s & r & b & H & Hl & Hf).
  exists x_fenv, nd, 10, (-2)%Z, r, b, [Some (0, 200); Some (0, 200)], (nd, fs_cache s).
  split. { apply FN_start. intros n b' Hb. apply elem_of_list_to_map_2 in Hb. cbn in Hb. rewrite elem_of_list_singleton in Hb.
    injection Hb as -> ->. cbn. lia. }
  split; [done|]. split; [|done]. rewrite <- Hf.
  eapply (FH_run x_fenv 10 (-2) [] nd ∅ 1 2 nd s); [vm_compute; reflexivity|lia|exact H|done].
Qed.

(** C47, lagging index: when the node has reached a height its index does not hold yet, every
    acceptable request crashes in the handler, also one for blocks that are indexed. *)
Theorem C75_unindexed_head_refuted e nd c blocks reqEnd ps :
  0 < blocks → percentiles_fine ps → fn_index nd !! fn_height nd = None →
  fee_history e blocks reqEnd ps (nd, c) FCrash (nd, c).
Proof.
  intros Hb (P1 & P2 & P3) Hn. apply FH_panic. unfold plan, resolve_block_range.
  destruct (N.ltb_spec blocks 1); [lia|]. destruct (Nat.ltb_spec 100 (length ps)); [lia|].
  assert (percentiles_ok None ps = true) as -> by by apply percentiles_ok_spec. cbn [negb].
  unfold header_by_number, resolve_nr. change (-2 <? 0)%Z with true. cbn. by rewrite Hn.
Qed.
(** ... and such nodes exist: the last block is committed, its indexing not finished. *)
Example C47_unindexed_head_exists : ∃ nd, fnode_ok nd ∧ fn_index nd !! fn_height nd = None ∧ is_Some (fn_index nd !! 3).
Proof.
  exists (FNode 4 x_index). split_and!; [|vm_compute; reflexivity|eexists; vm_compute; reflexivity].
  intros n b H. destruct (x_node_ok n b H) as (? & ? & ?). cbn in *. lia.
Qed.

(** A concrete request: two blocks ending at block 2, with three percentiles. *)
Example C47_request : ∃ x,
  fee_history x_fenv 2 2 [0; 60; 61]%Q (x_node, ∅)
    (FHistory 1 (Some [Some [0; 0; 0]; Some [3; 3; 5]]%Z) [Some 800; Some 800; Some 800]
       [Some (0, 200); Some (100, 200)]) x ∧ percentiles_fine [0; 60; 61]%Q.
Proof.
  assert (H : ∃ s, rtc (fstep x_fenv [0; 60; 61]%Q 1 2 2) (x_node, FStage 1 [] (rows0 2) ∅ 2) (x_node, s) ∧ fs_left s = 0%nat ∧
       finish 1 [0; 60; 61]%Q (fs_rows s) = FHistory 1 (Some [Some [0; 0; 0]; Some [3; 3; 5]]%Z) [Some 800; Some 800; Some 800]
       [Some (0, 200); Some (100, 200)]).
    { eexists. split.
      - eapply rtc_l; [apply FS_take; [vm_compute; lia|vm_compute; discriminate]|].
        eapply rtc_l; [apply FS_take; [vm_compute; lia|vm_compute; discriminate]|].
        eapply rtc_l; [eapply (FS_result _ _ _ _ _ _ _ 1 [2] []); [reflexivity|reflexivity]|].
        eapply rtc_l; [eapply (FS_result _ _ _ _ _ _ _ 2 [] []); [reflexivity|reflexivity]|].
        apply rtc_refl.
      - split; [reflexivity|]. vm_compute. reflexivity. }
  destruct H as (s & H & Hl & Hf). exists (x_node, fs_cache s). split.
  - rewrite <- Hf. eapply (FH_run x_fenv 2 2 _ x_node ∅ 2 2 x_node s); [vm_compute; reflexivity|lia|exact H|done].
  - split; [cbn; lia|]. split.
    + intros p. rewrite !elem_of_cons, elem_of_nil. intros [->|[->|[->|[]]]]; done.
    + intros [|[|[|i]]] p q; cbn; try done; intros [= <-] [= <-]; done.
Qed.
