(** C137: eth_getFilterLogs. *)
From Verif.Base Require Import Prelude.
From Verif.Model Require Import EthLog Indexer Filters FilterLogs.
From Verif.Spec Require Import IndexerSpec.
From Verif.Proofs Require Import IndexerP FiltersP.
From Verif.Props Require Import LogProps FilterProps.

Section props.
Variable bloom_bits : bytes → list N.
Variable header_hash : header → bytes.
Notation sound := (sound_chain bloom_bits header_hash).
Notation indexed := (index_blocks bloom_bits header_hash).
Notation filter_logs_of := (get_filter_logs bloom_bits header_hash).
Notation logs_of := (get_logs bloom_bits header_hash).

(** What eth_getLogs is asked with the criteria of a filter. *)
Definition where_of (c : fcrit) : where_ := match fc_hash c with Some h => AtHash h | None => Between (fc_from c) (fc_to c) end.

(** A filter is what it was asked to be, as long as it exists; and its criteria were accepted. *)
Definition of_kind (s : fstate) (id : fid) (k : kind) : Prop :=
  id ∈ f_used s ∧ (∀ k', f_create s !! id = Some (CInstall k') → k' = k) ∧ (∀ k', f_create s !! id = Some (CInstalled k') → k' = k) ∧
  (∀ f, f_filters s !! id = Some f → fl_kind f = k).
Lemma kind_step timeout w s s' id k : finv s → fstep timeout w s s' → of_kind s id k → of_kind s' id k.
Proof.
  intros Hi Hs (K0 & K1 & K2 & K3). destruct Hs; unfold of_kind; cbn [f_used f_create f_filters]; (split; [set_solver|]); split_and!; try done; intros x Hx;
    rewrite ?lookup_insert_Some, ?lookup_delete_Some, ?map_filter_lookup_Some in Hx; destruct_or? Hx; destruct_and? Hx; simplify_eq; cbn [fl_kind]; eauto; done.
Qed.
Lemma kind_steps timeout b s s' id k : freach timeout s → fsteps timeout b s s' → of_kind s id k → of_kind s' id k.
Proof.
  intros Hr Hs. induction Hs as [|w s1 s2 s3 H1 H2 H3 IH]; [done|]. intros Hk.
  apply IH; [eapply FR_step; eauto|]. eapply kind_step; eauto. by eapply finv_reach.
Qed.
Lemma accepted timeout s : freach timeout s → ∀ id c,
  (f_create s !! id = Some (CInstall (KLogs c)) ∨ f_create s !! id = Some (CInstalled (KLogs c)) ∨ ∃ f, f_filters s !! id = Some f ∧ fl_kind f = KLogs c) →
  new_filter_ok c = true.
Proof.
  induction 1 as [|w s s' Hr IH Hs]; intros id c.
  - cbn. intros [E|[E|(f & E & _)]]; by rewrite lookup_empty in E.
  - destruct Hs; cbn [f_create f_filters]; intros [E|[E|(f0 & E & Ek)]];
      rewrite ?lookup_insert_Some, ?lookup_delete_Some, ?map_filter_lookup_Some in E; destruct_or? E; destruct_and? E; simplify_eq; cbn [fl_kind] in *; simplify_eq; eauto 7.
Qed.
Lemma accepted_get st head c : new_filter_ok c = true →
  (match fc_hash c with
   | Some bh => if bool_decide (bh = zero_hash) then logs_range bloom_bits header_hash st head (fc_crit c) 0 0
                else match header_by_hash st bh with None => LErr | Some h => lres_of (block_logs bloom_bits header_hash st (fc_crit c) h) end
   | None => logs_range bloom_bits header_hash st head (fc_crit c) (default (-2)%Z (fc_from c)) (default (-2)%Z (fc_to c)) end)
  = logs_of st head (fc_crit c) (where_of c).
Proof.
  rewrite C44_accepted_criteria. cbv zeta. unfold latest. intros [Ht Hr]. unfold get_logs. destruct (Nat.ltb_spec 4 (length (cr_topics (fc_crit c)))); [lia|].
  unfold where_of. destruct (fc_hash c) as [bh|]; [done|].
  assert (E : ((0 <? default (-2) (fc_from c)) && (0 <? default (-2) (fc_to c)) && (default (-2) (fc_to c) <? default (-2) (fc_from c)))%Z = false).
  { apply not_true_is_false. rewrite !andb_true_iff, !Z.ltb_lt. lia. }
  by rewrite E.
Qed.

(** C137. From the moment eth_newFilter is called, at every moment of every schedule: as long as
    the filter exists, eth_getFilterLogs answers exactly what eth_getLogs answers to the criteria
    the filter was created with; when it does not exist (yet, or any more), it is an error. *)
Theorem C137_answers timeout s s' id c st head :
  freach timeout s → f_create s !! id = Some (CInstall (KLogs c)) → fsteps timeout false s s' →
  filter_logs_of s' st head id =
  match poll_answer s' id with Some _ => Some (logs_of st head (fc_crit c) (where_of c)) | None => None end.
Proof.
  intros Hr Hc Hs.
  assert (Hk : of_kind s id (KLogs c)).
  { assert (f_filters s !! id = None ∧ id ∈ f_used s) as [Hf Hu].
    { destruct (FI_view _ (finv_reach _ _ Hr) id) as [Hc0| | |f n Hc0| |]; try done; [congruence|]. exfalso. destruct Hc0 as [[? _]|[? _]]; congruence. }
    unfold of_kind. split_and!; [done|intros; congruence|intros; congruence|intros f Ef; congruence]. }
  pose proof (kind_steps _ _ _ _ _ _ Hr Hs Hk) as (_ & _ & _ & K3).
  unfold get_filter_logs, poll_answer. destruct (f_filters s' !! id) as [f|] eqn:Ef; [|done].
  rewrite (K3 f eq_refl). cbn [fmap option_fmap option_map]. f_equal. apply accepted_get.
  eapply accepted; [exact Hr|]. by left.
Qed.
(** Filters for blocks and pending transactions have no logs: an error. *)
Theorem C137_other_filters s st head id f : f_filters s !! id = Some f → (∀ c, fl_kind f ≠ KLogs c) → filter_logs_of s st head id = None.
Proof. intros Hf Hk. unfold get_filter_logs. rewrite Hf. destruct (fl_kind f) eqn:E; [by destruct (Hk c)|done..]. Qed.

Lemma number_of first bh b l : l ∈ chain_logs first bh b → pl_number l = ib_height b.
Proof.
  unfold chain_logs. intros Hl. apply elem_of_list_join in Hl as (ls & Hl & Hls).
  apply elem_of_lookup_imap in Hls as (i & te & -> & _). apply elem_of_lookup_imap in Hl as (j & lg & -> & _). done.
Qed.
Lemma in_blocks (g : iblock → list placed_log) (L : list iblock) l : In l (mjoin (map g L)) → ∃ b, b ∈ L ∧ l ∈ g b.
Proof.
  intros Hl. apply elem_of_list_In in Hl. apply elem_of_list_join in Hl as (ls & Hl & Hls).
  apply elem_of_list_fmap in Hls as (b & -> & Hb). by exists b.
Qed.
(** C137. For a filter that starts at a block: eth_getFilterLogs gives all logs of the chain the
    filter wants, those of the blocks before its creation included, in order; so it and the polls
    select the same logs. *)
Theorem C137_all_wanted bs c x p : sound bs → bs ≠ [] → new_filter_ok c = true → fc_hash c = None →
  fc_from c = Some x → (0 ≤ x)%Z → fc_to c ≠ Some 0%Z →
  (x ≤ Z.of_nat (length bs) ∨ ∃ y, fc_to c = Some y ∧ 0 ≤ y)%Z →
  (∀ l, p l = true ↔ filter_matches c l) →
  logs_of (indexed bs) (N.of_nat (length bs)) (fc_crit c) (where_of c) =
  LLogs (List.filter p (mjoin (map (λ b, chain_logs 1 (hash_at header_hash (indexed bs) (ib_height b)) b) bs))).
Proof.
  intros Hc Hne Hok Hh Hf Hx Hto Hrange Hp. unfold where_of. rewrite Hh.
  rewrite (C43_range_exact bloom_bits header_hash bs (fc_crit c) (check_log (fc_crit c))); [|done|done|intros l; apply C43_check_is_match].
  apply C44_accepted_criteria in Hok. cbv zeta in Hok. unfold latest in Hok. destruct Hok as [Ht Hok].
  destruct (Nat.ltb_spec 4 (length (cr_topics (fc_crit c)))); [lia|].
  assert (Hl : (1 ≤ Z.of_nat (length bs))%Z) by (destruct bs; [done|cbn [length]; lia]).
  set (head := Z.of_nat (length bs)) in *. cbv zeta.
  set (b := bound head (fc_from c)). set (e := bound head (fc_to c)).
  assert (Hb : b = if (x =? 0)%Z then 1%Z else x).
  { unfold b, bound. rewrite Hf. destruct (Z.ltb_spec x 0); [lia|done]. }
  rewrite Hf in Hok. cbn [default] in Hok. unfold id in Hok.
  assert (He : (∃ y, fc_to c = Some y ∧ (0 < y)%Z ∧ (x ≤ y)%Z ∧ e = y) ∨ ((∀ y, fc_to c = Some y → (y < 0)%Z) ∧ e = head)).
  { unfold e, bound. destruct (fc_to c) as [y|].
    - destruct (Z.ltb_spec y 0); [right; split; [intros z [= <-]; lia|done]|].
      destruct (Z.eqb_spec y 0) as [->|]; [done|]. left. exists y. cbn [default] in Hok. unfold id in Hok. split; [done|]. split; [lia|]. split; [lia|done].
    - right. done. }
  assert (Hbe : (b ≤ e)%Z).
  { destruct He as [(y & Ey & ? & ? & ->)|[Hy ->]].
    - rewrite Hb. destruct (Z.eqb_spec x 0); lia.
    - destruct Hrange as [?|(y & Ey & ?)]; [rewrite Hb; destruct (Z.eqb_spec x 0); lia|]. specialize (Hy _ Ey). lia. }
  destruct (Z.ltb_spec e b); [lia|]. f_equal. unfold logs_between, blocks_between.
  set (n1 := Z.to_nat (b - 1)). set (n2 := Z.to_nat (Z.min e head - b + 1)).
  set (g := λ blk, chain_logs 1 (hash_at header_hash (indexed bs) (ib_height blk)) blk).
  assert (Hb1 : (1 ≤ b)%Z) by (rewrite Hb; destruct (Z.eqb_spec x 0); lia).
  assert (Hbx : ∀ n : Z, (1 ≤ n → (b ≤ n ↔ x ≤ n))%Z) by (intros n Hn; rewrite Hb; destruct (Z.eqb_spec x 0); lia).
  assert (Hsplit : bs = take n1 bs ++ take n2 (drop n1 bs) ++ drop n2 (drop n1 bs)) by (by rewrite !take_drop).
  assert (Hnum : ∀ i blk l, bs !! i = Some blk → l ∈ g blk → (Z.of_N (pl_number l) = Z.of_nat i + 1)%Z).
  { intros i blk l Hi Hl'. rewrite (number_of _ _ _ _ Hl'), (ch_heights _ Hc _ _ Hi). lia. }
  transitivity (List.filter p (mjoin (map g (take n1 bs ++ take n2 (drop n1 bs) ++ drop n2 (drop n1 bs))))); [|by rewrite <- Hsplit].
  assert (Hj : ∀ l1 l2 : list iblock, (mjoin (map g (l1 ++ l2)) : list placed_log) = mjoin (map g l1) ++ mjoin (map g l2)).
  { intros l1 l2. rewrite map_app. generalize (map g l1), (map g l2). intros z1 z2. clear. induction z1 as [|z zs IH]; [done|].
    change (z ++ mjoin (zs ++ z2) = (z ++ mjoin zs) ++ mjoin z2). rewrite IH. apply app_assoc. }
  rewrite !Hj, !filter_app_.
  rewrite (filter_none_ p (mjoin (map g (take n1 bs)))); [|].
  2: { intros l Hl'. apply in_blocks in Hl' as (blk & Hblk & Hl'). apply elem_of_list_lookup in Hblk as (i & Hi).
       apply lookup_take_Some in Hi as [Hi Hlt]. pose proof (Hnum _ _ _ Hi Hl') as Hn.
       apply not_true_is_false. rewrite Hp. intros (F1 & _ & _). specialize (F1 _ Hf Hx). apply Hbx in F1; lia. }
  rewrite (filter_none_ p (mjoin (map g (drop n2 (drop n1 bs))))); [|].
  2: { intros l Hl'. apply in_blocks in Hl' as (blk & Hblk & Hl'). apply elem_of_list_lookup in Hblk as (i & Hi).
       rewrite !lookup_drop in Hi. pose proof (Hnum _ _ _ Hi Hl') as Hn. pose proof (lookup_lt_Some _ _ _ Hi) as Hlt.
       apply not_true_is_false. rewrite Hp. intros (_ & F2 & _).
       destruct He as [(y & Ey & ? & ? & He)|[Hy He]]; [specialize (F2 _ Ey)|]; lia. }
  rewrite app_nil_r, app_nil_l. apply filter_ext_. intros l Hl'.
  apply in_blocks in Hl' as (blk & Hblk & Hl'). apply elem_of_list_lookup in Hblk as (i & Hi).
  apply lookup_take_Some in Hi as [Hi Hlt]. rewrite lookup_drop in Hi. pose proof (Hnum _ _ _ Hi Hl') as Hn. pose proof (lookup_lt_Some _ _ _ Hi) as Hlt2.
  apply eq_true_iff_eq. rewrite Hp, C43_check_is_match. unfold filter_matches. split; [|tauto]. intros Hm.
  split; [|split; [|done]].
  - intros from E _. rewrite Hf in E. injection E as <-. apply Hbx; lia.
  - intros to E Hto0. destruct He as [(y & Ey & ? & ? & He)|[Hy He]]; [|specialize (Hy _ E); lia].
    rewrite Ey in E. injection E as <-. lia.
Qed.
(** Such a test exists for every filter. *)
Corollary C137_wanted_decidable c : ∃ p, ∀ l, p l = true ↔ filter_matches c l.
Proof.
  exists (fwanted c). intros l. pose proof (C44_selects c [l] l) as H. rewrite elem_of_list_singleton in H.
  cbn in H. split.
  - intros E. apply H. rewrite E. cbn. by apply elem_of_list_singleton.
  - intros E. pose proof (proj2 H (conj eq_refl E)) as E'. clear E. rename E' into E. destruct (fwanted c l); [done|]. by apply elem_of_nil in E.
Qed.

(** ** Where it does not *)
(** A filter that starts at a block to come and ends at the latest is accepted, and asking for its
    logs is an error until that block is there, although nothing is wrong with it. *)
Theorem C137_future_refuted bs c x : sound bs → bs ≠ [] → fc_hash c = None → fc_from c = Some x → fc_to c = None →
  (Z.of_nat (length bs) < x)%Z → (length (cr_topics (fc_crit c)) ≤ 4)%nat →
  new_filter_ok c = true ∧ logs_of (indexed bs) (N.of_nat (length bs)) (fc_crit c) (where_of c) = LErr.
Proof.
  intros Hc Hne Hh Hf Ht Hx Hlen. split.
  - apply C44_accepted_criteria. rewrite Hf, Ht. cbn [default]. split; [done|]. right. right. unfold id, latest. lia.
  - unfold where_of. rewrite Hh, Hf, Ht.
    rewrite (C43_range_exact bloom_bits header_hash bs (fc_crit c) (check_log (fc_crit c))); [|done|done|intros l; apply C43_check_is_match].
    cbv zeta. destruct (Nat.ltb _ _); [done|]. unfold bound.
    destruct (Z.ltb_spec x 0); [lia|]. destruct (Z.eqb_spec x 0); [lia|]. destruct (Z.ltb_spec (Z.of_nat (length bs)) x); [done|lia].
Qed.
(** A filter from block 0 to block 0: asked for its logs it gives block 1's; its polls never have a
    log. *)
Theorem C137_block_zero_refuted bs b c p : sound bs → bs !! 0%nat = Some b → fc_hash c = None → fc_from c = Some 0%Z → fc_to c = Some 0%Z →
  (length (cr_topics (fc_crit c)) ≤ 4)%nat → (∀ l, p l = true ↔ log_matches (fc_crit c) l) →
  new_filter_ok c = true ∧
  logs_of (indexed bs) (N.of_nat (length bs)) (fc_crit c) (where_of c) =
    LLogs (List.filter (λ l, p (pl_log l)) (chain_logs 1 (hash_at header_hash (indexed bs) 1) b)) ∧
  (∀ ls l, (1 ≤ pl_number l)%N → ILog l ∉ select (KLogs c) (FLogs ls)).
Proof.
  intros Hc Hb Hh Hf Ht Hlen Hp. split; [|split].
  - apply C44_accepted_criteria. rewrite Hf, Ht. cbn [default]. split; [done|]. right. left. unfold id. lia.
  - unfold where_of. rewrite Hh, Hf, Ht.
    assert (Hne : bs ≠ []) by (by intros ->).
    rewrite (C43_range_exact bloom_bits header_hash bs (fc_crit c) p); [|done|done|done].
    cbv zeta. destruct (Nat.ltb_spec 4 (length (cr_topics (fc_crit c)))); [lia|]. cbn [bound Z.ltb Z.eqb Z.compare].
    assert (1 ≤ Z.of_nat (length bs))%Z by (destruct bs; [done|cbn [length]; lia]).
    destruct (Z.ltb_spec 1 1); [lia|]. f_equal. unfold logs_between, blocks_between.
    replace (Z.to_nat (1 - 1)) with 0%nat by lia. replace (Z.to_nat (Z.min 1 (Z.of_nat (length bs)) - 1 + 1)) with 1%nat by lia.
    destruct bs as [|b0 bs']; [done|]. injection Hb as ->. cbn [drop take map mjoin list_join].
    pose proof (ch_heights _ Hc 0%nat b eq_refl) as E. cbn in E. rewrite E, app_nil_r. done.
  - intros ls l Hn Hin. apply C44_selects in Hin as (_ & _ & F2 & _). specialize (F2 _ Ht). lia.
Qed.
(** Asking for its logs does not count as using a filter: neither does it change anything, and at
    any moment more than the timeout after the last poll (or the creation, if none), a tick of the
    clean-up ends it. *)
Theorem C137_not_a_use_refuted timeout s id f c t : freach timeout s → f_filters s !! id = Some f → fl_kind f = KLogs c →
  f_active s !! id = Some t → (t + timeout < f_now s)%N →
  ∀ st head, filter_logs_of s st head id ≠ None ∧
  ∃ s', fstep timeout Client s s' ∧ filter_logs_of s' st head id = None.
Proof.
  intros Hr Hf Hk Ha Hlt st head. split; [unfold get_filter_logs; by rewrite Hf, Hk|].
  eexists. split; [apply S_tick|]. unfold get_filter_logs. cbn [f_filters].
  destruct (used_active _ _ _ _ Hr Hf) as (t' & Ht & Hle & Hu). rewrite Ha in Ht. injection Ht as <-.
  destruct Hu as [Hu|[_ Hu]]; [|by destruct (Hu c)].
  rewrite map_filter_lookup_None_2; [done|]. right. intros f' Hf'. rewrite Hf in Hf'. injection Hf' as <-. cbn. unfold expired. rewrite Hu.
  destruct (N.ltb_spec timeout (f_now s - t)); [done|lia].
Qed.
End props.

(** A concrete case: the chain of two blocks; a filter for contract 10 from block 0 on, created
    and kept. *)
Definition ten : fcrit := mkFC None (Some 0%Z) None (mkCrit [[10%N]] []).
Example C137_example : ∃ s, freach 300 s ∧ f_create s !! 0%nat = Some (CInstall (KLogs ten)) ∧
  ∃ s', fsteps 300 false s s' ∧
    (match get_filter_logs ex_bits ex_hash s' (index_blocks ex_bits ex_hash ex_chain) 2 0%nat with
     | Some (LLogs l) => Some (map (fun p => (pl_number p, pl_tx_index p, pl_index p)) l) | _ => None end) = Some [(1, 1, 0); (1, 3, 0); (2, 1, 0)]%N.
Proof.
  assert (H : freach 300 f_init) by constructor.
  step H ltac:(apply (S_new _ _ 0%nat (KLogs ten)); [set_solver|done]).
  eexists. split; [exact H|]. split; [reflexivity|].
  eexists. split.
  - eapply FS_step; [apply (S_install _ _ 0%nat (KLogs ten)); reflexivity|done|].
    eapply FS_step; [apply (S_register _ _ 0%nat (KLogs ten)); reflexivity|done|].
    eapply FS_step; [apply (S_return _ _ 0%nat); reflexivity|done|]. apply FS_refl.
  - vm_compute. reflexivity.
Qed.
