(** C135: hashes of either kind lead to each other; C136: a transaction included twice. *)
From Verif.Base Require Import Prelude.
From Verif.Model Require Import EthLog Indexer TxHashes.
From Verif.Spec Require Import IndexerSpec.
From Verif.Proofs Require Import IndexerP.
From Verif.Props Require Import LogProps.
Open Scope N_scope.

Section props.
Variable bloom_bits : bytes → list N.
Variable header_hash : header → bytes.
Notation indexed := (index_blocks bloom_bits header_hash).
Notation to_cosmos := cosmos_tx_hash_by_tx_hash.
Notation to_eth := tx_hash_by_cosmos_tx_hash.

(** All Ethereum transactions of the blocks, in order. *)
Definition all_entries (bs : list iblock) : list (itx * ientry) := bs ≫= eth_entries.
Definition eth_hash (te : itx * ientry) : bytes := it_hash te.1.
Definition cosmos_hash (te : itx * ientry) : bytes := ie_cosmos_hash te.2.
(** What the bytes of a Cosmos transaction are determines what Ethereum transaction they carry. *)
Definition hashed_bytes (bs : list iblock) : Prop :=
  ∀ te te', te ∈ all_entries bs → te' ∈ all_entries bs → cosmos_hash te = cosmos_hash te' → eth_hash te = eth_hash te'.
(** The last transaction with the Ethereum hash [h]. *)
Definition last_with (h : bytes) (l : list (itx * ientry)) : option (itx * ientry) := last (filter (λ te, eth_hash te = h) l).

Lemma to_all l : ∀ m h, to_cosmos_all l m !! h = match last_with h l with Some te => Some (cosmos_hash te) | None => m !! h end.
Proof.
  unfold last_with. induction l as [|te l IH] using rev_ind; intros m h; [done|].
  unfold to_cosmos_all. rewrite fold_left_app. cbn [fold_left]. fold (to_cosmos_all l m).
  rewrite filter_app. destruct (decide (eth_hash te = h)) as [<-|Hne].
  - rewrite filter_cons_True by done. rewrite filter_nil, last_snoc. apply lookup_insert.
  - rewrite filter_cons_False by done. rewrite filter_nil, app_nil_r, lookup_insert_ne by done. apply IH.
Qed.
Lemma of_all l : ∀ m h, of_cosmos_all l m !! h = match last (filter (λ te, cosmos_hash te = h) l) with Some te => Some (eth_hash te) | None => m !! h end.
Proof.
  induction l as [|te l IH] using rev_ind; intros m h; [done|].
  unfold of_cosmos_all. rewrite fold_left_app. cbn [fold_left]. fold (of_cosmos_all l m).
  rewrite filter_app. destruct (decide (cosmos_hash te = h)) as [<-|Hne].
  - rewrite filter_cons_True by done. rewrite filter_nil, last_snoc. apply lookup_insert.
  - rewrite filter_cons_False by done. rewrite filter_nil, app_nil_r, lookup_insert_ne by done. apply IH.
Qed.
Lemma maps_are bs : (∀ b, b ∈ bs → indexable b) →
  i_to_cosmos (indexed bs) = to_cosmos_all (all_entries bs) ∅ ∧ i_of_cosmos (indexed bs) = of_cosmos_all (all_entries bs) ∅.
Proof.
  induction bs as [|b bs IH] using rev_ind; intros Hix; [done|].
  rewrite index_blocks_snoc. rewrite index_block_ok by (apply Hix, elem_of_app; right; by apply elem_of_list_singleton).
  cbv zeta. cbn [fst i_to_cosmos i_of_cosmos]. destruct IH as [-> ->]; [intros b' Hb; apply Hix, elem_of_app; by left|].
  unfold all_entries. rewrite bind_app. cbn [mbind list_bind]. rewrite app_nil_r.
  unfold to_cosmos_all, of_cosmos_all. by rewrite !fold_left_app.
Qed.
Lemma last_in {A} (l : list A) x : last l = Some x → x ∈ l.
Proof. rewrite last_lookup. apply elem_of_list_lookup_2. Qed.
Lemma last_is {A} (P : A → Prop) `{∀ x, Decision (P x)} l x : x ∈ l → P x → ∃ y, last (filter P l) = Some y ∧ y ∈ l ∧ P y.
Proof.
  intros Hx HP. destruct (last (filter P l)) as [y|] eqn:E.
  - exists y. split; [done|]. apply last_in, elem_of_list_filter in E. tauto.
  - apply last_None in E. assert (Hin : x ∈ filter P l) by by apply elem_of_list_filter. rewrite E in Hin. by apply elem_of_nil in Hin.
Qed.

(** C135. From the Cosmos hash of any transaction of any chain, one included twice or not, to its
    Ethereum hash; from the Ethereum hash to the Cosmos hash of the last transaction included with
    it, and from there back. *)
Theorem C135_lookups bs te : (∀ b, b ∈ bs → indexable b) → hashed_bytes bs → te ∈ all_entries bs →
  to_eth (indexed bs) (cosmos_hash te) = eth_hash te ∧
  (∃ te', last_with (eth_hash te) (all_entries bs) = Some te' ∧ to_cosmos (indexed bs) (eth_hash te) = cosmos_hash te') ∧
  to_eth (indexed bs) (to_cosmos (indexed bs) (eth_hash te)) = eth_hash te.
Proof.
  intros Hix Hfun Hte. destruct (maps_are bs Hix) as [H1 H2].
  assert (Hof : ∀ te, te ∈ all_entries bs → to_eth (indexed bs) (cosmos_hash te) = eth_hash te).
  { intros te0 H0. unfold to_eth. rewrite H2, of_all.
    destruct (last_is (λ te', cosmos_hash te' = cosmos_hash te0) (all_entries bs) te0 H0 eq_refl) as (y & -> & Hy & Hc).
    by apply Hfun. }
  split; [by apply Hof|].
  destruct (last_is (λ te', eth_hash te' = eth_hash te) (all_entries bs) te Hte eq_refl) as (y & Hl & Hy & Hc).
  assert (Ht : to_cosmos (indexed bs) (eth_hash te) = cosmos_hash y).
  { unfold to_cosmos. rewrite H1, to_all. unfold last_with. by rewrite Hl. }
  split; [by exists y|]. rewrite Ht, Hof by done. done.
Qed.
(** ... and if no Ethereum transaction is in the chain twice, the two lookups are each other's
    inverse. *)
Theorem C135_inverse bs te : chain bs → hashed_bytes bs → te ∈ all_entries bs →
  to_eth (indexed bs) (cosmos_hash te) = eth_hash te ∧ to_cosmos (indexed bs) (eth_hash te) = cosmos_hash te.
Proof.
  intros Hc Hfun Hte. destruct (C135_lookups bs te (ch_indexable _ Hc) Hfun Hte) as (H1 & (te' & Hl & H2) & _).
  split; [done|]. rewrite H2. f_equal. unfold last_with in Hl. apply last_in, elem_of_list_filter in Hl as [He Hin].
  apply elem_of_list_lookup in Hin as (i & Hi). apply elem_of_list_lookup in Hte as (j & Hj).
  assert (Hnd : NoDup (map eth_hash (all_entries bs))).
  { unfold all_entries. pose proof (ch_distinct _ Hc) as Hd.
    assert (∀ l : list iblock, map eth_hash (l ≫= eth_entries) = (l ≫= λ b, map (λ te, it_hash te.1) (eth_entries b))) as ->; [|done].
    induction l as [|b l IH]; [done|]. cbn [mbind list_bind]. rewrite map_app. f_equal. apply IH. }
  assert (i = j) as ->; [|congruence].
  eapply (NoDup_lookup _ i j (eth_hash te) Hnd); rewrite list_lookup_fmap, ?Hi, ?Hj; cbn; congruence.
Qed.
(** A hash that is in no block gives the zero hash, never another transaction's. *)
Theorem C135_unknown bs h : (∀ b, b ∈ bs → indexable b) →
  ((∀ te, te ∈ all_entries bs → eth_hash te ≠ h) → to_cosmos (indexed bs) h = zero_hash) ∧
  ((∀ te, te ∈ all_entries bs → cosmos_hash te ≠ h) → to_eth (indexed bs) h = zero_hash).
Proof.
  intros Hix. destruct (maps_are bs Hix) as [H1 H2]. split; intros Hno.
  - unfold to_cosmos. rewrite H1, to_all. unfold last_with. destruct (last _) as [y|] eqn:E; [|done].
    exfalso. apply last_in, elem_of_list_filter in E as [E Hy]. by apply (Hno y).
  - unfold to_eth. rewrite H2, of_all. destruct (last _) as [y|] eqn:E; [|done].
    exfalso. apply last_in, elem_of_list_filter in E as [E Hy]. by apply (Hno y).
Qed.
(** So an answer that is not the zero hash names a transaction of the chain with that hash. *)
Theorem C135_sound bs h : (∀ b, b ∈ bs → indexable b) →
  (to_cosmos (indexed bs) h ≠ zero_hash → ∃ te, te ∈ all_entries bs ∧ eth_hash te = h ∧ cosmos_hash te = to_cosmos (indexed bs) h) ∧
  (to_eth (indexed bs) h ≠ zero_hash → ∃ te, te ∈ all_entries bs ∧ cosmos_hash te = h ∧ eth_hash te = to_eth (indexed bs) h).
Proof.
  intros Hix. destruct (maps_are bs Hix) as [H1 H2]. unfold to_cosmos, to_eth. rewrite H1, H2, to_all, of_all. unfold last_with. split; intros Hne.
  - destruct (last _) as [y|] eqn:E; [|done]. apply last_in, elem_of_list_filter in E as [E Hy]. by exists y.
  - destruct (last _) as [y|] eqn:E; [|done]. apply last_in, elem_of_list_filter in E as [E Hy]. by exists y.
Qed.

(** ** C136 *)
Notation sound := (sound_chain bloom_bits header_hash).
(** What does not come again stays as it is. *)
Theorem C136_kept bs b t : indexable b → t ∉ map eth_hash (eth_entries b) →
  tx_by_hash (indexed (bs ++ [b])) t = tx_by_hash (indexed bs) t ∧
  receipt_by_hash (indexed (bs ++ [b])) t = receipt_by_hash (indexed bs) t ∧
  to_cosmos (indexed (bs ++ [b])) t = to_cosmos (indexed bs) t.
Proof.
  intros Hix Hn. rewrite index_blocks_snoc, index_block_ok by done. cbv zeta. cbn [fst].
  unfold tx_by_hash, receipt_by_hash, to_cosmos. cbn [i_tx i_receipt i_to_cosmos].
  edestruct (store_loop_tx_ne (map fst (eth_entries b))) as [-> ->]; [rewrite map_map; exact Hn|]. cbn [i_tx i_receipt].
  split; [done|]. split; [done|]. f_equal. apply to_cosmos_ne. exact Hn.
Qed.
(** An Ethereum transaction in a block and again in a later one (a call that ran out of gas keeps
    its sequence and can come again, C100): the earlier block's own answers now say it is in the
    later block, with the later receipt. *)
Theorem C136_moved_refuted bs b (i j j1 : nat) b1 t e t1 e1 : sound bs → ib_height b = N.of_nat (length bs) + 1 → indexable b →
  NoDup (map eth_hash (eth_entries b)) →
  bs !! i = Some b1 → eth_entries b1 !! j1 = Some (t1, e1) → eth_entries b !! j = Some (t, e) → it_hash t = it_hash t1 →
  let st := indexed (bs ++ [b]) in
  (∃ q, tx_by_block_index st (ib_height b1) (N.of_nat j1 + 1) = Some q ∧ rt_number q = ib_height b ∧ rt_index q = N.of_nat j + 1) ∧
  (∃ r, receipt_by_hash st (it_hash t1) = Some r ∧ rc_ok r = (ie_code e =? 0) ∧ rc_logs r = e_logs e) ∧
  block_hashes st (ib_height b1) = map eth_hash (eth_entries b1).
Proof.
  intros Hc Hh Hix Hnd Hb1 He1 He Heq st.
  destruct (chain_view_ok bloom_bits header_hash bs Hc) as [HW HV]. destruct (HV i b1 Hb1) as (h1 & V & _).
  destruct (index_block_new bloom_bits header_hash b (indexed bs) _ _ Hix Hnd HW Hh) as (h & _ & Vn & _).
  rewrite <- index_blocks_snoc in Vn. fold st in Vn. destruct Vn as (N1 & N2 & N3 & N4 & N5 & N6).
  destruct (N5 j t e He) as (P1 & P2 & P3). destruct V as (V1 & V2 & V3 & V4 & V5 & V6).
  assert (Hlt : ib_height b1 ≠ ib_height b).
  { rewrite (ch_heights _ Hc _ _ Hb1), Hh. apply lookup_lt_Some in Hb1. lia. }
  assert (Hix1 : ∀ k, i_by_index st !! (ib_height b1, k) = i_by_index (indexed bs) !! (ib_height b1, k)).
  { intros k. unfold st. rewrite index_blocks_snoc, index_block_ok by done. cbv zeta. cbn [fst i_by_index].
    by rewrite store_loop_ix_ne by by left. }
  split; [|split].
  - unfold tx_by_block_index. rewrite Hix1. destruct (V5 j1 t1 e1 He1) as (_ & Q2 & _). rewrite Q2. cbn [mbind option_bind].
    unfold tx_by_hash. rewrite <- Heq, P1. by eexists.
  - unfold receipt_by_hash. rewrite <- Heq, P3. by eexists.
  - apply block_hashes_spec. intros k x. rewrite Hix1. split.
    + intros Hx. destruct (V6 k x Hx) as (i0 & t0 & e0 & Hi0 & ->). exists i0. split; [|done].
      destruct (V5 i0 t0 e0 Hi0) as (_ & P & _). rewrite P in Hx. injection Hx as <-.
      rewrite list_lookup_fmap, Hi0. done.
    + intros (i0 & Hi0 & ->). rewrite list_lookup_fmap in Hi0.
      destruct (eth_entries b1 !! i0) as [[t0 e0]|] eqn:E0; [|done]. injection Hi0 as <-. apply (V5 i0 t0 e0 E0).
Qed.
Lemma place_in ls bh n h ix (k : nat) lg : ls !! k = Some lg → mkPlaced lg bh n h ix (N.of_nat k) ∈ place_logs ls bh n h ix.
Proof.
  intros Hk. unfold place_logs. apply elem_of_list_lookup. exists k. rewrite list_lookup_imap, Hk. done.
Qed.
Lemma walk_logs st n h l : header_by_number st n = Some h → block_hashes st n = l →
  (∀ x, x ∈ l → ∃ q r, tx_by_hash st x = Some q ∧ it_hash (rt_tx q) = x ∧ receipt_by_hash st x = Some r) →
  ∃ ls, logs_by_height header_hash st n = Some ls ∧
    ∀ x r (k : nat) lg, x ∈ l → receipt_by_hash st x = Some r → rc_logs r !! k = Some lg →
      mkPlaced lg (header_hash h) n x (rc_index r) (N.of_nat k) ∈ ls.
Proof.
  intros Hh Hl Hall. unfold logs_by_height. rewrite Hh. unfold block_txs. rewrite Hl. clear Hl.
  set (f := fun t : rtx => (fun r => place_logs (rc_logs r) (header_hash h) n (it_hash (rt_tx t)) (rc_index r)) <$> receipt_by_hash st (it_hash (rt_tx t))).
  assert (G : ∃ txs (lss : list (list placed_log)), mapM (tx_by_hash st) l = Some txs ∧ mapM f txs = Some lss ∧
     ∀ x r (k : nat) lg, x ∈ l → receipt_by_hash st x = Some r → rc_logs r !! k = Some lg →
      mkPlaced lg (header_hash h) n x (rc_index r) (N.of_nat k) ∈ (mjoin lss : list placed_log)).
  { induction l as [|x l IH].
    - exists [], []. split; [done|]. split; [done|]. intros x r k lg Hx. by apply elem_of_nil in Hx.
    - destruct IH as (txs & lss & E1 & E2 & E3); [intros y Hy; apply Hall, elem_of_cons; by right|].
      destruct (Hall x) as (q & r & Q1 & Q2 & Q3); [apply elem_of_cons; by left|].
      exists (q :: txs), (place_logs (rc_logs r) (header_hash h) n (it_hash (rt_tx q)) (rc_index r) :: lss).
      split; [|split].
      + cbn [mapM]. rewrite Q1. cbn [mbind option_bind]. rewrite E1. done.
      + assert (Ef : f q = Some (place_logs (rc_logs r) (header_hash h) n (it_hash (rt_tx q)) (rc_index r))) by (unfold f; cbv beta; rewrite Q2, Q3; done).
        cbn [mapM]. rewrite Ef. cbn [mbind option_bind]. rewrite E2. done.
      + intros y r' k lg Hy Hr Hk. cbn [mjoin list_join]. apply elem_of_app. apply elem_of_cons in Hy as [->|Hy].
        * left. rewrite Q3 in Hr. injection Hr as <-. rewrite Q2. by apply place_in.
        * right. by eapply E3. }
  destruct G as (txs & lss & -> & E2 & E3). fold f. rewrite E2. cbn. by eexists.
Qed.
Lemma one_block st latest n h h' ls : header_by_number st latest = Some h' → hd_number h' = latest → header_by_number st n = Some h → hd_number h = n →
  1 ≤ n → n ≤ latest → logs_by_height header_hash st n = Some ls →
  get_logs bloom_bits header_hash st latest (mkCrit [] []) (Between (Some (Z.of_N n)) (Some (Z.of_N n))) = LLogs ls.
Proof.
  intros H1 H2 H3 H4 Hn Hle Hls. unfold get_logs. cbn [length cr_topics Nat.ltb Nat.leb default].
  assert (E : ((0 <? Z.of_N n) && (0 <? Z.of_N n) && (Z.of_N n <? Z.of_N n))%Z = false) by (rewrite Z.ltb_irrefl; apply andb_false_r).
  unfold id. rewrite E. unfold logs_range. rewrite H1, H2. unfold resolve_bound.
  destruct (Z.ltb_spec (Z.of_N n) 0); [lia|]. destruct (Z.eqb_spec (Z.of_N n) 0); [lia|].
  rewrite Z.ltb_irrefl. destruct (Z.ltb_spec (Z.of_N latest) (Z.of_N n)); [lia|].
  rewrite N2Z.id. replace (Z.to_nat (Z.of_N n - Z.of_N n + 1)) with 1%nat by lia. cbn [range_logs].
  rewrite H3. unfold block_logs. cbn [bloom_filter cr_addresses cr_topics forallb andb]. rewrite H4, Hls. cbn [fmap option_fmap option_map lres_of].
  rewrite app_nil_r. f_equal. unfold filter_logs. clear. induction ls as [|p ls IH]; [done|]. cbn [List.filter].
  assert (check_log (mkCrit [] []) (pl_log p) = true) as -> by done. by rewrite IH.
Qed.
(** ... and its logs are counted twice: eth_getLogs for the earlier block and eth_getLogs for the
    later one both have them. *)
Theorem C136_logs_twice_refuted bs b (i j j1 k : nat) b1 t e t1 e1 lg : sound bs → ib_height b = N.of_nat (length bs) + 1 → indexable b →
  NoDup (map eth_hash (eth_entries b)) →
  bs !! i = Some b1 → eth_entries b1 !! j1 = Some (t1, e1) → eth_entries b !! j = Some (t, e) → it_hash t = it_hash t1 →
  e_logs e !! k = Some lg →
  let st := indexed (bs ++ [b]) in
  let logs_of n := get_logs bloom_bits header_hash st (ib_height b) (mkCrit [] []) (Between (Some (Z.of_N n)) (Some (Z.of_N n))) in
  ∃ l l' bh bh', logs_of (ib_height b1) = LLogs l ∧ logs_of (ib_height b) = LLogs l' ∧
    mkPlaced lg bh (ib_height b1) (it_hash t) (N.of_nat j + 1) (N.of_nat k) ∈ l ∧
    mkPlaced lg bh' (ib_height b) (it_hash t) (N.of_nat j + 1) (N.of_nat k) ∈ l'.
Proof.
  intros Hc Hh Hix Hnd Hb1 He1 He Heq Hlg st logs_of.
  destruct (chain_view_ok bloom_bits header_hash bs Hc) as [HW HV]. destruct (HV i b1 Hb1) as (h1 & V & _).
  destruct (index_block_new bloom_bits header_hash b (indexed bs) _ _ Hix Hnd HW Hh) as (h & _ & Vn & _).
  rewrite <- index_blocks_snoc in Vn. fold st in Vn.
  destruct (C136_moved_refuted bs b i j j1 b1 t e t1 e1 Hc Hh Hix Hnd Hb1 He1 He Heq) as (_ & _ & HB). fold st in HB.
  pose proof (view_hashes _ _ _ _ _ Vn) as HBn.
  destruct Vn as (N1 & N2 & N3 & N4 & N5 & N6). destruct V as (V1 & V2 & V3 & V4 & V5 & V6).
  assert (Hi : (i < length bs)%nat) by (by eapply lookup_lt_Some).
  pose proof (ch_heights _ Hc _ _ Hb1) as Hh1.
  assert (Hd1 : header_by_number st (ib_height b1) = Some h1).
  { unfold header_by_number, st. rewrite index_blocks_snoc, index_block_ok by done. cbv zeta. cbn [fst i_header]. rewrite lookup_insert_ne by lia. exact V1. }
  assert (Hnew : ∀ x, x ∈ map eth_hash (eth_entries b) → ∃ q r, tx_by_hash st x = Some q ∧ it_hash (rt_tx q) = x ∧ receipt_by_hash st x = Some r).
  { intros x Hx. apply elem_of_list_fmap in Hx as ([t0 e0] & -> & H0). apply elem_of_list_lookup in H0 as (i0 & H0).
    destruct (N5 _ _ _ H0) as (P1 & P2 & P3). by do 2 eexists. }
  assert (Hold : ∀ x, x ∈ map eth_hash (eth_entries b1) → ∃ q r, tx_by_hash st x = Some q ∧ it_hash (rt_tx q) = x ∧ receipt_by_hash st x = Some r).
  { intros x Hx. destruct (decide (x ∈ map eth_hash (eth_entries b))) as [Hb|Hb]; [by apply Hnew|].
    destruct (C136_kept bs b x Hix Hb) as (K1 & K2 & _). fold st in K1, K2. rewrite K1, K2.
    apply elem_of_list_fmap in Hx as ([t0 e0] & -> & H0). apply elem_of_list_lookup in H0 as (i0 & H0).
    destruct (V5 _ _ _ H0) as (P1 & P2 & P3). by do 2 eexists. }
  destruct (walk_logs st _ _ _ Hd1 HB Hold) as (l & L1 & L2).
  destruct (walk_logs st _ _ _ N1 HBn Hnew) as (l' & L1' & L2').
  destruct (N5 _ _ _ He) as (_ & _ & P3).
  exists l, l', (header_hash h1), (header_hash h).
  split; [unfold logs_of; eapply (one_block st (ib_height b) (ib_height b1) h1 h); [exact N1|done|exact Hd1|done|lia|lia|exact L1]|].
  split; [unfold logs_of; eapply (one_block st (ib_height b) (ib_height b) h h); [exact N1|done|exact N1|done|lia|lia|exact L1']|].
  split.
  - eapply (L2 _ _ k lg) in P3; [exact P3| |exact Hlg]. rewrite Heq. change (it_hash t1) with (eth_hash (t1, e1)). apply elem_of_list_fmap_1. by eapply elem_of_list_lookup_2.
  - eapply (L2' _ _ k lg) in P3; [exact P3| |exact Hlg]. change (it_hash t) with (eth_hash (t, e)). apply elem_of_list_fmap_1. by eapply elem_of_list_lookup_2.
Qed.
End props.

(** A concrete chain: block 1 has the transactions 1, 2 and 3 (2 failed), block 2 transaction 4;
    block 3 has transaction 2 again, in a Cosmos transaction of its own, now successful. *)
Definition tx_b3 : iblock := mkBlock 3
  [mkEntry (IEth (mkITx [2] false 7 [])) [106] 0 21000 (IRCall [ex_l 12 22])] [].
Example C135_example :
  let st := index_blocks ex_bits ex_hash (ex_chain ++ [tx_b3]) in
  map (cosmos_tx_hash_by_tx_hash st) [[1]; [2]; [4]; [9]] = [[101]; [106]; [105]; zero_hash] ∧
  map (tx_hash_by_cosmos_tx_hash st) [[101]; [103]; [106]; [100]] = [[1]; [2]; [2]; zero_hash].
Proof. split; vm_compute; reflexivity. Qed.
Example C135_example_hashed : hashed_bytes (ex_chain ++ [tx_b3]).
Proof.
  intros te te' H H'. cbn in H, H'.
  repeat (apply elem_of_cons in H as [->|H]; [repeat (apply elem_of_cons in H' as [->|H']; [cbn; congruence|]); by apply elem_of_nil in H'|]).
  by apply elem_of_nil in H.
Qed.
Example C136_example :
  let st := index_blocks ex_bits ex_hash (ex_chain ++ [tx_b3]) in
  indexable tx_b3 ∧
  (rt_number <$> tx_by_block_index st 1 2) = Some 3 ∧ (rc_ok <$> receipt_by_hash st [2]) = Some true ∧
  map (λ n, match get_logs ex_bits ex_hash st 3 (mkCrit [] []) (Between (Some n) (Some n)) with LErr => 99%nat | LLogs l => length l end) [1; 2; 3]%Z = [4; 1; 1]%nat.
Proof.
  split; [|split; [|split]]; [|vm_compute; reflexivity..].
  intros e He. apply elem_of_list_singleton in He as ->. cbn. split; [done|]. intros t Ht. by simplify_eq.
Qed.
