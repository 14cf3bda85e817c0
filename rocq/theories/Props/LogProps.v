(** C42 indexed receipts; C43 eth_getLogs. *)
From Verif.Base Require Import Prelude.
From Verif.Model Require Import EthLog Indexer.
From Verif.Spec Require Import IndexerSpec.
From Verif.Proofs Require Import IndexerP.
Open Scope N_scope.

Section props.
(** For every Bloom hash, and every block hash function; that no two headers of the chain have
    the same hash is part of [sound]. *)
Variable bloom_bits : bytes → list N.
Variable header_hash : header → bytes.
Notation sound := (sound_chain bloom_bits header_hash).
Notation indexed := (index_blocks bloom_bits header_hash).

(** The hash of the block at height [n] as the node reports it. *)
Definition hash_at (st : istate) (n : N) : bytes :=
  match header_by_number st n with Some h => header_hash h | None => zero_hash end.

Lemma view_at bs (i : nat) b : sound bs → bs !! i = Some b →
  ∃ h, block_view bloom_bits header_hash (indexed bs) b h ∧ hash_at (indexed bs) (ib_height b) = header_hash h ∧
       hd_parent h = match i with O => zero_hash | S _ => hash_at (indexed bs) (N.of_nat i) end.
Proof.
  intros Hc Hi. destruct (chain_view_ok bloom_bits header_hash bs Hc) as [_ HV].
  destruct (HV i b Hi) as (h & V & Hp). exists h. split; [done|]. split.
  - destruct V as (V1 & _). unfold hash_at, header_by_number. rewrite V1. done.
  - rewrite Hp. destruct i; done.
Qed.

(** C42. For every block of every chain and every Ethereum transaction in it (the j-th):
    it is found by its hash and by its block and index, both give the same answer with the
    block's hash and height, and its receipt has the transaction's own status, gas, logs,
    contract and index, and as cumulative gas the sum of the gas used in the block up to
    and including it. Indices are consecutive, counted from 1 (see [C70_index_zero_refuted]). *)
Theorem C42_retrieval bs (i : nat) b (j : nat) t e :
  sound bs → bs !! i = Some b → eth_entries b !! j = Some (t, e) →
  let st := indexed bs in
  let here := mkRtx t (hash_at st (ib_height b)) (ib_height b) (N.of_nat j + 1) in
  tx_by_hash st (it_hash t) = Some here ∧
  tx_by_block_index st (ib_height b) (N.of_nat j + 1) = Some here ∧
  rpc_tx_by_hash_index st (hash_at st (ib_height b)) (N.of_nat j + 1) = Some here ∧
  ∃ r, receipt_by_hash st (it_hash t) = Some r ∧
    rc_index r = N.of_nat j + 1 ∧
    rc_ok r = (ie_code e =? 0) ∧
    rc_gas r = Z.to_N (ie_gas e mod 2 ^ 64) ∧
    rc_cumulative r = nsum (map (fun te => Z.to_N (ie_gas te.2 mod 2 ^ 64)) (take (S j) (eth_entries b))) mod 2 ^ 64 ∧
    rc_logs r = e_logs e ∧ rc_contract r = e_contract e ∧ rc_price r = it_price t.
Proof.
  intros Hc Hb Hj st here. destruct (view_at bs i b Hc Hb) as (h & V & Hh & _). fold st in V, Hh.
  destruct V as (V1 & V2 & V3 & V4 & V5 & V6). destruct (V5 j t e Hj) as (P1 & P2 & P3).
  assert (Ht : tx_by_hash st (it_hash t) = Some here).
  { unfold here. rewrite Hh. exact P1. }
  assert (Hti : tx_by_block_index st (ib_height b) (N.of_nat j + 1) = Some here).
  { unfold tx_by_block_index. rewrite P2. exact Ht. }
  split; [done|]. split; [done|]. split.
  { unfold rpc_tx_by_hash_index. rewrite Hh, V4. exact Hti. }
  eexists. split; [exact P3|]. repeat (split; [reflexivity|]). reflexivity.
Qed.

(** C42. No other index of the block leads to a transaction, and walking the block gives
    exactly its transactions and their receipts, in block order. *)
Theorem C42_no_other_index bs (i : nat) b k :
  sound bs → bs !! i = Some b → (k = 0 ∨ N.of_nat (length (eth_entries b)) < k) →
  tx_by_block_index (indexed bs) (ib_height b) k = None.
Proof.
  intros Hc Hb Hk. destruct (view_at bs i b Hc Hb) as (h & V & _ & _).
  destruct V as (_ & _ & _ & _ & _ & V6). unfold tx_by_block_index.
  destruct (i_by_index (indexed bs) !! (ib_height b, k)) as [x|] eqn:E; [|done].
  destruct (V6 k x E) as (j & t & e & Hj & ->). apply lookup_lt_Some in Hj. lia.
Qed.

Theorem C42_block_walk bs (i : nat) b :
  sound bs → bs !! i = Some b →
  let st := indexed bs in
  block_txs st (ib_height b) =
    Some (imap (fun j te => mkRtx te.1 (hash_at st (ib_height b)) (ib_height b) (N.of_nat j + 1)) (eth_entries b)) ∧
  ∃ rs, block_receipts st (ib_height b) = Some rs ∧ length rs = length (eth_entries b) ∧
    ∀ (j : nat) t e, eth_entries b !! j = Some (t, e) → rs !! j = receipt_by_hash st (it_hash t).
Proof.
  intros Hc Hb st. destruct (view_at bs i b Hc Hb) as (h & V & Hh & _). fold st in V, Hh. split.
  - rewrite Hh. eapply view_txs. exact V.
  - eexists. split; [eapply view_receipts; exact V|]. split; [apply imap_length|].
    intros j t e Hj. rewrite list_lookup_imap, Hj. cbn.
    destruct V as (_ & _ & _ & _ & V5 & _). destruct (V5 j t e Hj) as (_ & _ & P3).
    unfold receipt_by_hash. rewrite P3. reflexivity.
Qed.

(** C42. Every block is found by its number and by its hash, and names its parent. *)
Theorem C42_headers bs (i : nat) b :
  sound bs → bs !! i = Some b →
  let st := indexed bs in
  ∃ h, header_by_number st (ib_height b) = Some h ∧ header_by_hash st (header_hash h) = Some h ∧
    hd_number h = ib_height b ∧
    hd_parent h = match i with O => zero_hash | S _ => hash_at st (ib_height b - 1) end.
Proof.
  intros Hc Hb st. destruct (view_at bs i b Hc Hb) as (h & V & Hh & Hp). fold st in V, Hh, Hp.
  destruct V as (V1 & V2 & _ & V4 & _). exists h. split; [done|]. split.
  { unfold header_by_hash. rewrite V4. done. }
  split; [done|]. rewrite Hp. destruct i as [|i']; [done|].
  rewrite (ch_heights _ Hc _ _ Hb). f_equal. lia.
Qed.

(** C42. The Cosmos hash of a transaction and its Ethereum hash lead to each other, when
    the Cosmos hashes of the block are distinct too. *)
Lemma to_cosmos_ne l m x : x ∉ map (fun te : itx * ientry => it_hash te.1) l → to_cosmos_all l m !! x = m !! x.
Proof.
  revert m. induction l as [|te l IH]; intros m H; cbn; [done|].
  cbn in H. apply not_elem_of_cons in H as [H1 H2]. unfold to_cosmos_all in IH. rewrite IH by done.
  rewrite lookup_insert_ne by done. done.
Qed.
Lemma to_cosmos_in l m j t e : NoDup (map (fun te : itx * ientry => it_hash te.1) l) → l !! j = Some (t, e) →
  to_cosmos_all l m !! it_hash t = Some (ie_cosmos_hash e).
Proof.
  revert m j. induction l as [|te l IH]; intros m j Hnd Hj; [done|].
  cbn in Hnd. apply NoDup_cons in Hnd as [Hx Hnd]. destruct j as [|j]; cbn in Hj.
  - injection Hj as ->. cbn. fold (to_cosmos_all l). rewrite to_cosmos_ne by done. rewrite lookup_insert. done.
  - cbn. fold (to_cosmos_all l). eapply IH; eauto.
Qed.
Lemma of_cosmos_ne l m x : x ∉ map (fun te : itx * ientry => ie_cosmos_hash te.2) l → of_cosmos_all l m !! x = m !! x.
Proof.
  revert m. induction l as [|te l IH]; intros m H; cbn; [done|].
  cbn in H. apply not_elem_of_cons in H as [H1 H2]. unfold of_cosmos_all in IH. rewrite IH by done.
  rewrite lookup_insert_ne by done. done.
Qed.
Lemma of_cosmos_in l m j t e : NoDup (map (fun te : itx * ientry => ie_cosmos_hash te.2) l) → l !! j = Some (t, e) →
  of_cosmos_all l m !! ie_cosmos_hash e = Some (it_hash t).
Proof.
  revert m j. induction l as [|te l IH]; intros m j Hnd Hj; [done|].
  cbn in Hnd. apply NoDup_cons in Hnd as [Hx Hnd]. destruct j as [|j]; cbn in Hj.
  - injection Hj as ->. cbn. fold (of_cosmos_all l). rewrite of_cosmos_ne by done. rewrite lookup_insert. done.
  - cbn. fold (of_cosmos_all l). eapply IH; eauto.
Qed.
Theorem C42_hash_maps st b (j : nat) t e :
  indexable b →
  NoDup (map (fun te => it_hash te.1) (eth_entries b)) →
  NoDup (map (fun te => ie_cosmos_hash te.2) (eth_entries b)) →
  eth_entries b !! j = Some (t, e) →
  let st' := (index_block bloom_bits header_hash b st).1 in
  i_to_cosmos st' !! it_hash t = Some (ie_cosmos_hash e) ∧
  i_of_cosmos st' !! ie_cosmos_hash e = Some (it_hash t).
Proof.
  intros Hix H1 H2 Hj st'. unfold st'. rewrite (index_block_ok _ _ b st Hix). cbv zeta. cbn [fst i_to_cosmos i_of_cosmos].
  split; [eapply to_cosmos_in | eapply of_cosmos_in]; eauto.
Qed.

(** C42. Indexing a block fails exactly when some transaction of it cannot be converted or
    a successful one carries the wrong response; no header is stored then. *)
Theorem C42_indexing_fails_iff st b :
  ((index_block bloom_bits header_hash b st).2 = None ↔ ¬ indexable b) ∧
  ((index_block bloom_bits header_hash b st).2 = None →
     i_header (index_block bloom_bits header_hash b st).1 = i_header st ∧
     i_tx (index_block bloom_bits header_hash b st).1 = i_tx st ∧
     i_receipt (index_block bloom_bits header_hash b st).1 = i_receipt st ∧
     i_by_index (index_block bloom_bits header_hash b st).1 = i_by_index st).
Proof.
  split; [split|].
  - intros H Hix. rewrite (index_block_ok _ _ b st Hix) in H. done.
  - intros Hn. destruct ((index_block bloom_bits header_hash b st).2) as [x|] eqn:E; [|done]. exfalso. apply Hn.
    unfold index_block in E.
    destruct (index_loop bloom_bits (ib_entries b) st 0 0 [] []) as [st1 [[txs rs]|]] eqn:El; [|done].
    intros e He. eapply (index_loop_some bloom_bits (ib_entries b) st 0 0 [] []); [|exact He].
    rewrite El. reflexivity.
  - unfold index_block.
    assert (G : ∀ es st idx cum txs rs, (index_loop bloom_bits es st idx cum txs rs).2 = None →
      i_header (index_loop bloom_bits es st idx cum txs rs).1 = i_header st ∧
      i_tx (index_loop bloom_bits es st idx cum txs rs).1 = i_tx st ∧
      i_receipt (index_loop bloom_bits es st idx cum txs rs).1 = i_receipt st ∧
      i_by_index (index_loop bloom_bits es st idx cum txs rs).1 = i_by_index st).
    { clear. induction es as [|e es IH]; intros st idx cum txs rs; cbn [index_loop]; [done|].
      destruct (ie_conv e) as [| | |t]; auto.
      destruct (extract_logs _ _ _) as [[ls c]|]; [|done]. intros H. apply IH in H. exact H. }
    destruct (index_loop bloom_bits (ib_entries b) st 0 0 [] []) as [st1 [[txs rs]|]] eqn:El; [done|].
    intros _. specialize (G (ib_entries b) st 0 0 [] []). rewrite El in G. auto.
Qed.

(** C42. What subscribers are sent for a block is all its logs in order, each with its
    transaction's hash and position; no empty batch is sent. *)
Lemma emit_chain_logs k idx cum l bh n :
  mjoin (emit_loop k (map fst l) (receipts_from bloom_bits idx cum l) bh n) =
  mjoin (imap (fun i te => imap (fun j lg => mkPlaced lg bh n (it_hash te.1) (N.of_nat (k + i)) (N.of_nat j))
                                (e_logs te.2)) l) ∧
  [] ∉ emit_loop k (map fst l) (receipts_from bloom_bits idx cum l) bh n.
Proof.
  revert k idx cum. induction l as [|[t e] l IH]; intros k idx cum; cbn.
  - split; [done|]. apply not_elem_of_nil.
  - destruct (IH (S k) (idx + 1) (u64_add cum (e_gas e))) as [H1 H2].
    assert (E : mjoin (imap ((fun i te => imap (fun j lg => mkPlaced lg bh n (it_hash te.1) (N.of_nat (k + i)) (N.of_nat j))
                  (e_logs te.2)) ∘ S) l) =
             mjoin (imap (fun i te => imap (fun j lg => mkPlaced lg bh n (it_hash te.1) (N.of_nat (S k + i)) (N.of_nat j))
                                (e_logs te.2)) l)).
    { f_equal. apply imap_ext. intros i x _. cbn. apply imap_ext. intros j y _. f_equal. lia. }
    destruct (e_logs e) as [|lg ls] eqn:El.
    + split; [|exact H2]. etransitivity; [exact H1|]. symmetry. exact E.
    + split.
      * cbn. rewrite Nat.add_0_r. f_equal. f_equal. etransitivity; [exact H1|]. symmetry. exact E.
      * rewrite not_elem_of_cons. split; [done|exact H2].
Qed.

Theorem C42_emitted_logs st b h batches :
  (index_block bloom_bits header_hash b st).2 = Some (h, batches) →
  mjoin batches = chain_logs 0 (header_hash h) b ∧ [] ∉ batches.
Proof.
  intros H. assert (Hix : indexable b).
  { destruct (C42_indexing_fails_iff st b) as [[_ Hn] _]. intros e He.
    unfold index_block in H.
    destruct (index_loop bloom_bits (ib_entries b) st 0 0 [] []) as [st1 [[txs rs]|]] eqn:El; [|done].
    eapply (index_loop_some bloom_bits (ib_entries b) st 0 0 [] []); [|exact He]. rewrite El. reflexivity. }
  rewrite (index_block_ok _ _ b st Hix) in H. cbv zeta in H. cbn [snd] in H. injection H as <- <-.
  destruct (emit_chain_logs 0 0 0 (eth_entries b)
    (header_hash (mkHeader (ib_height b) (create_bloom bloom_bits (receipts_from bloom_bits 0 0 (eth_entries b)))
                      (parent_hash header_hash st (ib_height b)) (ib_rest b))) (ib_height b)) as [H1 H2].
  split; [|exact H2]. etransitivity; [exact H1|]. unfold chain_logs. f_equal. apply imap_ext.
  intros i x _. cbn. apply imap_ext. intros j y _. f_equal. lia.
Qed.

(** C42. The logs read back (eth_getLogs, eth_getTransactionReceipt) carry their
    transaction's hash, block and stored index. *)
Theorem C42_stored_logs bs (i : nat) b :
  sound bs → bs !! i = Some b →
  let st := indexed bs in
  logs_by_height header_hash st (ib_height b) = Some (chain_logs 1 (hash_at st (ib_height b)) b) ∧
  ∀ (j : nat) t e, eth_entries b !! j = Some (t, e) →
    receipt_logs st (it_hash t) =
    Some (imap (fun k l => mkPlaced l (hash_at st (ib_height b)) (ib_height b) (it_hash t) (N.of_nat j + 1) (N.of_nat k)) (e_logs e)).
Proof.
  intros Hc Hb st. destruct (view_at bs i b Hc Hb) as (h & V & Hh & _). fold st in V, Hh. split.
  - rewrite Hh. eapply view_logs. exact V.
  - intros j t e Hj. destruct V as (_ & _ & _ & _ & V5 & _). destruct (V5 j t e Hj) as (P1 & P2 & P3).
    unfold receipt_logs, tx_by_hash, receipt_by_hash. rewrite P1, P3. cbn. rewrite Hh. done.
Qed.

(** C42, the parts that fail. (1) The index 0, the first transaction for any Ethereum
    client, never leads to a transaction: stored indices start at 1. (2) The same log is
    announced to subscribers with one transaction index and served later with another. *)
Theorem C70_index_zero_refuted bs (i : nat) b t e h batches st0 :
  sound bs → bs !! i = Some b → eth_entries b !! 0%nat = Some (t, e) → e_logs e ≠ [] →
  rpc_tx_by_number_index (indexed bs) (Z.of_N (ib_height b)) 0 = None ∧
  rpc_tx_by_hash_index (indexed bs) (hash_at (indexed bs) (ib_height b)) 0 = None ∧
  ((index_block bloom_bits header_hash b st0).2 = Some (h, batches) →
   ∃ p q, head (mjoin batches) = Some p ∧ (logs_by_height header_hash (indexed bs) (ib_height b)) ≫= head = Some q ∧
     pl_log p = pl_log q ∧ pl_tx_hash p = pl_tx_hash q ∧ pl_tx_index p = 0 ∧ pl_tx_index q = 1).
Proof.
  intros Hc Hb H0 Hl.
  assert (Hi : ib_height b = N.of_nat i + 1) by exact (ch_heights _ Hc _ _ Hb).
  split; [|split].
  - unfold rpc_tx_by_number_index.
    destruct (view_at bs i b Hc Hb) as (hh & V & _ & _). destruct V as (_ & _ & _ & _ & _ & V6).
    destruct (decide (ib_height b < 2 ^ 64)) as [Hs|Hs].
    + rewrite Z.mod_small by lia. rewrite N2Z.id. eapply C42_no_other_index; eauto.
    + (* a height beyond the range of uint64 wraps to another block's entry *)
      assert (Hw : ∀ m, tx_by_block_index (indexed bs) m 0 = None).
      { intros m. unfold tx_by_block_index. destruct (i_by_index (indexed bs) !! (m, 0)) as [x|] eqn:E; [|done].
        exfalso.
        assert (Hm : ∀ l, chain l → ∀ m x, i_by_index (indexed l) !! (m, 0) = Some x → False).
        { clear. induction l as [|b0 l IH] using rev_ind; intros Hc m x Hx; [done|].
          destruct (plain_chain_snoc _ _ Hc) as (Hc' & Hh & Hix & _). rewrite index_blocks_snoc in Hx.
          rewrite (index_block_ok _ _ b0 _ Hix) in Hx. cbv zeta in Hx. cbn [fst i_by_index] in Hx.
          rewrite store_loop_ix_ne in Hx.
          - cbn in Hx. eapply IH; eauto.
          - right. rewrite receipts_index_in. intros (k & _ & Hk). lia. }
        exact (Hm _ (sc_chain Hc) _ _ E). }
      apply Hw.
  - unfold rpc_tx_by_hash_index.
    destruct (view_at bs i b Hc Hb) as (hh & V & Hh & _). destruct V as (_ & _ & _ & V4 & _).
    rewrite Hh, V4. cbn. eapply C42_no_other_index; eauto.
  - intros He. destruct (C42_emitted_logs _ _ _ _ He) as [Hm _]. rewrite Hm.
    destruct (C42_stored_logs bs i b Hc Hb) as [Hs _]. rewrite Hs.
    unfold chain_logs. destruct (eth_entries b) as [|te l]; [done|]. cbn in H0. injection H0 as ->. cbn.
    destruct (e_logs e) as [|lg ls]; [done|]. cbn. eexists _, _. repeat (split; [reflexivity|]). reflexivity.
Qed.

(** (3) Log indices restart in every transaction: two different logs of one block are
    served with the same (block hash, log index). *)
Theorem C70_log_index_refuted bs (i : nat) b (j k : nat) tj ej tk ek :
  sound bs → bs !! i = Some b → j ≠ k →
  eth_entries b !! j = Some (tj, ej) → eth_entries b !! k = Some (tk, ek) → e_logs ej ≠ [] → e_logs ek ≠ [] →
  ∃ ls p q, logs_by_height header_hash (indexed bs) (ib_height b) = Some ls ∧ p ∈ ls ∧ q ∈ ls ∧
    pl_tx_hash p ≠ pl_tx_hash q ∧ pl_block_hash p = pl_block_hash q ∧ pl_index p = pl_index q.
Proof.
  intros Hc Hb Hjk Hj Hk Lj Lk. destruct (C42_stored_logs bs i b Hc Hb) as [Hs _]. rewrite Hs.
  destruct (e_logs ej) as [|lj lsj] eqn:Ej; [done|]. destruct (e_logs ek) as [|lk lsk] eqn:Ek; [done|].
  set (bh := hash_at (indexed bs) (ib_height b)).
  exists (chain_logs 1 bh b), (mkPlaced lj bh (ib_height b) (it_hash tj) (N.of_nat j + 1) 0),
         (mkPlaced lk bh (ib_height b) (it_hash tk) (N.of_nat k + 1) 0).
  assert (Hin : ∀ (m : nat) t e lg ls, eth_entries b !! m = Some (t, e) → e_logs e = lg :: ls →
     mkPlaced lg bh (ib_height b) (it_hash t) (N.of_nat m + 1) 0 ∈ chain_logs 1 bh b).
  { intros m t e lg ls Hm El. unfold chain_logs. apply elem_of_list_join.
    exists (imap (fun j0 l => mkPlaced l bh (ib_height b) (it_hash t) (N.of_nat m + 1) (N.of_nat j0)) (e_logs e)).
    split.
    - rewrite El. cbn. left.
    - apply elem_of_lookup_imap. exists m, (t, e). done. }
  split; [done|]. split; [eapply Hin; eauto|]. split; [eapply Hin; eauto|].
  split; [|done]. cbn. intros E.
  pose proof (ch_distinct _ Hc) as Hnd.
  assert (Hnd' : NoDup (map (fun te => it_hash te.1) (eth_entries b))).
  { clear -Hnd Hb. revert i Hb. induction bs as [|b0 bs IH]; intros i Hb; [done|].
    cbn in Hnd. apply NoDup_app in Hnd as (N1 & _ & N3). destruct i as [|i]; cbn in Hb.
    - injection Hb as ->. done.
    - eapply IH; eauto. }
  apply Hjk. eapply NoDup_lookup; [exact Hnd'| |].
  - rewrite list_lookup_fmap, Hj. reflexivity.
  - rewrite list_lookup_fmap, Hk. cbn. f_equal. symmetry. exact E.
Qed.

(** (4) When a block includes a transaction again (it fails for its used nonce), the
    successful receipt of the first inclusion is lost. *)
Theorem C70_reinclusion_refuted bs b t e :
  indexable b → eth_entries b = [(t, e)] → ie_code e ≠ 0 →
  let st := index_blocks bloom_bits header_hash bs in
  ∃ r, receipt_by_hash (index_block bloom_bits header_hash b st).1 (it_hash t) = Some r ∧
    rc_ok r = false ∧ rc_logs r = [].
Proof.
  intros Hix He Hcode st. rewrite (index_block_ok _ _ b st Hix). cbv zeta. cbn [fst].
  rewrite He. cbn. unfold receipt_by_hash; cbn. rewrite lookup_insert. eexists; split; [reflexivity|].
  cbn. unfold e_ok, e_logs, e_ok. destruct (N.eqb_spec (ie_code e) 0); done.
Qed.

(** (5) Block tags other than numbers ("latest" is -2, "pending" -1, "finalized" -3,
    "safe" -4) are used as the number 2^64 minus something: never found. *)
Theorem C70_tag_refuted bs tag k :
  sound bs → (-2 ^ 63 ≤ tag < 0)%Z → N.of_nat (length bs) < 2 ^ 63 →
  rpc_tx_by_number_index (indexed bs) tag k = None.
Proof.
  intros Hc Ht Hl. destruct (chain_view_ok bloom_bits header_hash bs Hc) as [(W1 & _) _].
  unfold rpc_tx_by_number_index, tx_by_block_index.
  assert (E : (tag mod 2 ^ 64 = tag + 2 ^ 64)%Z).
  { symmetry. apply Z.mod_unique with (q := (-1)%Z); [left; lia|lia]. }
  destruct (i_by_index (indexed bs) !! (Z.to_N (tag mod 2 ^ 64), k)) as [x|] eqn:Ex; [|done].
  apply W1 in Ex. rewrite E in Ex. lia.
Qed.

(** ** C43 *)
Lemma includes_true l x : includes l x = true ↔ x ∈ l.
Proof.
  unfold includes. rewrite existsb_exists. split.
  - intros (y & Hy & E). apply bool_decide_eq_true in E. subst. apply elem_of_list_In. done.
  - intros H. exists x. split; [apply elem_of_list_In; done|]. apply bool_decide_eq_true. done.
Qed.

Local Arguments includes : simpl never.
(** The check of the code is the declarative one. *)
Theorem C43_check_is_match c l : check_log c l = true ↔ log_matches c l.
Proof.
  unfold check_log, log_matches.
  assert (Ha : (match cr_addresses c with [] => false | _ => true end) && negb (includes (cr_addresses c) (el_address l)) = false
     ↔ (cr_addresses c = [] ∨ el_address l ∈ cr_addresses c)).
  { rewrite andb_false_iff, negb_false_iff, includes_true. destruct (cr_addresses c); split; intros [?|?]; auto; done. }
  destruct (_ && _).
  { split; [done|]. intros [H _]. apply Ha in H. done. }
  assert (Ha' := proj1 Ha eq_refl). clear Ha.
  destruct (Nat.ltb_spec (length (el_topics l)) (length (cr_topics c))) as [Hlt|Hge].
  { split; [done|]. intros [_ H].
    destruct (lookup_lt_is_Some_2 _ _ Hlt) as [sub Hsub].
    destruct (H _ _ Hsub) as (t & Ht & _). apply lookup_lt_Some in Ht. lia. }
  rewrite forallb_forall. split.
  - intros H. split; [done|]. intros i sub Hsub.
    assert (Hi : (i < length (el_topics l))%nat) by (apply lookup_lt_Some in Hsub; lia).
    apply lookup_lt_is_Some in Hi as [t Ht]. exists t. split; [done|].
    specialize (H (sub, t)).
    assert (Hin : In (sub, t) (zip (cr_topics c) (el_topics l))).
    { apply elem_of_list_In. apply elem_of_list_lookup. exists i. apply lookup_zip_with_Some. eauto. }
    specialize (H Hin). cbn in H. destruct sub; [auto|]. right. apply includes_true. done.
  - intros [_ H] [sub t] Hin. cbn. apply elem_of_list_In, elem_of_list_lookup in Hin as [i Hi].
    apply lookup_zip_with_Some in Hi as (sub' & t' & [= -> ->] & Hs & Ht).
    destruct (H i sub' Hs) as (t2 & Ht2 & Hx). assert (t2 = t') as -> by congruence.
    destruct sub'; [done|]. apply includes_true. destruct Hx; done.
Qed.

(** C43. The Bloom pre-check never hides a matching log. *)
Theorem C43_bloom_sound c b l (lgs : list (list eth_log)) ls :
  b = ⋃ (map (logs_bloom bloom_bits) lgs) → ls ∈ lgs → l ∈ ls → log_matches c l →
  bloom_filter bloom_bits b c = true.
Proof.
  intros Hb Hls Hl [Ha Ht].
  assert (Hsub : ∀ x, x ∈ el_address l :: el_topics l → bloom_lookup bloom_bits b x = true).
  { intros x Hx. unfold bloom_lookup. apply forallb_forall. intros n Hn. apply bool_decide_eq_true.
    rewrite Hb. apply elem_of_union_list. exists (logs_bloom bloom_bits ls).
    split; [apply elem_of_list_fmap; eauto|]. unfold logs_bloom. apply elem_of_union_list.
    exists (log_bloom bloom_bits l). split; [apply elem_of_list_fmap; eauto|].
    unfold log_bloom. apply elem_of_list_to_set, elem_of_app. apply elem_of_cons in Hx as [->|Hx].
    - left. apply elem_of_list_In. done.
    - right. apply elem_of_list_bind. exists x. split; [apply elem_of_list_In; done|done]. }
  unfold bloom_filter. apply andb_true_iff. split.
  - destruct (cr_addresses c) as [|a0 al] eqn:E; [done|]. apply existsb_exists. exists (el_address l).
    destruct Ha as [Ha|Ha]; [done|]. split; [apply elem_of_list_In; done|]. apply Hsub. left.
  - apply forallb_forall. intros sub Hin. apply elem_of_list_In, elem_of_list_lookup in Hin as [i Hi].
    destruct (Ht i sub Hi) as (t & Hti & Hor). destruct sub as [|s0 sub]; [done|].
    apply existsb_exists. exists t. destruct Hor as [|Hin]; [done|]. split; [apply elem_of_list_In; done|].
    apply Hsub. right. eapply elem_of_list_lookup_2; eauto.
Qed.

(** The logs of blocks [b]..[e] that satisfy [p], block by block and in block order. *)
Definition blocks_between (bs : list iblock) (b e : Z) : list iblock :=
  take (Z.to_nat (e - b + 1)) (drop (Z.to_nat (b - 1)) bs).
Definition logs_between (st : istate) (bs : list iblock) (p : eth_log → bool) (b e : Z) : list placed_log :=
  List.filter (fun l => p (pl_log l))
    (mjoin (map (fun blk => chain_logs 1 (hash_at st (ib_height blk)) blk) (blocks_between bs b e))).

Lemma filter_app_ {A} (f : A → bool) l1 l2 : List.filter f (l1 ++ l2) = List.filter f l1 ++ List.filter f l2.
Proof. induction l1 as [|x l1 IH]; cbn; [done|]. destruct (f x); cbn; rewrite IH; done. Qed.
Lemma filter_ext_ {A} (f g : A → bool) l : (∀ x, In x l → f x = g x) → List.filter f l = List.filter g l.
Proof.
  induction l as [|x l IH]; cbn; intros H; [done|]. rewrite (H x) by auto. rewrite IH by auto. done.
Qed.
Lemma filter_none_ {A} (f : A → bool) l : (∀ x, In x l → f x = false) → List.filter f l = [].
Proof. induction l as [|x l IH]; cbn; intros H; [done|]. rewrite (H x) by auto. auto. Qed.

Lemma placed_in bh first b p : p ∈ chain_logs first bh b → ∃ te, te ∈ eth_entries b ∧ pl_log p ∈ e_logs te.2.
Proof.
  unfold chain_logs. rewrite elem_of_list_join. intros (l & Hp & Hl).
  apply elem_of_lookup_imap in Hl as (i & te & -> & Hte).
  apply elem_of_lookup_imap in Hp as (j & lg & -> & Hlg).
  exists te. split; [eapply elem_of_list_lookup_2; eauto|]. cbn. eapply elem_of_list_lookup_2; eauto.
Qed.

Lemma block_logs_ok bs (i : nat) b c p h :
  sound bs → bs !! i = Some b → (∀ l, p l = true ↔ log_matches c l) →
  header_by_number (indexed bs) (ib_height b) = Some h →
  block_logs bloom_bits header_hash (indexed bs) c h =
  Some (List.filter (fun l => p (pl_log l)) (chain_logs 1 (hash_at (indexed bs) (ib_height b)) b)).
Proof.
  intros Hc Hb Hp Hh. destruct (view_at bs i b Hc Hb) as (h' & V & Hha & _).
  assert (h' = h) as ->. { destruct V as (V1 & _). unfold header_by_number in Hh. congruence. }
  assert (Hpc : ∀ l, check_log c l = p l).
  { intros l. destruct (check_log c l) eqn:E1, (p l) eqn:E2; try done; exfalso.
    - apply C43_check_is_match in E1. apply Hp in E1. congruence.
    - apply Hp in E2. apply C43_check_is_match in E2. congruence. }
  unfold block_logs. pose proof V as (V1 & V2 & V3 & _).
  rewrite V2, (view_logs _ _ _ _ _ V), Hha. cbn.
  destruct (bloom_filter bloom_bits (hd_bloom h) c) eqn:Eb.
  - f_equal. unfold filter_logs. apply filter_ext_. intros x _. apply Hpc.
  - f_equal. symmetry. apply filter_none_. intros x Hx. destruct (p (pl_log x)) eqn:Ep; [|done].
    exfalso. apply Hp in Ep. apply elem_of_list_In in Hx. apply placed_in in Hx as (te & Hte & Hl).
    assert (bloom_filter bloom_bits (hd_bloom h) c = true); [|congruence].
    eapply (C43_bloom_sound c _ _ (map (fun te => e_logs te.2) (eth_entries b))).
    + rewrite V3. rewrite map_map. reflexivity.
    + apply elem_of_list_fmap. exists te. split; [reflexivity|done].
    + exact Hl.
    + exact Ep.
Qed.

Lemma range_logs_ok bs c p k n :
  sound bs → (∀ l, p l = true ↔ log_matches c l) → (k + n ≤ length bs)%nat →
  range_logs bloom_bits header_hash (indexed bs) c (N.of_nat k + 1) n =
  Some (List.filter (fun l => p (pl_log l))
    (mjoin (map (fun blk => chain_logs 1 (hash_at (indexed bs) (ib_height blk)) blk) (take n (drop k bs))))).
Proof.
  intros Hc Hp. revert k. induction n as [|n IH]; intros k Hk.
  - rewrite take_0. reflexivity.
  - destruct (lookup_lt_is_Some_2 bs k ltac:(lia)) as [b Hb].
    rewrite (drop_S _ _ _ Hb). rewrite firstn_cons. cbn [range_logs map].
    pose proof (ch_heights _ Hc _ _ Hb) as Hh. rewrite <- Hh.
    destruct (view_at bs k b Hc Hb) as (h & V & _ & _).
    assert (E : header_by_number (indexed bs) (ib_height b) = Some h) by apply V.
    rewrite E. rewrite (block_logs_ok bs k b c p h Hc Hb Hp E).
    replace (ib_height b + 1) with (N.of_nat (S k) + 1) by lia.
    rewrite (IH (S k)) by lia. cbn. rewrite filter_app_. done.
Qed.

(** C43. eth_getLogs over a range of blocks, on any indexed chain: negative bounds mean the
    head, 0 means block 1, absent means the head; an inverted range or more than four
    topics is an error; otherwise the answer is exactly the matching logs of the existing
    blocks of the range, in block and log order. *)
Definition bound (head : Z) (o : option Z) : Z :=
  match o with
  | None => head
  | Some x => if (x <? 0)%Z then head else if (x =? 0)%Z then 1%Z else x
  end.
Theorem C43_range_exact bs c p from to :
  sound bs → bs ≠ [] → (∀ l, p l = true ↔ log_matches c l) →
  let head := Z.of_nat (length bs) in
  let b := bound head from in
  let e := bound head to in
  get_logs bloom_bits header_hash (indexed bs) (N.of_nat (length bs)) c (Between from to) =
  if Nat.ltb 4 (length (cr_topics c)) then LErr
  else if (e <? b)%Z then LErr
  else LLogs (logs_between (indexed bs) bs p b (Z.min e head)).
Proof.
  intros Hc Hne Hp head b e. unfold get_logs. destruct (Nat.ltb _ _); [done|].
  assert (Hb : resolve_bound (default (-2)%Z from) head = b).
  { unfold b, bound, resolve_bound. destruct from; cbn; done. }
  assert (He : resolve_bound (default (-2)%Z to) head = e).
  { unfold e, bound, resolve_bound. destruct to; cbn; done. }
  assert (Hhd : (1 ≤ head)%Z) by (unfold head; destruct bs; [done|cbn; lia]).
  assert (Hb1 : (1 ≤ b)%Z).
  { unfold b, bound. destruct from as [x|]; [|lia]. destruct (Z.ltb_spec x 0); [lia|]. destruct (Z.eqb_spec x 0); lia. }
  destruct (lookup_lt_is_Some_2 bs (length bs - 1)) as [bl Hbl]. { destruct bs; [done|cbn; lia]. }
  destruct (view_at bs _ _ Hc Hbl) as (hl & V & _ & _).
  pose proof (ch_heights _ Hc _ _ Hbl) as Hhl. destruct V as (V1 & V2 & _).
  assert (Hlast : header_by_number (indexed bs) (N.of_nat (length bs)) = Some hl).
  { unfold header_by_number. rewrite <- V1. f_equal. rewrite Hhl. unfold head in Hhd. lia. }
  assert (Hnum : Z.of_N (hd_number hl) = head).
  { rewrite V2, Hhl. unfold head in *. lia. }
  unfold logs_range. rewrite Hlast, Hnum, Hb, He.
  set (cond := ((0 <? default (-2) from) && (0 <? default (-2) to) && (default (-2) to <? default (-2) from))%Z).
  assert (Hcond : cond = true → (e <? b)%Z = true).
  { unfold cond. rewrite !andb_true_iff, !Z.ltb_lt. intros [[H1 H2] H3].
    unfold b, e, bound. destruct from as [x|], to as [y|]; cbn in *; try lia.
    destruct (Z.ltb_spec x 0), (Z.ltb_spec y 0), (Z.eqb_spec x 0), (Z.eqb_spec y 0); lia. }
  destruct cond eqn:Ec. { rewrite Hcond by done. done. }
  destruct (Z.ltb_spec e b) as [Hlt|Hge]; [done|].
  destruct (Z.ltb_spec head b) as [Hhb|Hhb].
  - unfold logs_between, blocks_between.
    assert (Z.min e head - b + 1 ≤ 0)%Z by lia.
    replace (Z.to_nat (Z.min e head - b + 1)) with 0%nat by lia. done.
  - set (e' := if (head <? e)%Z then head else e).
    assert (He' : e' = Z.min e head) by (unfold e'; destruct (Z.ltb_spec head e); lia).
    rewrite He'.
    replace (Z.to_N b) with (N.of_nat (Z.to_nat (b - 1)) + 1) by lia.
    rewrite (range_logs_ok bs c p) by (auto; unfold head in *; lia). done.
Qed.

(** Such a test exists for every criterion. *)
Corollary C43_matching_decidable c : ∃ p, ∀ l, p l = true ↔ log_matches c l.
Proof. exists (check_log c). intros l. apply C43_check_is_match. Qed.

(** C43. eth_getLogs for one block hash: that block's matching logs, or an error for an
    unknown block. *)
Theorem C43_block_hash_exact bs c p (i : nat) b :
  sound bs → bs !! i = Some b → (length (cr_topics c) ≤ 4)%nat → (∀ l, p l = true ↔ log_matches c l) →
  let st := indexed bs in
  hash_at st (ib_height b) ≠ zero_hash →
  get_logs bloom_bits header_hash st (N.of_nat (length bs)) c (AtHash (hash_at st (ib_height b))) =
  LLogs (List.filter (fun l => p (pl_log l)) (chain_logs 1 (hash_at st (ib_height b)) b)).
Proof.
  intros Hc Hb Ht Hp st Hz. unfold get_logs. destruct (Nat.ltb_spec 4 (length (cr_topics c))); [lia|].
  rewrite bool_decide_eq_false_2 by done.
  destruct (view_at bs i b Hc Hb) as (h & V & Hh & _). fold st in V, Hh.
  assert (E : header_by_hash st (hash_at st (ib_height b)) = Some h).
  { destruct V as (V1 & _ & _ & V4 & _). rewrite Hh. unfold header_by_hash. rewrite V4. exact V1. }
  rewrite E. unfold lres_of. unfold st at 1. rewrite (block_logs_ok bs i b c p h Hc Hb Hp); [done|]. apply V.
Qed.
Theorem C43_unknown_hash bs c bh :
  sound bs → bh ≠ zero_hash → (∀ n, hash_at (indexed bs) n ≠ bh) →
  get_logs bloom_bits header_hash (indexed bs) (N.of_nat (length bs)) c (AtHash bh) = LErr.
Proof.
  intros Hc Hz Hn. unfold get_logs. destruct (Nat.ltb _ _); [done|].
  rewrite bool_decide_eq_false_2 by done.
  destruct (header_by_hash (indexed bs) bh) as [h|] eqn:E; [|done]. exfalso.
  unfold header_by_hash in E. destruct (i_number (indexed bs) !! bh) as [m|] eqn:Em; [|done].
  destruct (chain_view_ok bloom_bits header_hash bs Hc) as [(_ & _ & _ & W4) _].
  destruct (W4 bh m Em) as (h' & Hh' & Hbh). apply (Hn m). unfold hash_at, header_by_number. rewrite Hh'. done.
Qed.

(** C43, the parts that fail. (1) The zero block hash is not an unknown block: it answers
    with the logs of block 1. *)
Theorem C71_zero_hash_refuted bs c p :
  sound bs → bs ≠ [] → (length (cr_topics c) ≤ 4)%nat → (∀ l, p l = true ↔ log_matches c l) →
  get_logs bloom_bits header_hash (indexed bs) (N.of_nat (length bs)) c (AtHash zero_hash) =
  LLogs (logs_between (indexed bs) bs p 1 1).
Proof.
  intros Hc Hne Ht Hp.
  pose proof (C43_range_exact bs c p (Some 0%Z) (Some 0%Z) Hc Hne Hp) as H. cbn zeta in H.
  unfold get_logs in *. destruct (Nat.ltb_spec 4 (length (cr_topics c))); [lia|].
  rewrite bool_decide_eq_true_2 by done. cbn in H. rewrite H. f_equal.
  f_equal. destruct bs; [done|]. cbn [length]. lia.
Qed.

(** (2) While the node's latest block is not indexed (the indexer runs behind, or failed on
    that block, C42_indexing_fails_iff) every range answers with no logs and no error. *)
Theorem C71_unindexed_head_refuted bs c from to latest :
  sound bs → N.of_nat (length bs) < latest → (length (cr_topics c) ≤ 4)%nat →
  (∀ x y, from = Some x → to = Some y → (x ≤ y)%Z) →
  get_logs bloom_bits header_hash (indexed bs) latest c (Between from to) = LLogs [].
Proof.
  intros Hc Hl Ht Hxy. unfold get_logs. destruct (Nat.ltb_spec 4 (length (cr_topics c))); [lia|].
  assert (E : ((0 <? default (-2) from) && (0 <? default (-2) to) && (default (-2) to <? default (-2) from))%Z = false).
  { apply andb_false_iff. destruct from as [x|], to as [y|]; cbn; auto.
    - specialize (Hxy x y eq_refl eq_refl). right. apply Z.ltb_ge. lia.
    - left. apply andb_false_iff. auto. }
  rewrite E. unfold logs_range.
  destruct (header_by_number (indexed bs) latest) as [h|] eqn:Eh; [|done].
  destruct (chain_view_ok bloom_bits header_hash bs Hc) as [(_ & W2 & _) _].
  apply W2 in Eh. lia.
Qed.
End props.

(** A concrete chain: a collision-free block hash, a block with an undecodable, a failed, a
    non-Ethereum and two logging transactions, and a block with a contract creation. *)
Definition header_tuple (h : header) := (hd_number h, hd_bloom h, hd_parent h, hd_rest h).
Definition header_of (x : N * gset N * bytes * bytes) : header :=
  mkHeader x.1.1.1 x.1.1.2 x.1.2 x.2.
Definition ex_hash (h : header) : bytes := [Npos (encode (header_tuple h))].
Lemma ex_hash_inj h1 h2 : ex_hash h1 = ex_hash h2 → h1 = h2.
Proof.
  unfold ex_hash. intros H. injection H as H. apply (inj encode) in H. destruct h1, h2.
  unfold header_tuple in H. cbn in H. congruence.
Qed.
Definition ex_bits (b : bytes) : list N := match b with x :: _ => [x; x + 1] | [] => [] end.
Definition ex_l (a t : N) : eth_log := ELog [a] [[t]] [].
Definition ex_b1 : iblock := mkBlock 1
  [mkEntry IBadBytes [100] 0 0 IRNone;
   mkEntry (IEth (mkITx [1] false 7 [])) [101] 0 21000 (IRCall [ex_l 10 20; ex_l 11 20]);
   mkEntry INotEth [102] 0 5 IRNone;
   mkEntry (IEth (mkITx [2] false 7 [])) [103] 5 30000 IRNone;
   mkEntry (IEth (mkITx [3] false 7 [])) [104] 0 1000 (IRCall [ex_l 10 21])] [].
Definition ex_b2 : iblock := mkBlock 2
  [mkEntry (IEth (mkITx [4] true 7 [])) [105] 0 50000 (IRCreate [ex_l 10 20] [77])] [].
Definition ex_chain : list iblock := [ex_b1; ex_b2].
Lemma ex_chain_ok : chain ex_chain.
Proof.
  split.
  - intros [|[|i]] b H; cbn in H; simplify_eq; done.
  - intros b Hb e He.
    repeat (apply elem_of_cons in Hb as [->|Hb]; [cbn in He|]); try (inversion Hb; fail);
    repeat (apply elem_of_cons in He as [->|He]; [cbn; split; [done|intros t Ht; simplify_eq; done]|]);
    inversion He.
  - cbn. refine (bool_decide_unpack _ _). vm_compute. exact I.
Qed.
Lemma ex_chain_sound : sound_chain ex_bits ex_hash ex_chain.
Proof. split; [exact ex_chain_ok|]. intros n m h h' _ _. apply ex_hash_inj. Qed.
(** The hash need not be injective: every chain is sound for the "hash" that is the block number
    alone, which many headers share. *)
Lemma sound_numbered bb bs : chain bs → sound_chain bb (λ h, [hd_number h]) bs.
Proof.
  intros Hc. split; [exact Hc|]. set (hh := λ h, [hd_number h]).
  assert (H : ∀ n h, i_header (index_blocks bb hh bs) !! n = Some h → hd_number h = n).
  { induction bs as [|b bs IH] using rev_ind; intros n h Hh; [done|].
    destruct (plain_chain_snoc bs b Hc) as (Hc' & _ & Hix & _).
    rewrite index_blocks_snoc, (index_block_ok bb hh b _ Hix) in Hh. cbv zeta in Hh. cbn [fst i_header] in Hh.
    destruct (decide (n = ib_height b)) as [->|Hn].
    - rewrite lookup_insert in Hh. by injection Hh as <-.
    - rewrite lookup_insert_ne in Hh by done. by apply IH. }
  intros n m h h' Hn Hm E. pose proof (H n h Hn) as H1. pose proof (H m h' Hm) as H2. injection E as E. 
  assert (n = m) by congruence. congruence.
Qed.
(** Cumulative gas of the third Ethereum transaction of block 1; logs of contract 10 with
    first topic 20 in the whole chain; an inverted range. *)
Example C42_example :
  rc_cumulative <$> receipt_by_hash (index_blocks ex_bits ex_hash ex_chain) [3] = Some 52000 ∧
  length <$> block_txs (index_blocks ex_bits ex_hash ex_chain) 1 = Some 3%nat ∧
  tx_by_block_index (index_blocks ex_bits ex_hash ex_chain) 1 0 = None.
Proof. split; [|split]; vm_compute; reflexivity. Qed.
Example C43_example :
  let q w := match get_logs ex_bits ex_hash (index_blocks ex_bits ex_hash ex_chain) 2 (mkCrit [[10]] [[[20]]]) w with
             | LErr => None | LLogs l => Some (map (fun p => (pl_number p, pl_tx_index p, pl_index p)) l) end in
  q (Between (Some 0%Z) None) = Some [(1, 1, 0); (2, 1, 0)] ∧
  q (Between None None) = Some [(2, 1, 0)] ∧
  q (Between (Some 2%Z) (Some 1%Z)) = None ∧
  q (AtHash zero_hash) = Some [(1, 1, 0)].
Proof. split; [|split; [|split]]; vm_compute; reflexivity. Qed.
