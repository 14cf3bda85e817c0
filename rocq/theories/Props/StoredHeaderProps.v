(** C146: blocks are linked by their hashes, and a client can check it. *)
From Verif.Base Require Import Prelude Hex.
From Verif.Model Require Import StoredTx StoredHeader.
From Verif.Proofs Require Import HexP BytesP.
From Verif.Props Require Import StoredTxProps.
Open Scope N_scope.

Definition is_word (b : bytes) : Prop := length b = 32%nat ∧ bytes_ok b.
(** A block as the chain makes them: roots of 32 bytes, a bloom filter of 256, 64-bit numbers; the
    base fee has at most 256 bits. *)
Definition plain_data (d : block_data) : Prop :=
  is_word (bd_txs d) ∧ is_word (bd_receipts d) ∧ (length (bd_bloom d) = 256%nat ∧ bytes_ok (bd_bloom d)) ∧
  bd_limit d < 2 ^ 64 ∧ bd_used d < 2 ^ 64 ∧ bd_time d < 2 ^ 64.
Definition fee_fits (d : block_data) : Prop := (0 ≤ bd_fee d < 2 ^ 256)%Z.

(** ** The fields *)
Lemma read_u64_encode n : n < 2 ^ 64 → read_u64 (encode_u64 n) = Some n.
Proof.
  intros H. unfold read_u64, encode_u64.
  assert (Nat.ltb 18 (length (encode_big (Z.of_N n))) = false) as ->.
  { apply Nat.ltb_ge. unfold encode_big. destruct (Z.ltb_spec (Z.of_N n) 0); [lia|]. rewrite N2Z.id. cbn [app length].
    unfold hex_text. destruct (hex_len (S (N.size_nat n)) n 16 (fuel_enough n) ltac:(lia)) as [Hl _].
    assert (length (hex_num (S (N.size_nat n)) n) ≤ 16)%nat; [|lia]. apply Hl. change (16 ^ N.of_nat 16) with (2 ^ 64). done. }
  rewrite C138_big_numbers, decide_True.
  - cbn. by rewrite N2Z.id.
  - split; [lia|]. assert (2 ^ 64 < 2 ^ 256)%Z by done. assert (Z.of_N n < 2 ^ 64)%Z; [|lia].
    change (2 ^ 64)%Z with (Z.of_N (2 ^ 64)). by apply N2Z.inj_lt.
Qed.
Lemma read_fixed_encode n b : length b = n → bytes_ok b → read_fixed n (hexutil_encode b) = Some b.
Proof. intros Hl Hb. unfold read_fixed. rewrite hexutil_decode_encode by done. cbn [mbind option_bind]. by rewrite bool_decide_true. Qed.
Lemma read_big_encode z : (0 ≤ z < 2 ^ 256)%Z → read_big (encode_big z) = Some z.
Proof. intros H. by rewrite C138_big_numbers, decide_True. Qed.
Lemma zeros_ok n : bytes_ok (replicate n 0).
Proof. apply Forall_replicate. lia. Qed.

Section index.
Variable header_hash : eth_header → bytes.
Variables empty_root empty_uncles empty_withdrawals : bytes.
Hypothesis hash_word : ∀ h, is_word (header_hash h).
Hypothesis root_word : is_word empty_root.
Hypothesis uncles_word : is_word empty_uncles.
Hypothesis withdrawals_word : is_word empty_withdrawals.
Notation new := (new_header empty_root empty_uncles empty_withdrawals).
Notation index := (index_from header_hash empty_root empty_uncles empty_withdrawals).
Notation indexed1 := (index_header header_hash empty_root empty_uncles empty_withdrawals).
Notation object_of := (block_object header_hash).
Notation object_of_hash := (block_object_by_hash header_hash).
Notation format := (format_header header_hash).

Section fields.
Variables (p : bytes) (n : N) (d : block_data).
Hypothesis Hp : is_word p.
Hypothesis Hn : n < 2 ^ 64.
Hypothesis Hd : plain_data d.
Lemma read_header_fields o :
  lookup_field "parentHash" o = Some (hexutil_encode p) → lookup_field "sha3Uncles" o = Some (hexutil_encode empty_uncles) →
  lookup_field "miner" o = Some (hexutil_encode (replicate 20 0)) → lookup_field "stateRoot" o = Some (hexutil_encode empty_root) →
  lookup_field "transactionsRoot" o = Some (hexutil_encode (bd_txs d)) → lookup_field "receiptsRoot" o = Some (hexutil_encode (bd_receipts d)) →
  lookup_field "logsBloom" o = Some (hexutil_encode (bd_bloom d)) → lookup_field "difficulty" o = Some (encode_big 0) →
  lookup_field "number" o = Some (encode_big (Z.of_N n)) → lookup_field "gasLimit" o = Some (encode_u64 (bd_limit d)) →
  lookup_field "gasUsed" o = Some (encode_u64 (bd_used d)) → lookup_field "timestamp" o = Some (encode_u64 (bd_time d)) →
  lookup_field "extraData" o = Some (hexutil_encode []) → lookup_field "mixHash" o = Some (hexutil_encode zero_hash) →
  lookup_field "nonce" o = Some (hexutil_encode (replicate 8 0)) → lookup_field "baseFeePerGas" o = Some (encode_big (bd_fee d)) →
  lookup_field "withdrawalsRoot" o = Some (hexutil_encode empty_withdrawals) → lookup_field "blobGasUsed" o = None →
  lookup_field "excessBlobGas" o = None → lookup_field "parentBeaconBlockRoot" o = None →
  read_header o = if decide (fee_fits d) then Some (new p n d) else None.
Proof.
  destruct Hp, Hd as ([] & [] & [] & ? & ? & ?), root_word, uncles_word, withdrawals_word.
  intros E1 E2 E3 E4 E5 E6 E7 E8 E9 E10 E11 E12 E13 E14 E15 E16 E17 E18 E19 E20. unfold read_header.
  rewrite E1, E2, E3, E4, E5, E6, E7, E8, E9, E10, E11, E12, E13, E14, E15, E16, E17, E18, E19, E20. unfold or_zero, optional. cbn [mbind option_bind].
  assert (read_big (encode_big 0) = Some 0%Z) as -> by (apply read_big_encode; lia).
  assert (read_big (encode_big (Z.of_N n)) = Some (Z.of_N n)) as ->.
  { apply read_big_encode. assert (Z.of_N n < 2 ^ 64)%Z by (change (2 ^ 64)%Z with (Z.of_N (2 ^ 64)); by apply N2Z.inj_lt).
    assert (2 ^ 64 < 2 ^ 256)%Z by done. lia. }
  rewrite !(read_fixed_encode 32), (read_fixed_encode 20), (read_fixed_encode 256), (read_fixed_encode 8) by (done || apply zeros_ok || apply replicate_length).
  cbn [mbind option_bind]. rewrite !read_u64_encode by done. cbn [mbind option_bind].
  rewrite hexutil_decode_encode by constructor. cbn [mbind option_bind]. rewrite C138_big_numbers. unfold fee_fits.
  destruct (decide (0 ≤ bd_fee d < 2 ^ 256)%Z); done.
Qed.
End fields.
Lemma read_write p n d : is_word p → n < 2 ^ 64 → plain_data d → 
  read_header (write_header (new p n d)) = if decide (fee_fits d) then Some (new p n d) else None.
Proof. intros Hp Hn Hd. apply read_header_fields; try done; reflexivity. Qed.
Lemma read_format p n d : is_word p → n < 2 ^ 64 → plain_data d → fee_fits d → read_header (format (new p n d)) = Some (new p n d).
Proof. intros Hp Hn Hd Hf. rewrite (read_header_fields p n d) by (done || reflexivity). by rewrite decide_True. Qed.

(** ** The index *)
Definition empty_index : hstate := HState ∅ ∅.
Notation parent := (parent_of header_hash).
(** The header that block [i] of [ds] gets when blocks are indexed from [first] on. *)
Definition header_at (first : N) (ds : list block_data) (st : hstate) (i : nat) (d : block_data) : eth_header :=
  new (parent (index first (take i ds) st) (first + N.of_nat i)) (first + N.of_nat i) d.
Lemma index_app ds1 : ∀ first ds2 st, index first (ds1 ++ ds2) st = index (first + N.of_nat (length ds1)) ds2 (index first ds1 st).
Proof.
  induction ds1 as [|d ds1 IH]; intros first ds2 st.
  - cbn [app length index_from]. by rewrite N.add_0_r.
  - cbn [app length index_from]. rewrite IH. f_equal. lia.
Qed.
Lemma index_below ds : ∀ first st n, n < first → hs_headers (index first ds st) !! n = hs_headers st !! n.
Proof.
  induction ds as [|d ds IH]; intros first st n Hn; [done|]. cbn [index_from]. rewrite IH by lia. cbn. by rewrite lookup_insert_ne by lia.
Qed.
Lemma index_split first ds st i d : ds !! i = Some d →
  index first ds st = index (first + N.of_nat i + 1) (drop (S i) ds) (indexed1 (index first (take i ds) st) (first + N.of_nat i) d).
Proof.
  intros Hi. assert (i < length ds)%nat by (by eapply lookup_lt_Some).
  rewrite <- (take_drop_middle ds i d Hi) at 1. rewrite index_app, take_length_le by lia. cbn [index_from]. done.
Qed.
Lemma header_stored first ds st i d : ds !! i = Some d →
  hs_headers (index first ds st) !! (first + N.of_nat i) = Some (write_header (header_at first ds st i d)).
Proof.
  intros Hi. rewrite (index_split _ _ _ _ _ Hi), index_below by lia. cbn. by rewrite lookup_insert.
Qed.
Lemma zero_word : is_word zero_hash.
Proof. split; [done|]. apply zeros_ok. Qed.
Lemma parent_word st n : is_word (parent st n).
Proof. unfold parent_of. destruct (1 <? n); [|apply zero_word]. destruct (_ ≫= _); [apply hash_word|apply zero_word]. Qed.
Lemma parent_next first ds st i d : ds !! i = Some d → 1 ≤ first → first + N.of_nat i < 2 ^ 64 → plain_data d →
  parent (index first (take (S i) ds) st) (first + N.of_nat (S i)) =
  if decide (fee_fits d) then header_hash (header_at first ds st i d) else zero_hash.
Proof.
  intros Hi Hf Hn Hd. unfold parent_of. destruct (N.ltb_spec 1 (first + N.of_nat (S i))); [|lia].
  replace (first + N.of_nat (S i) - 1) with (first + N.of_nat i) by lia.
  assert (take (S i) ds !! i = Some d) as Hi' by (rewrite lookup_take by lia; done).
  rewrite (header_stored first (take (S i) ds) st i d Hi'). cbn [mbind option_bind].
  assert (header_at first (take (S i) ds) st i d = header_at first ds st i d) as ->.
  { unfold header_at. by rewrite take_take, Nat.min_l by lia. }
  unfold header_at at 1. rewrite read_write; [|apply parent_word|done|done]. by destruct (decide (fee_fits d)).
Qed.
Lemma object_at first ds st i d : ds !! i = Some d → first + N.of_nat i < 2 ^ 64 → plain_data d →
  object_of (index first ds st) (first + N.of_nat i) =
  if decide (fee_fits d) then Found (format (header_at first ds st i d)) else Failed.
Proof.
  intros Hi Hn Hd. unfold block_object. rewrite (header_stored _ _ _ _ _ Hi). unfold header_at.
  rewrite read_write; [|apply parent_word|done|done]. by destruct (decide (fee_fits d)).
Qed.
Lemma client_reads first ds st i d : first + N.of_nat i < 2 ^ 64 → plain_data d → fee_fits d →
  read_header (format (header_at first ds st i d)) = Some (header_at first ds st i d).
Proof. intros Hn Hd Hf. by apply read_format; [apply parent_word| | |]. Qed.

(** C146. What a client gets for a block can be checked by it: read as a header it has the hash that
    is given with it, it says what the block was, and its parent's hash is the hash given with the
    block before (the first has none). *)
Theorem C146_linked ds i d : let st := index 1 ds empty_index in
  Forall plain_data ds → Forall fee_fits ds → N.of_nat (length ds) < 2 ^ 64 → ds !! i = Some d →
  ∃ o h, object_of st (1 + N.of_nat i) = Found o ∧ read_header o = Some h ∧
    lookup_field "hash" o = Some (hexutil_encode (header_hash h)) ∧
    h_number h = Z.of_nat (S i) ∧ h_time h = bd_time d ∧ h_gas_used h = bd_used d ∧ h_gas_limit h = bd_limit d ∧
    h_base_fee h = Some (bd_fee d) ∧ h_txs h = bd_txs d ∧ h_receipts h = bd_receipts d ∧ h_bloom h = bd_bloom d ∧
    match i with
    | O => h_parent h = zero_hash
    | S j => ∃ o', object_of st (1 + N.of_nat j) = Found o' ∧ lookup_field "hash" o' = Some (hexutil_encode (h_parent h))
    end.
Proof.
  intros st Hp Hf Hl Hi. pose proof (lookup_lt_Some _ _ _ Hi) as Hlt.
  pose proof (proj1 (Forall_lookup _ _) Hp _ _ Hi) as Hpd. pose proof (proj1 (Forall_lookup _ _) Hf _ _ Hi) as Hfd.
  exists (format (header_at 1 ds empty_index i d)), (header_at 1 ds empty_index i d).
  split; [unfold st; rewrite (object_at 1 ds empty_index i d) by (done || lia); by rewrite decide_True|].
  split; [apply client_reads; [lia|done|done]|]. split; [reflexivity|].
  split; [cbn; lia|]. do 7 (split; [reflexivity|]). destruct i as [|j]; [reflexivity|].
  destruct (lookup_lt_is_Some_2 ds j ltac:(lia)) as [dj Hj].
  pose proof (proj1 (Forall_lookup _ _) Hp _ _ Hj) as Hpj. pose proof (proj1 (Forall_lookup _ _) Hf _ _ Hj) as Hfj.
  exists (format (header_at 1 ds empty_index j dj)). split; [unfold st; rewrite (object_at 1 ds empty_index j dj) by (done || lia); by rewrite decide_True|].
  assert (h_parent (header_at 1 ds empty_index (S j) d) = header_hash (header_at 1 ds empty_index j dj)) as ->; [|reflexivity].
  unfold header_at at 1. cbn [h_parent new_header]. rewrite (parent_next 1 ds empty_index j dj) by (done || lia). by rewrite decide_True.
Qed.
(** A base fee of more than 256 bits (a gas price that large): the block is an error for ever, and the
    next is told to have no parent. *)
Theorem C146_large_fee_refuted ds i d d' o : let st := index 1 ds empty_index in
  ds !! i = Some d → ds !! S i = Some d' → plain_data d → plain_data d' → N.of_nat (length ds) < 2 ^ 64 → ¬ fee_fits d →
  object_of st (1 + N.of_nat i) = Failed ∧
  (object_of st (1 + N.of_nat (S i)) = Found o → lookup_field "parentHash" o = Some (hexutil_encode zero_hash)).
Proof.
  intros st Hi Hi' Hd Hd' Hl Hf. pose proof (lookup_lt_Some _ _ _ Hi'). unfold st. split.
  - rewrite (object_at 1 ds empty_index i d) by (done || lia). by rewrite decide_False.
  - rewrite (object_at 1 ds empty_index (S i) d') by (done || lia). destruct (decide (fee_fits d')); [|done]. intros [= <-].
    change (lookup_field "parentHash" (format (header_at 1 ds empty_index (S i) d')))
      with (Some (hexutil_encode (parent (index 1 (take (S i) ds) empty_index) (1 + N.of_nat (S i))))).
    rewrite (parent_next 1 ds empty_index i d) by (done || lia). by rewrite decide_False.
Qed.

Lemma header_at_shift first d ds st j e :
  header_at first (d :: ds) st (S j) e = header_at (first + 1) ds (indexed1 st first d) j e.
Proof. unfold header_at. cbn [take index_from]. by replace (first + N.of_nat (S j)) with (first + 1 + N.of_nat j) by lia. Qed.
Lemma numbers_other ds : ∀ first st x, (∀ j e, ds !! j = Some e → header_hash (header_at first ds st j e) ≠ x) →
  hs_numbers (index first ds st) !! x = hs_numbers st !! x.
Proof.
  induction ds as [|d ds IH]; intros first st x Hx; [done|]. cbn [index_from]. rewrite IH.
  - cbn. rewrite lookup_insert_ne; [done|]. specialize (Hx 0%nat d eq_refl). unfold header_at in Hx. cbn [take index_from] in Hx.
    by rewrite N.add_0_r in Hx.
  - intros j e Hj. rewrite <- header_at_shift. by apply Hx.
Qed.
Lemma numbers_found ds : ∀ first st i d, ds !! i = Some d →
  (∀ j e, ds !! j = Some e → header_hash (header_at first ds st j e) = header_hash (header_at first ds st i d) → j = i) →
  hs_numbers (index first ds st) !! header_hash (header_at first ds st i d) = Some (first + N.of_nat i).
Proof.
  induction ds as [|d0 ds IH]; intros first st i d Hi Hx; [done|]. cbn [index_from]. destruct i as [|i].
  - injection Hi as ->. rewrite numbers_other.
    + unfold header_at. cbn [take index_from]. rewrite N.add_0_r. cbn. by rewrite lookup_insert.
    + intros j e Hj E. rewrite <- header_at_shift in E. apply (Hx (S j) e Hj) in E. lia.
  - rewrite header_at_shift. rewrite IH; [f_equal; lia|done|]. intros j e Hj E. rewrite <- !header_at_shift in E. apply (Hx (S j) e Hj) in E. lia.
Qed.

Section injective.
Variable ds : list block_data.
(** The headers that nodes of this chain make, whichever block they begin with. *)
Definition made (h : eth_header) : Prop :=
  ∃ k j d, drop k ds !! j = Some d ∧ h = header_at (1 + N.of_nat k) (drop k ds) empty_index j d.
(** No two of them collide, none has the hash zero. *)
Hypothesis hash_inj : ∀ h1 h2, made h1 → made h2 → header_hash h1 = header_hash h2 → h1 = h2.
Hypothesis hash_not_zero : ∀ h, made h → header_hash h ≠ zero_hash.
Lemma made_full j d : ds !! j = Some d → made (header_at 1 ds empty_index j d).
Proof. intros Hj. by exists 0%nat, j, d. Qed.
Lemma made_late k j d : drop k ds !! j = Some d → made (header_at (1 + N.of_nat k) (drop k ds) empty_index j d).
Proof. intros Hj. by exists k, j, d. Qed.

(** C146. Under the hash given with a block, and so under the parent's hash given with the next, the
    same block is found. *)
Theorem C146_by_hash i d o : let st := index 1 ds empty_index in
  Forall plain_data ds → Forall fee_fits ds → N.of_nat (length ds) < 2 ^ 64 → ds !! i = Some d →
  object_of st (1 + N.of_nat i) = Found o →
  ∃ hash, lookup_field "hash" o = Some (hexutil_encode hash) ∧ object_of_hash st hash = Found o.
Proof.
  intros st Hp Hf Hl Hi Ho. pose proof (lookup_lt_Some _ _ _ Hi) as Hlt.
  pose proof (proj1 (Forall_lookup _ _) Hp _ _ Hi) as Hpd. pose proof (proj1 (Forall_lookup _ _) Hf _ _ Hi) as Hfd.
  assert (o = format (header_at 1 ds empty_index i d)) as E.
  { unfold st in Ho. rewrite (object_at 1 ds empty_index i d), decide_True in Ho by (done || lia). by injection Ho. }
  exists (header_hash (header_at 1 ds empty_index i d)). split; [by rewrite E|]. unfold block_object_by_hash.
  assert (hs_numbers st !! header_hash (header_at 1 ds empty_index i d) = Some (1 + N.of_nat i)) as ->; [|done].
  unfold st. apply numbers_found; [done|]. intros j e Hj Eh.
  apply hash_inj in Eh; [|by apply made_full|by apply made_full]. apply (f_equal h_number) in Eh. cbn [h_number header_at new_header] in Eh. lia.
Qed.

(** Two nodes of one chain disagree: one that began to index at a later block [k + 1] (its index was
    switched on later, or the node was started from a snapshot) tells another hash for every block
    from there on, and a client that knows a block from the one does not find it at the other. *)
Theorem C146_late_node_refuted k i d : let full := index 1 ds empty_index in
  let late := index (1 + N.of_nat k) (drop k ds) empty_index in
  Forall plain_data ds → Forall fee_fits ds → N.of_nat (length ds) < 2 ^ 64 → (0 < k ≤ i)%nat → ds !! i = Some d →
  ∃ o1 o2, object_of full (1 + N.of_nat i) = Found o1 ∧ object_of late (1 + N.of_nat i) = Found o2 ∧
    lookup_field "hash" o1 ≠ lookup_field "hash" o2 ∧ lookup_field "parentHash" o1 ≠ lookup_field "parentHash" o2 ∧
    ∀ hash, lookup_field "hash" o1 = Some (hexutil_encode hash) → is_word hash → object_of_hash late hash = Null.
Proof.
  intros full late Hp Hf Hl [Hk Hki] Hi. pose proof (lookup_lt_Some _ _ _ Hi) as Hlt.
  pose proof (proj1 (Forall_lookup _ _) Hp _ _ Hi) as Hpd. pose proof (proj1 (Forall_lookup _ _) Hf _ _ Hi) as Hfd.
  assert (Hdiff : ∀ j dj, ds !! (k + j)%nat = Some dj →
    h_parent (header_at 1 ds empty_index (k + j) dj) ≠ h_parent (header_at (1 + N.of_nat k) (drop k ds) empty_index j dj)).
  { induction j as [|j IH]; intros dj Hj.
    - destruct k as [|k]; [lia|]. destruct (lookup_lt_is_Some_2 ds k ltac:(apply lookup_lt_Some in Hj; lia)) as [dk Hdk].
      unfold header_at. cbn [h_parent new_header]. rewrite Nat.add_0_r.
      rewrite (parent_next 1 ds empty_index k dk); [|done|lia|lia|by apply (proj1 (Forall_lookup _ _) Hp _ _ Hdk)].
      rewrite decide_True by (by apply (proj1 (Forall_lookup _ _) Hf _ _ Hdk)).
      assert (parent (index (1 + N.of_nat (S k)) (take 0 (drop (S k) ds)) empty_index) (1 + N.of_nat (S k) + N.of_nat 0) = zero_hash) as ->; [|by apply hash_not_zero, made_full].
      unfold parent_of. change (hs_headers (index _ (take 0 _) empty_index)) with (∅ : gmap N object). rewrite lookup_empty. by destruct (1 <? _).
    - rewrite Nat.add_succ_r in Hj |- *. pose proof (lookup_lt_Some _ _ _ Hj).
      destruct (lookup_lt_is_Some_2 ds (k + j) ltac:(lia)) as [dk Hdk]. specialize (IH dk Hdk).
      pose proof (proj1 (Forall_lookup _ _) Hp _ _ Hdk) as Hpk. pose proof (proj1 (Forall_lookup _ _) Hf _ _ Hdk) as Hfk.
      unfold header_at at 1 2. cbn [h_parent new_header].
      rewrite (parent_next 1 ds empty_index (k + j) dk) by (done || lia).
      rewrite (parent_next (1 + N.of_nat k) (drop k ds) empty_index j dk); [|by rewrite lookup_drop|lia|lia|done].
      rewrite !decide_True by done. intros E. apply hash_inj in E; [|by apply made_full|by apply made_late; rewrite lookup_drop]. rewrite E in IH. done. }
  pose proof (Hdiff (i - k)%nat d) as Hd. replace (k + (i - k))%nat with i in Hd by lia. specialize (Hd Hi).
  assert (drop k ds !! (i - k)%nat = Some d) as Hi' by (rewrite lookup_drop; by replace (k + (i - k))%nat with i by lia).
  set (h1 := header_at 1 ds empty_index i d) in *. set (h2 := header_at (1 + N.of_nat k) (drop k ds) empty_index (i - k) d) in *.
  assert (Henc : ∀ a b, bytes_ok a → bytes_ok b → a ≠ b → Some (hexutil_encode a) ≠ Some (hexutil_encode b)).
  { intros a b Ha Hb Hab E%(inj Some). apply (f_equal hexutil_decode) in E. rewrite !hexutil_decode_encode in E by done. by injection E. }
  exists (format h1), (format h2). split; [|split; [|split; [|split]]].
  - unfold full. rewrite (object_at 1 ds empty_index i d) by (done || lia). by rewrite decide_True.
  - unfold late. replace (1 + N.of_nat i) with (1 + N.of_nat k + N.of_nat (i - k)) by lia.
    rewrite (object_at (1 + N.of_nat k) (drop k ds) empty_index (i - k) d) by (done || lia). by rewrite decide_True.
  - apply Henc; [apply hash_word|apply hash_word|]. intros E. apply hash_inj in E; [|by apply made_full|by apply made_late]. apply Hd. by rewrite E.
  - apply Henc; [apply parent_word|apply parent_word|done].
  - intros hash Hh Hw. assert (hash = header_hash h1) as ->.
    { change (lookup_field "hash" (format h1)) with (Some (hexutil_encode (header_hash h1))) in Hh. apply (inj Some) in Hh.
      apply (f_equal hexutil_decode) in Hh. rewrite !hexutil_decode_encode in Hh by (apply hash_word || apply Hw). by injection Hh. }
    unfold block_object_by_hash. assert (hs_numbers late !! header_hash h1 = None) as ->; [|done]. unfold late.
    rewrite numbers_other; [by apply lookup_empty|]. intros j e Hj E.
    apply hash_inj in E; [|by apply made_late|by apply made_full]. pose proof (f_equal h_number E) as En.
    cbn [h_number header_at new_header h1] in En. assert (j = i - k)%nat as -> by (subst h1; cbn [h_number header_at new_header] in En; lia).
    assert (e = d) as -> by congruence. apply Hd. unfold h2. by rewrite E.
Qed.
End injective.
End index.

(** Three blocks, and a hash that does not collide on what is made of them. *)
Definition sh_hash (h : eth_header) : bytes := be 32 (1 + of_be (h_parent h) * 1000 + Z.to_N (h_number h)).
Definition sh_block (time : N) (fee : Z) : block_data := BlockData (replicate 32 1) (replicate 32 2) (replicate 256 0) 200 21 time fee.
Definition sh_blocks : list block_data := [sh_block 10 7; sh_block 12 8; sh_block 15 0].
Definition sh_word (n : N) : bytes := be 32 n.
Definition sh_made (k j : nat) (d : block_data) : eth_header :=
  header_at sh_hash (sh_word 7) (sh_word 8) (sh_word 9) (1 + N.of_nat k) (drop k sh_blocks) empty_index j d.
Lemma be_ok k : ∀ n, bytes_ok (be k n).
Proof. induction k as [|k IH]; intros n; [constructor|]. cbn [be]. apply Forall_app. split; [apply IH|]. constructor; [|constructor]. by apply N.mod_lt. Qed.
Lemma be_length32 n : length (be 32 n) = 32%nat.
Proof. reflexivity. Qed.
Lemma sh_plain time fee : time < 2 ^ 64 → plain_data (sh_block time fee).
Proof.
  intros H. unfold plain_data, is_word, sh_block. cbn [bd_txs bd_receipts bd_bloom bd_limit bd_used bd_time].
  split; [split; [done|apply Forall_replicate; lia]|]. split; [split; [done|apply Forall_replicate; lia]|].
  split; [split; [apply replicate_length|apply Forall_replicate; lia]|]. done.
Qed.
Example C146_example :
  let st := index_from sh_hash (sh_word 7) (sh_word 8) (sh_word 9) 1 sh_blocks empty_index in
  let late := index_from sh_hash (sh_word 7) (sh_word 8) (sh_word 9) 2 (drop 1 sh_blocks) empty_index in
  let place st n := match block_object sh_hash st n with
                    | Found o => Some (lookup_field "hash" o, lookup_field "parentHash" o, lookup_field "baseFeePerGas" o)
                    | _ => None end in
  let says (hash parent : N) (fee : text) := Some (Some (hexutil_encode (be 32 hash)), Some (hexutil_encode (be 32 parent)), Some fee) in
  (∀ h, is_word (sh_hash h)) ∧ Forall plain_data sh_blocks ∧ Forall fee_fits sh_blocks ∧
  (∀ h1 h2, made sh_hash (sh_word 7) (sh_word 8) (sh_word 9) sh_blocks h1 → made sh_hash (sh_word 7) (sh_word 8) (sh_word 9) sh_blocks h2 →
     sh_hash h1 = sh_hash h2 → h1 = h2) ∧
  (∀ h, made sh_hash (sh_word 7) (sh_word 8) (sh_word 9) sh_blocks h → sh_hash h ≠ zero_hash) ∧
  place st 1 = says 2 0 (txt "0x7") ∧ place st 2 = says 2003 2 (txt "0x8") ∧ place st 3 = says 2003004 2003 (txt "0x0") ∧
  place late 1 = None ∧ place late 2 = says 3 0 (txt "0x8") ∧ place late 3 = says 3004 3 (txt "0x0").
Proof.
  cbv zeta.
  assert (Hmade : ∀ h, made sh_hash (sh_word 7) (sh_word 8) (sh_word 9) sh_blocks h →
    h ∈ [sh_made 0 0 (sh_block 10 7); sh_made 0 1 (sh_block 12 8); sh_made 0 2 (sh_block 15 0);
         sh_made 1 0 (sh_block 12 8); sh_made 1 1 (sh_block 15 0); sh_made 2 0 (sh_block 15 0)]).
  { intros h (k & j & d & Hd & ->). destruct k as [|[|[|k]]]; [destruct j as [|[|[|j]]]|destruct j as [|[|j]]|destruct j as [|j]|];
      first [by (change (drop _ sh_blocks) with (drop k (@nil block_data)) in Hd; rewrite drop_nil in Hd)|by (exfalso; destruct j; cbn in Hd)|apply (inj Some) in Hd as <-; rewrite !elem_of_cons; unfold sh_made; tauto]. }
  assert (Hnd : NoDup (sh_hash <$> [sh_made 0 0 (sh_block 10 7); sh_made 0 1 (sh_block 12 8); sh_made 0 2 (sh_block 15 0);
         sh_made 1 0 (sh_block 12 8); sh_made 1 1 (sh_block 15 0); sh_made 2 0 (sh_block 15 0)]) ∧
    zero_hash ∉ (sh_hash <$> [sh_made 0 0 (sh_block 10 7); sh_made 0 1 (sh_block 12 8); sh_made 0 2 (sh_block 15 0);
         sh_made 1 0 (sh_block 12 8); sh_made 1 1 (sh_block 15 0); sh_made 2 0 (sh_block 15 0)])).
  { split; apply (bool_decide_unpack _); vm_compute; exact I. }
  destruct Hnd as [Hnd Hz].
  split; [intros h; split; [apply be_length32|apply be_ok]|].
  split; [repeat (apply Forall_cons; split; [by apply sh_plain|]); by apply Forall_nil|].
  split; [repeat (apply Forall_cons; split; [unfold fee_fits; cbn; lia|]); by apply Forall_nil|].
  split.
  { intros h1 h2 H1%Hmade H2%Hmade E. apply elem_of_list_lookup in H1 as [i1 H1], H2 as [i2 H2].
    assert (i1 = i2) as ->; [|congruence]. eapply (NoDup_lookup _ i1 i2 (sh_hash h1)); [exact Hnd| |].
    - rewrite list_lookup_fmap, H1. done.
    - rewrite list_lookup_fmap, H2, E. done. }
  split.
  { intros h H%Hmade E. apply Hz. rewrite <- E. by apply elem_of_list_fmap_1. }
  repeat split; vm_compute; reflexivity.
Qed.
