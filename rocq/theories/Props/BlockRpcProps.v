(** C102, C103: block and transaction lookups over JSON-RPC. *)
From Verif.Base Require Import Prelude Hex.
From Verif.Model Require Import EthLog Indexer EthTx SigVerify BlockRpc.
From Verif.Spec Require Import IndexerSpec.
From Verif.Proofs Require Import IndexerP.
From Verif.Props Require Import LogProps.
Open Scope N_scope.

(** The block of the chain that a block number or tag names: negative tags (latest, pending,
    safe, finalized) name the block at the node's height, 0 (earliest) the first block. *)
Definition named (bs : list iblock) (latest : N) (tag : Z) : option iblock :=
  let n := if (tag <? 0)%Z then Z.of_N latest else Z.max tag 1 in
  if (n <=? 0)%Z then None else bs !! Z.to_nat (n - 1).
(** Its Ethereum transactions with their places, and the receipt of the j-th one *)
Definition txs_of (bh : bytes) (b : iblock) : list rtx :=
  imap (fun j te => mkRtx te.1 bh (ib_height b) (N.of_nat j + 1)) (eth_entries b).
Definition receipt_is (bh : bytes) (b : iblock) (j : nat) (t : itx) (e : ientry) (r : receipt_obj) : Prop :=
  ro_block_hash r = bh ∧ ro_number r = ib_height b ∧ ro_tx_hash r = it_hash t ∧ ro_index r = N.of_nat j + 1 ∧
  ro_ok r = (ie_code e =? 0) ∧ ro_gas r = Z.to_N (ie_gas e mod 2 ^ 64) ∧
  ro_cumulative r = nsum (map (fun te => Z.to_N (ie_gas te.2 mod 2 ^ 64)) (take (S j) (eth_entries b))) mod 2 ^ 64 ∧
  ro_price r = it_price t ∧
  ro_contract r = (if decide (e_contract e = Some (replicate 20 0)) then None else e_contract e) ∧
  ro_logs r = imap (fun k l => mkPlaced l bh (ib_height b) (it_hash t) (N.of_nat j + 1) (N.of_nat k)) (e_logs e).

Lemma imap_length' {A B} (f : nat → A → B) l : length (imap f l) = length l.
Proof. apply imap_length. Qed.

Section props.
Variable bloom_bits : bytes → list N.
Variable header_hash : header → bytes.
Notation sound := (sound_chain bloom_bits header_hash).
Notation indexed := (index_blocks bloom_bits header_hash).
Notation hash_at := (hash_at header_hash).
Notation by_number := (get_block_by_number header_hash).
Notation by_hash := (get_block_by_hash header_hash).

(** no header below 1 or above the height *)
Lemma header_range bs n h : sound bs → i_header (indexed bs) !! n = Some h → 1 <= n <= N.of_nat (length bs).
Proof.
  intros Hc. induction bs as [|b bs IH] using rev_ind; intros Hh.
  { unfold index_blocks in Hh. cbn in Hh. rewrite lookup_empty in Hh. done. }
  destruct (chain_snoc _ _ _ _ Hc) as (Hc' & Hb & Hix & _). rewrite index_blocks_snoc in Hh.
  rewrite (index_block_ok bloom_bits header_hash b _ Hix) in Hh. cbv zeta in Hh. cbn [fst i_header] in Hh.
  rewrite app_length. cbn [length].
  destruct (decide (n = ib_height b)) as [->|Hne]; [lia|]. rewrite lookup_insert_ne in Hh by done.
  specialize (IH Hc' Hh). lia.
Qed.
Lemma height_at bs n : sound bs → 1 <= n <= N.of_nat (length bs) → ∃ b, bs !! N.to_nat (n - 1) = Some b ∧ ib_height b = n.
Proof.
  intros Hc Hn. destruct (lookup_lt_is_Some_2 bs (N.to_nat (n - 1))) as [b Hb]; [lia|].
  exists b. split; [done|]. rewrite (ch_heights _ Hc _ _ Hb). lia.
Qed.
Lemma number_hash bs bh n : sound bs → i_number (indexed bs) !! bh = Some n →
  ∃ b, bs !! N.to_nat (n - 1) = Some b ∧ ib_height b = n ∧ hash_at (indexed bs) n = bh.
Proof.
  intros Hc Hn. destruct (chain_view_ok bloom_bits header_hash bs Hc) as [(_ & _ & _ & W4) _].
  destruct (W4 bh n Hn) as (h & Hh & Hhash). destruct (height_at bs n Hc (header_range bs n h Hc Hh)) as (b & Hb & Hi).
  exists b. split; [done|]. split; [done|]. unfold LogProps.hash_at, header_by_number. rewrite Hh. done.
Qed.
Lemma resolved bs latest tag : sound bs → resolve_nr latest tag <= N.of_nat (length bs) → resolve_nr latest tag <> 0 →
  ∃ b, named bs latest tag = Some b ∧ ib_height b = resolve_nr latest tag.
Proof.
  intros Hc Hl Hz. destruct (height_at bs (resolve_nr latest tag) Hc ltac:(lia)) as (b & Hb & Hi). exists b. split; [|done].
  unfold named, resolve_nr in *. destruct (Z.ltb_spec tag 0).
  - destruct (Z.leb_spec (Z.of_N latest) 0); [lia|]. rewrite <- Hb. f_equal. lia.
  - destruct (Z.eqb_spec tag 0); [subst; exact Hb|]. replace (Z.max tag 1) with tag by lia.
    destruct (Z.leb_spec tag 0); [lia|]. rewrite <- Hb. f_equal. lia.
Qed.
Lemma named_height bs latest tag b : sound bs → named bs latest tag = Some b → ib_height b = resolve_nr latest tag ∧ ∃ i, bs !! i = Some b.
Proof.
  intros Hc. unfold named, resolve_nr. destruct (Z.ltb_spec tag 0).
  - destruct (Z.leb_spec (Z.of_N latest) 0); [done|]. intros Hb. split; [|eauto]. rewrite (ch_heights _ Hc _ _ Hb). lia.
  - destruct (Z.leb_spec (Z.max tag 1) 0); [lia|]. intros Hb. split; [|eauto]. rewrite (ch_heights _ Hc _ _ Hb).
    destruct (Z.eqb_spec tag 0); [subst; lia|lia].
Qed.

(** ** C102 *)
(** eth_getBlockByNumber: the named block with its header and all its Ethereum transactions,
    or null when there is no such block; never an error. *)
Theorem C102_block_by_number bs latest tag full : sound bs →
  match named bs latest tag with
  | None => by_number (indexed bs) latest tag full = ANull
  | Some b => ∃ h, hd_number h = ib_height b ∧
      let bh := header_hash h in
      by_number (indexed bs) latest tag full =
        AOk (mkBlockObj h bh (if full then FullTxs (txs_of bh b)
                              else TxHashes (map (fun te => it_hash te.1) (eth_entries b)))) ∧
      get_header_by_number (indexed bs) latest tag = AOk h ∧ get_header_by_hash (indexed bs) bh = AOk h
  end.
Proof.
  intros Hc. unfold get_block_by_number, get_header_by_number. destruct (named bs latest tag) as [b|] eqn:En.
  - destruct (named_height bs latest tag b Hc En) as (Hr & i & Hi). rewrite <- Hr.
    destruct (view_at bloom_bits header_hash bs i b Hc Hi) as (h & V & _ & _).
    pose proof (view_txs _ _ _ _ _ V) as Ht. destruct V as (V1 & V2 & _ & V4 & _). exists h. split; [done|]. cbn zeta.
    unfold get_header_by_hash, header_by_hash, header_by_number. rewrite V4. cbn [mbind option_bind]. rewrite V1, Ht. split; [|done].
    f_equal. unfold format_block. destruct full; [done|]. do 2 f_equal. rewrite map_imap_. cbn.
    generalize (eth_entries b). intros l. clear. induction l as [|x l IH]; [done|]. cbn. f_equal. exact IH.
  - unfold header_by_number. destruct (i_header (indexed bs) !! resolve_nr latest tag) as [h|] eqn:Eh; [|done]. exfalso.
    pose proof (header_range bs _ h Hc Eh) as Hn. destruct (resolved bs latest tag Hc ltac:(lia) ltac:(lia)) as (b & Hb & _).
    rewrite En in Hb. done.
Qed.
(** By hash: the same answer as by number. *)
Theorem C102_block_by_hash bs latest (i : nat) b full : sound bs → bs !! i = Some b → N.of_nat (length bs) < 2 ^ 63 →
  let bh := hash_at (indexed bs) (ib_height b) in
  by_hash (indexed bs) latest bh full = by_number (indexed bs) latest (Z.of_N (ib_height b)) full ∧
  count_by_hash header_hash (indexed bs) latest bh = AOk (length (eth_entries b)).
Proof.
  intros Hc Hi Hl bh. destruct (view_at bloom_bits header_hash bs i b Hc Hi) as (h & V & Hh & _).
  assert (Hn : i_number (indexed bs) !! bh = Some (ib_height b)). { unfold bh. rewrite Hh. destruct V as (_ & _ & _ & V4 & _). done. }
  assert (Hrange : ib_height b <= N.of_nat (length bs)). { rewrite (ch_heights _ Hc _ _ Hi). apply lookup_lt_Some in Hi. lia. }
  assert (Hcast : int64 (ib_height b) = Z.of_N (ib_height b)).
  { unfold int64. rewrite N.mod_small by lia. destruct (N.ltb_spec (ib_height b) (2 ^ 63)); [done|lia]. }
  assert (Hnamed : named bs latest (Z.of_N (ib_height b)) = Some b).
  { unfold named. destruct (Z.ltb_spec (Z.of_N (ib_height b)) 0); [lia|].
    assert (1 <= ib_height b) by (rewrite (ch_heights _ Hc _ _ Hi); lia). replace (Z.max (Z.of_N (ib_height b)) 1) with (Z.of_N (ib_height b)) by lia.
    destruct (Z.leb_spec (Z.of_N (ib_height b)) 0); [lia|]. rewrite <- Hi. f_equal. rewrite (ch_heights _ Hc _ _ Hi). lia. }
  unfold count_by_hash, get_block_by_hash. rewrite Hn, Hcast. split; [done|].
  pose proof (C102_block_by_number bs latest (Z.of_N (ib_height b)) true Hc) as H. rewrite Hnamed in H.
  destruct H as (h' & _ & H & _). cbn zeta in H. rewrite H. cbn [count_of bo_txs]. unfold txs_of. rewrite imap_length. done.
Qed.
Theorem C102_count_by_number bs latest tag : sound bs →
  count_by_number header_hash (indexed bs) latest tag =
  match named bs latest tag with Some b => AOk (length (eth_entries b)) | None => ANull end.
Proof.
  intros Hc. unfold count_by_number. pose proof (C102_block_by_number bs latest tag true Hc) as H.
  destruct (named bs latest tag) as [b|]; [|rewrite H; done]. destruct H as (h & _ & H & _). cbn zeta in H. rewrite H.
  cbn [count_of bo_txs]. unfold txs_of. rewrite imap_length. done.
Qed.
(** A transaction that is answered is in the block it names, at the position it names. *)
Theorem C102_transaction_in_its_block bs latest h t : sound bs → N.of_nat (length bs) < 2 ^ 63 →
  get_tx_by_hash (indexed bs) h = AOk t →
  it_hash (rt_tx t) = h ∧
  ∃ (i j : nat) b e hd, bs !! i = Some b ∧ eth_entries b !! j = Some (rt_tx t, e) ∧
    rt_number t = ib_height b ∧ rt_index t = N.of_nat j + 1 ∧
    by_hash (indexed bs) latest (rt_block_hash t) true = AOk (mkBlockObj hd (rt_block_hash t) (FullTxs (txs_of (rt_block_hash t) b))) ∧
    by_number (indexed bs) latest (Z.of_N (rt_number t)) true = AOk (mkBlockObj hd (rt_block_hash t) (FullTxs (txs_of (rt_block_hash t) b))) ∧
    txs_of (rt_block_hash t) b !! j = Some t.
Proof.
  intros Hc Hl Ht. unfold get_tx_by_hash in Ht. destruct (tx_by_hash (indexed bs) h) as [t'|] eqn:E; [|done]. injection Ht as ->.
  destruct (chain_view_ok bloom_bits header_hash bs Hc) as [(_ & _ & W3 & _) _].
  pose proof (W3 h t E) as Hin. unfold chain_hashes in Hin. apply elem_of_list_bind in Hin as (b & Hin & Hb).
  apply elem_of_list_lookup in Hb as [i Hi]. apply elem_of_list_fmap in Hin as ([t0 e] & -> & Hin). cbn [fst] in *.
  apply elem_of_list_lookup in Hin as [j Hj].
  destruct (C42_retrieval bloom_bits header_hash bs i b j t0 e Hc Hi Hj) as (H & _). cbn zeta in H. rewrite E in H. injection H as ->.
  split; [done|]. cbn [rt_tx rt_number rt_index rt_block_hash].
  destruct (C102_block_by_hash bs latest i b true Hc Hi Hl) as [H1 _]. cbn zeta in H1.
  assert (Hnamed : named bs latest (Z.of_N (ib_height b)) = Some b).
  { unfold named. destruct (Z.ltb_spec (Z.of_N (ib_height b)) 0); [lia|].
    assert (1 <= ib_height b) by (rewrite (ch_heights _ Hc _ _ Hi); lia). replace (Z.max (Z.of_N (ib_height b)) 1) with (Z.of_N (ib_height b)) by lia.
    destruct (Z.leb_spec (Z.of_N (ib_height b)) 0); [lia|]. rewrite <- Hi. f_equal. rewrite (ch_heights _ Hc _ _ Hi). lia. }
  pose proof (C102_block_by_number bs latest (Z.of_N (ib_height b)) true Hc) as H. rewrite Hnamed in H.
  destruct H as (hd & Hnum & H & Hhead & _). cbn zeta in H.
  assert (Hhash : header_hash hd = hash_at (indexed bs) (ib_height b)).
  { unfold get_header_by_number in Hhead. unfold LogProps.hash_at.
    assert (Hr : resolve_nr latest (Z.of_N (ib_height b)) = ib_height b).
    { destruct (named_height bs latest _ b Hc Hnamed) as [Hr _]. done. }
    rewrite Hr in Hhead. destruct (header_by_number (indexed bs) (ib_height b)); [|done]. injection Hhead as ->. done. }
  rewrite Hhash in H. exists i, j, b, e, hd. do 4 (split; [done|]). split; [rewrite H1; exact H|]. split; [exact H|].
  unfold txs_of. rewrite list_lookup_imap, Hj. done.
Qed.
(** Receipts: one by one, and the receipts of a block are those of its transactions in order. *)
Theorem C102_receipt bs (i : nat) b (j : nat) t e : sound bs → bs !! i = Some b → eth_entries b !! j = Some (t, e) →
  ∃ r, get_receipt (indexed bs) (it_hash t) = AOk r ∧ receipt_is (hash_at (indexed bs) (ib_height b)) b j t e r.
Proof.
  intros Hc Hi Hj. destruct (C42_retrieval bloom_bits header_hash bs i b j t e Hc Hi Hj) as (H & _ & _ & r & Hr & R).
  cbn zeta in H. unfold get_receipt. rewrite H, Hr. cbn. eexists. split; [done|].
  destruct R as (R1 & R2 & R3 & R4 & R5 & R6 & R7). unfold receipt_is, marshal_receipt. cbn. do 4 (split; [done|]).
  split; [done|]. split; [done|]. split; [done|]. split; [done|]. split.
  - rewrite R6. change (replicate 20 0) with zero_addr. destruct (e_contract e) as [c|]; [|case_decide; done].
    case_bool_decide as Hx; case_decide as Hy; [done| |by injection Hy as ->|done]. exfalso. apply Hy. by f_equal.
  - rewrite R5. done.
Qed.
Theorem C102_unknown_transaction bs h : sound bs →
  (∀ b te, b ∈ bs → te ∈ eth_entries b → it_hash te.1 <> h) →
  get_tx_by_hash (indexed bs) h = ANull ∧ get_receipt (indexed bs) h = ANull.
Proof.
  intros Hc Hno. unfold get_tx_by_hash, get_receipt. destruct (tx_by_hash (indexed bs) h) as [t|] eqn:E; [|done]. exfalso.
  destruct (chain_view_ok bloom_bits header_hash bs Hc) as [(_ & _ & W3 & _) _].
  pose proof (W3 h t E) as Hin. unfold chain_hashes in Hin. apply elem_of_list_bind in Hin as (b & Hin & Hb).
  apply elem_of_list_fmap in Hin as (te & Heq & Hin). apply (Hno b te Hb Hin). done.
Qed.
Theorem C102_block_receipts bs latest r b : sound bs →
  match r with
  | ByHash h => b ∈ bs ∧ hash_at (indexed bs) (ib_height b) = h
  | ByNumber tag => named bs latest tag = Some b
  | ByNothing => named bs latest (-2) = Some b
  end →
  ∃ rs, get_block_receipts (indexed bs) latest r = AOk rs ∧ length rs = length (eth_entries b) ∧
    ∀ (j : nat) t e, eth_entries b !! j = Some (t, e) → ∃ x, rs !! j = Some x ∧ get_receipt (indexed bs) (it_hash t) = AOk x.
Proof.
  intros Hc Hr.
  assert (Hres : resolve_ref (indexed bs) latest r = Some (ib_height b) ∧ ∃ i, bs !! i = Some b).
  { destruct r as [h|tag|]; cbn [resolve_ref].
    - destruct Hr as [Hb Hh]. apply elem_of_list_lookup in Hb as [i Hi]. split; [|eauto].
      destruct (view_at bloom_bits header_hash bs i b Hc Hi) as (hd & V & Hh' & _). destruct V as (_ & _ & _ & V4 & _). rewrite <- Hh, Hh'. done.
    - destruct (named_height bs latest tag b Hc Hr) as [-> H]. done.
    - destruct (named_height bs latest (-2) b Hc Hr) as [-> H]. done. }
  destruct Hres as (Hres & i & Hi). unfold get_block_receipts. rewrite Hres.
  destruct (C42_block_walk bloom_bits header_hash bs i b Hc Hi) as (Ht & rs & Hrs & Hlen & Hat). cbn zeta in Ht. rewrite Ht, Hrs.
  rewrite imap_length, Hlen. rewrite bool_decide_eq_true_2 by done. eexists. split; [done|]. split; [rewrite zip_with_length, imap_length; lia|].
  intros j t e Hj. rewrite lookup_zip_with, (Hat j t e Hj), list_lookup_imap, Hj. cbn.
  destruct (C42_retrieval bloom_bits header_hash bs i b j t e Hc Hi Hj) as (H & _ & _ & r0 & Hr0 & _). cbn zeta in H.
  unfold get_receipt. rewrite H, Hr0. cbn. eauto.
Qed.

(** ** C103: where unknown things are not answered with null, refuted *)
(** An unknown block hash is an error for blocks, counts and receipts (null for headers). *)
Theorem C103_unknown_hash_refuted bs latest h full : sound bs →
  (∀ b, b ∈ bs → hash_at (indexed bs) (ib_height b) <> h) →
  by_hash (indexed bs) latest h full = AErr ∧ count_by_hash header_hash (indexed bs) latest h = AErr ∧
  get_block_receipts (indexed bs) latest (ByHash h) = AErr ∧ get_header_by_hash (indexed bs) h = ANull.
Proof.
  intros Hc Hno. assert (Hn : i_number (indexed bs) !! h = None).
  { destruct (i_number (indexed bs) !! h) as [n|] eqn:E; [|done]. exfalso. destruct (number_hash bs h n Hc E) as (b & Hb & Hi & Hh).
    apply (Hno b); [eapply elem_of_list_lookup_2; done|]. rewrite Hi. done. }
  unfold count_by_hash, get_block_by_hash, get_block_receipts, get_header_by_hash, header_by_hash. cbn [resolve_ref]. rewrite Hn. done.
Qed.
(** An unknown block number has an empty list of receipts, although the block is null. *)
Theorem C103_no_such_block_refuted bs latest tag full : sound bs → named bs latest tag = None →
  by_number (indexed bs) latest tag full = ANull ∧ get_block_receipts (indexed bs) latest (ByNumber tag) = AOk [].
Proof.
  intros Hc Hn. pose proof (C102_block_by_number bs latest tag full Hc) as H. rewrite Hn in H. split; [done|].
  unfold get_block_receipts. cbn [resolve_ref].
  assert (Hh : block_hashes (indexed bs) (resolve_nr latest tag) = []).
  { apply (block_hashes_spec _ _ []). intros k x. split; [|intros (i & Hi & _); done]. intros Hx. exfalso.
    assert (Hall : ∀ l, chain l → ∀ m k y, i_by_index (indexed l) !! (m, k) = Some y → 1 <= m <= N.of_nat (length l)).
    { clear. intros l. induction l as [|b l IH] using rev_ind; intros Hc m k y Hy.
      { unfold index_blocks in Hy. cbn in Hy. rewrite lookup_empty in Hy. done. }
      destruct (plain_chain_snoc _ _ Hc) as (Hc' & Hb & Hix & _). rewrite index_blocks_snoc in Hy.
      rewrite (index_block_ok bloom_bits header_hash b _ Hix) in Hy. cbv zeta in Hy. cbn [fst i_by_index] in Hy.
      rewrite app_length. cbn [length]. destruct (decide (m = ib_height b)) as [->|Hne]; [lia|].
      rewrite store_loop_ix_ne in Hy by (left; done). cbn [i_by_index] in Hy. specialize (IH Hc' m k y Hy). lia. }
    pose proof (Hall bs Hc _ _ _ Hx) as Hr. destruct (resolved bs latest tag Hc ltac:(lia) ltac:(lia)) as (b & Hb & _). congruence. }
  unfold block_txs, block_receipts. rewrite Hh. done.
Qed.
End props.

(** ** eth_pendingTransactions *)
Section pending.
Variable keccak : bytes -> bytes.
Variable bech_dec : text -> option bytes.
Variable key_addr : pubkey -> bytes.
Variable fee_denom : text.
Variable decimals : Z.
Variable chain_id : bytes.
Notation conv := (convert keccak bech_dec key_addr fee_denom decimals chain_id).
Notation pending := (pending_transactions keccak bech_dec key_addr fee_denom decimals chain_id).

(** It answers exactly when each of the first thirty waiting transactions decodes, and
    converts or is no Ethereum transaction; the answer is then the Ethereum transactions
    among these, in order. *)
Definition as_eth (o : option vtx) : option eth_tx :=
  match o with Some x => match conv x with Conv (COk t _) => Some t | _ => None end | None => None end.
Theorem C102_pending mempool l :
  pending mempool = Some l ↔
  l = omap as_eth (take 30 mempool) ∧
  ∀ o, o ∈ take 30 mempool → ∃ x, o = Some x ∧ conv x <> CrashC ∧ conv x <> Conv CErr.
Proof.
  unfold pending_transactions. generalize (take 30 mempool). intros m. revert l. induction m as [|o m IH]; intros l; cbn [pending_loop].
  - cbn. split; [intros [= <-]; split; [done|]; intros o Ho; inversion Ho|intros [-> _]; done].
  - destruct o as [x|].
    2: { split; [done|]. intros [_ H]. destruct (H None (elem_of_list_here _ _)) as (x & ? & _). done. }
    assert (Hall : (∀ o, o ∈ Some x :: m → ∃ y, o = Some y ∧ conv y <> CrashC ∧ conv y <> Conv CErr) ↔
      (conv x <> CrashC ∧ conv x <> Conv CErr) ∧ ∀ o, o ∈ m → ∃ y, o = Some y ∧ conv y <> CrashC ∧ conv y <> Conv CErr).
    { split.
      - intros H. split; [destruct (H _ (elem_of_list_here _ _)) as (y & [= <-] & H'); done|]. intros o Ho. apply H. right. done.
      - intros [Hx H] o Ho. apply elem_of_cons in Ho as [->|Ho]; eauto. }
    rewrite Hall. cbn [omap list_omap as_eth].
    destruct (conv x) as [|[| |t a]] eqn:E.
    + split; [done|]. intros (_ & [[] _] & _). done.
    + split; [done|]. intros (_ & [_ []] & _). done.
    + rewrite IH. split; [intros [-> H]; done|intros (-> & _ & H); done].
    + destruct (pending_loop _ _ _ _ _ _ m) as [l'|] eqn:El.
      * destruct (proj1 (IH l') eq_refl) as [-> H]. cbn [fmap option_fmap option_map]. split.
        -- intros [= <-]. split; [done|]. split; [split; done|done].
        -- intros (-> & _). done.
      * cbn [fmap option_fmap option_map]. split; [done|]. intros (_ & _ & H). exfalso.
        assert (Hc : None = Some (omap as_eth m)) by (apply IH; done). done.
Qed.
(** Refuted: the thirty-first waiting transaction is never shown. *)
Theorem C103_thirty_refuted mempool o t l : (30 <= length mempool)%nat → as_eth o = Some t → pending (mempool ++ [o]) = Some l →
  (∀ o', o' ∈ mempool → as_eth o' <> Some t) → t ∉ l.
Proof.
  intros Hl Ho Hp Hno Hin. apply C102_pending in Hp as [-> _]. rewrite take_app_le in Hin by done.
  apply elem_of_list_omap in Hin as (o' & Ho' & Heq). apply (Hno o'); [|done]. rewrite <- (take_drop 30 mempool); apply elem_of_app; left; exact Ho'.
Qed.
(** Refuted: one keyless transaction (C99) in front makes the call fail for everybody. *)
Theorem C103_keyless_pending_refuted before x after : (length before < 30)%nat → conv x = CrashC → pending (before ++ Some x :: after) = None.
Proof.
  intros Hl Hx. destruct (pending (before ++ Some x :: after)) as [l|] eqn:E; [|done]. exfalso.
  apply C102_pending in E as [_ H]. destruct (H (Some x)) as (y & [= <-] & Hn & _); [|done].
  rewrite take_app_ge by lia. apply elem_of_app. right. destruct (30 - length before)%nat eqn:E'; [lia|]. left.
Qed.
End pending.

(** ** Concrete cases *)
Notation ex_st := (index_blocks ex_bits ex_hash ex_chain).
Example C102_example :
  count_by_number ex_hash ex_st 2 (-2) = AOk 1%nat ∧ count_by_number ex_hash ex_st 2 0 = AOk 3%nat ∧
  count_by_number ex_hash ex_st 2 3 = ANull ∧
  (match get_block_by_hash ex_hash ex_st 2 (LogProps.hash_at ex_hash ex_st 1) false with
   | AOk b => bo_txs b = TxHashes [[1]; [2]; [3]] | _ => False end) ∧
  (match get_receipt ex_st [4] with AOk r => ro_contract r = Some [77] | _ => False end).
Proof. split; [|split; [|split; [|split]]]; vm_compute; reflexivity. Qed.
Example C103_example :
  get_block_by_hash ex_hash ex_st 2 [0] true = AErr ∧ get_header_by_hash ex_st [0] = ANull ∧
  get_block_receipts ex_st 2 (ByNumber 9) = AOk [].
Proof. split; [|split]; vm_compute; reflexivity. Qed.
