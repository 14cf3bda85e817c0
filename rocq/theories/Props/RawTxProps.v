(** C143: raw transactions. *)
From Verif.Base Require Import Prelude Hex.
From Verif.Model Require Import EthLog EthTx Indexer StoredTx RawTx.
From Verif.Spec Require Import IndexerSpec.
From Verif.Proofs Require Import BytesP IndexerP EthTxP.
From Verif.Props Require Import LogProps EthTxProps StoredTxProps.
Open Scope N_scope.

Section props.
Variable bloom_bits : bytes → list N.
Variable header_hash : header → bytes.
Notation sound := (sound_chain bloom_bits header_hash).
Variable keccak : bytes → bytes.
Variable ck : bytes → nat → bool.
Variable bech_enc : bytes → text.
Variable bech_dec : text → option bytes.
Variable recover : content → N → Z → Z → option bytes.
Variable pub_addr : bytes → bytes.
Variable fee_denom : text.
Variable decimals : Z.
Variable cid : bytes.
Hypothesis pub_addr_20 : ∀ ct v r s p, recover ct v r s = Some p → length (pub_addr p) = 20%nat.
Variable marshal : eth_tx → bytes.
Variable parse : bytes → option eth_tx.
(** Only canonical encodings are parsed. *)
Hypothesis canonical : ∀ b t, parse b = Some t → marshal t = b.
Variable eth_of : itx → eth_tx.
Notation the_chain := (eth_chain_id keccak cid).
Notation to_cosmos := (eth_to_cosmos keccak ck bech_enc recover pub_addr fee_denom decimals cid).
Notation to_eth := (cosmos_to_eth keccak bech_dec pub_addr fee_denom decimals cid).
Notation indexed := (index_blocks bloom_bits header_hash).
Notation at_ := (hash_at header_hash).
Notation raw := (get_raw marshal eth_of the_chain).
Notation raw_at := (get_raw_at marshal eth_of the_chain).

(** The entry is what the indexer makes of the Cosmos transaction [x]: the Ethereum transaction it
    converts to, under that one's hash. *)
Definition entry_from (x : cosmos_tx) (t : itx) : Prop :=
  (∃ sd, to_eth x = COk (eth_of t) sd) ∧ it_hash t = keccak (marshal (eth_of t)).
(** Every indexed entry is such. *)
Definition from_cosmos (bs : list iblock) : Prop := ∀ b te, b ∈ bs → te ∈ eth_entries b → ∃ x, entry_from x te.1.

Lemma chain_num256 : num256 the_chain.
Proof. pose proof (chain_range keccak cid). unfold num256. assert (4503599627370476 < 2 ^ 256)%Z by done. lia. Qed.
Lemma entry_stored x t bh n i : entry_from x t →
  ∃ q, new_rpc_tx (eth_of t) bh n i the_chain = Some q ∧
    (is_Some (read_tx (write_tx q)) ↔ Forall num256 (numbers_of (eth_of t))) ∧
    (∀ q', read_tx (write_tx q) = Some q' → rpc_to_tx q' = Some (eth_of t)).
Proof.
  intros [[sd Hx] _].
  destruct (cosmos_to_eth_inv keccak bech_dec pub_addr fee_denom decimals cid x _ sd Hx)
    as (m & md & sg & b & v & r & s & fee & tip & to & data & value & al & _ & _ & _ & _ & _ & _ & _ & _ & _ & _ & _ & Ht & _).
  cbv zeta in Ht.
  assert (Hch : match eth_of t with AccessListTx ch' _ _ _ _ _ _ | DynamicFeeTx ch' _ _ _ _ _ _ _ => ch' = the_chain | _ => True end)
    by (rewrite Ht; by repeat case_match; simplify_eq).
  assert (Hq : ∃ q, new_rpc_tx (eth_of t) bh n i the_chain = Some q).
  { rewrite Ht. by destruct (m_type md) as [|[[]|[]|]]; cbn; eexists. }
  destruct Hq as [q Hq]. exists q. split; [done|]. destruct (C138_transaction _ _ _ _ _ _ Hch Hq) as [Hi Hb]. split.
  - rewrite Hi, Forall_cons. split; [by intros [_ ?]|]. intros ?. split; [apply chain_num256|done].
  - intros q' E. by apply Hb in E as [? _].
Qed.
Lemma raw_of_fits x t bh n i : entry_from x t → Forall num256 (numbers_of (eth_of t)) →
  raw_of marshal eth_of the_chain (mkRtx t bh n i) = Found (marshal (eth_of t)).
Proof.
  intros Hf Hn. destruct (entry_stored x t bh n i Hf) as (q & Hq & Hi & Hb). unfold raw_of, stored.
  cbn [rt_tx rt_block_hash rt_number rt_index]. rewrite Hq. cbn [mbind option_bind].
  destruct (proj2 Hi Hn) as [q' E]. rewrite E, (Hb q' E). done.
Qed.
Lemma raw_of_wide x t bh n i : entry_from x t → ¬ Forall num256 (numbers_of (eth_of t)) →
  raw_of marshal eth_of the_chain (mkRtx t bh n i) = Failed.
Proof.
  intros Hf Hn. destruct (entry_stored x t bh n i Hf) as (q & Hq & Hi & Hb). unfold raw_of, stored.
  cbn [rt_tx rt_block_hash rt_number rt_index]. rewrite Hq. cbn [mbind option_bind].
  destruct (read_tx (write_tx q)) eqn:E; [|done]. exfalso. apply Hn, Hi. by eexists.
Qed.
(** The signature of a transaction that was taken has numbers of 256 bits. *)
Lemma taken_numbers t x : replay_protected t → to_cosmos t = Some x →
  Forall num256 (numbers_of t) ↔ num256 (fee_cap t) ∧ num256 (tip_cap t) ∧ ∀ c, tx_common t = Some c → num256 (f_value c).
Proof.
  intros Hp Hx. destruct (eth_to_cosmos_inv keccak ck bech_enc recover pub_addr fee_denom decimals cid t x Hp Hx)
    as (c & r & s & b & pub & Hc & _ & _ & Hb & Hr & Hs & Hv & Hr2 & Hs2 & _).
  unfold numbers_of. rewrite Hc. destruct (tx_sig t) as [[v r'] s'] eqn:Es. cbn [fst snd] in Hr, Hs. subst r' s'.
  assert (Hn : num256 v ∧ num256 r ∧ num256 s).
  { pose proof (chain_range keccak cid) as Hch. assert (curve_n < 2 ^ 256)%Z by done. assert (curve_n / 2 < 2 ^ 256)%Z by done.
    unfold num256. assert (4503599627370476 * 3 < 2 ^ 256)%Z by done. split; [|lia].
    destruct t; cbn in Es; simplify_eq; [lia|destruct Hv; lia|destruct Hv; lia]. }
  destruct Hn as (Hv' & Hr' & Hs'). rewrite !Forall_cons, Forall_nil. split.
  - intros (H1 & H2 & H3 & _). split; [done|]. split; [done|]. by intros c' [= <-].
  - intros (H1 & H2 & H3). specialize (H3 _ eq_refl). done.
Qed.

(** C143. What a wallet sends is what it gets back: if the bytes [input] were taken as the Ethereum
    transaction [t], the sender is told the hash of [input]; and once the Cosmos transaction made of
    it is in a block, the raw transaction under this hash, and at its place, is [input] itself,
    provided its fee cap, tip cap and value are numbers of 256 bits. If they are not, the
    first is an error, and the second the empty answer. *)
Theorem C143_sent_back bs (i : nat) b (j : nat) it e input t x :
  sound bs → bs !! i = Some b → eth_entries b !! j = Some (it, e) →
  parse input = Some t → wf_tx t → replay_protected t → to_cosmos t = Some x → entry_from x it →
  send_answer keccak marshal parse input = Some (keccak input) ∧
  let st := indexed bs in
  let narrow := num256 (fee_cap t) ∧ num256 (tip_cap t) ∧ ∀ c, tx_common t = Some c → num256 (f_value c) in
  (narrow → raw st (keccak input) = Found input ∧ raw_at st (at_ st (ib_height b)) (N.of_nat j + 1) = input) ∧
  (¬ narrow → raw st (keccak input) = Failed ∧ raw_at st (at_ st (ib_height b)) (N.of_nat j + 1) = []).
Proof.
  intros Hc Hi Hj Hin Hwf Hp Hx Hf. split. { unfold send_answer. rewrite Hin. cbn. by rewrite (canonical _ _ Hin). }
  intros st narrow.
  destruct (C18_round_trip keccak ck bech_enc bech_dec recover pub_addr fee_denom decimals cid pub_addr_20 t x Hwf Hp Hx) as (sd & _ & Ht & _).
  assert (Et : eth_of it = t). { destruct Hf as [[sd' E] _]. congruence. }
  assert (Eh : it_hash it = keccak input). { destruct Hf as [_ E]. by rewrite E, Et, (canonical _ _ Hin). }
  destruct (C42_retrieval bloom_bits header_hash bs i b j it e Hc Hi Hj) as (H1 & _ & H3 & _). cbv zeta in H1, H3.
  unfold get_raw, get_raw_at. unfold st. rewrite <- Eh, H1, H3. unfold narrow. rewrite <- (taken_numbers t x Hp Hx). split; intros Hn.
  - rewrite (raw_of_fits x it _ _ _ Hf) by (by rewrite Et). by rewrite Et, (canonical _ _ Hin).
  - rewrite (raw_of_wide x it _ _ _ Hf) by (by rewrite Et). done.
Qed.
(** C143. Whatever bytes are answered for a hash have this hash, and are an indexed transaction's:
    a client can check them without trusting the node's other answers. *)
Theorem C143_hash_of_answer bs h bytes_ :
  sound bs → from_cosmos bs → raw (indexed bs) h = Found bytes_ → bytes_ ≠ [] →
  keccak bytes_ = h ∧ ∃ b te, b ∈ bs ∧ te ∈ eth_entries b ∧ it_hash te.1 = h ∧ bytes_ = marshal (eth_of te.1).
Proof.
  intros Hc Hf. unfold get_raw. destruct (tx_by_hash (indexed bs) h) as [q|] eqn:E; [|by intros [= <-]].
  destruct (chain_view_ok bloom_bits header_hash bs Hc) as [(_ & _ & W3 & _) _].
  pose proof (W3 h q E) as Hin. unfold chain_hashes in Hin. apply elem_of_list_bind in Hin as (b & Hin & Hb).
  apply elem_of_list_fmap in Hin as ([t e] & -> & Hin). cbn [fst] in *.
  destruct (Hf b _ Hb Hin) as [x Hx]. cbn [fst] in Hx. apply elem_of_list_lookup in Hb as Hb'. destruct Hb' as [i Hi].
  apply elem_of_list_lookup in Hin as Hin'. destruct Hin' as [j Hj].
  destruct (C42_retrieval bloom_bits header_hash bs i b j t e Hc Hi Hj) as (H1 & _). cbv zeta in H1.
  rewrite E in H1. injection H1 as ->. destruct (decide (Forall num256 (numbers_of (eth_of t)))) as [Hn|Hn].
  - rewrite (raw_of_fits x t _ _ _ Hx Hn). intros [= <-] _. split; [by destruct Hx as [_ <-]|]. by exists b, (t, e).
  - by rewrite (raw_of_wide x t _ _ _ Hx Hn).
Qed.
(** C143. By place: only the place [1..] of an entry of the block with this hash has an answer, and it is
    that entry's bytes. *)
Theorem C143_place_of_answer bs (i : nat) b k :
  sound bs → from_cosmos bs → bs !! i = Some b → raw_at (indexed bs) (at_ (indexed bs) (ib_height b)) k ≠ [] →
  ∃ (j : nat) te, eth_entries b !! j = Some te ∧ k = N.of_nat j + 1 ∧
    raw_at (indexed bs) (at_ (indexed bs) (ib_height b)) k = marshal (eth_of te.1).
Proof.
  intros Hc Hf Hi Hne. unfold get_raw_at in *. destruct (rpc_tx_by_hash_index (indexed bs) _ k) as [q|] eqn:E; [|done].
  destruct (decide (k = 0 ∨ N.of_nat (length (eth_entries b)) < k)) as [Hk|Hk].
  - exfalso. destruct (view_at bloom_bits header_hash bs i b Hc Hi) as (h & V & Hh & _). destruct V as (_ & _ & _ & V4 & _).
    unfold rpc_tx_by_hash_index in E. rewrite Hh, V4 in E. cbn [mbind option_bind] in E.
    rewrite (C42_no_other_index bloom_bits header_hash bs i b k Hc Hi Hk) in E. done.
  - destruct (lookup_lt_is_Some_2 (eth_entries b) (N.to_nat (k - 1)) ltac:(lia)) as [[t e] Hj].
    destruct (C42_retrieval bloom_bits header_hash bs i b _ t e Hc Hi Hj) as (_ & _ & H3 & _). cbv zeta in H3.
    replace (N.of_nat (N.to_nat (k - 1)) + 1) with k in H3 by lia. rewrite E in H3. injection H3 as ->.
    exists (N.to_nat (k - 1)), (t, e). split; [done|]. split; [lia|]. cbn [fst].
    destruct (Hf b (t, e) (elem_of_list_lookup_2 _ _ _ Hi) (elem_of_list_lookup_2 _ _ _ Hj)) as [x Hx]. cbn [fst] in Hx.
    destruct (decide (Forall num256 (numbers_of (eth_of t)))) as [Hn|Hn].
    + by rewrite (raw_of_fits x t _ _ _ Hx Hn).
    + by rewrite (raw_of_wide x t _ _ _ Hx Hn) in Hne.
Qed.
(** C143. What is in no block has no bytes: an unknown hash is answered "0x", which is not null, and
    so are an unknown block hash and a place outside of the block, place 0 included. *)
Theorem C143_unknown bs :
  sound bs →
  (∀ h, (∀ b te, b ∈ bs → te ∈ eth_entries b → it_hash te.1 ≠ h) → raw (indexed bs) h = Found []) ∧
  (∀ bh k, (∀ b, b ∈ bs → at_ (indexed bs) (ib_height b) ≠ bh) → raw_at (indexed bs) bh k = []) ∧
  (∀ b k, b ∈ bs → k = 0 ∨ N.of_nat (length (eth_entries b)) < k → raw_at (indexed bs) (at_ (indexed bs) (ib_height b)) k = []).
Proof.
  intros Hc. destruct (chain_view_ok bloom_bits header_hash bs Hc) as [(W1 & W2 & W3 & W4) HV]. split; [|split].
  - intros h Hno. unfold get_raw. destruct (tx_by_hash (indexed bs) h) as [q|] eqn:E; [|done]. exfalso.
    pose proof (W3 h q E) as Hin. unfold chain_hashes in Hin. apply elem_of_list_bind in Hin as (b & Hin & Hb).
    apply elem_of_list_fmap in Hin as (te & Heq & Hin). by apply (Hno b te Hb Hin).
  - intros bh k Hno. unfold get_raw_at, rpc_tx_by_hash_index. destruct (i_number (indexed bs) !! bh) as [n|] eqn:E; [|done]. exfalso.
    destruct (W4 bh n E) as (h & Hh & <-). destruct (header_in bloom_bits header_hash bs n h Hc Hh) as (b & Hb & -> & _).
    apply (Hno b Hb). unfold hash_at, header_by_number. by rewrite Hh.
  - intros b k Hb Hk. apply elem_of_list_lookup in Hb as [i Hi]. unfold get_raw_at.
    destruct (view_at bloom_bits header_hash bs i b Hc Hi) as (h & V & Hh & _). destruct V as (_ & _ & _ & V4 & _).
    unfold rpc_tx_by_hash_index. rewrite Hh, V4. cbn [mbind option_bind].
    by rewrite (C42_no_other_index bloom_bits header_hash bs i b k Hc Hi Hk).
Qed.
End props.

(** Alice's payment of C138_example in a block of its own, sent as the two bytes [2; tip]. *)
From Verif.Model Require Import Fees SigVerify Token Bank CallTree EthDeliver.
From Verif.Spec Require Import TokenSpec CallTreeSpec WalletSpec.
From Verif.Proofs Require Import TokenP BankP TokenMore BankMore CallTreeP CallTreeAny EthDeliverP.
From Verif.Props Require Import CallTreeProps EthDeliverProps.
Local Open Scope N_scope.
Definition r_marshal (t : eth_tx) : bytes := match t with DynamicFeeTx _ _ tip _ _ _ _ _ => [2%N; Z.to_N tip] | _ => [] end.
Definition r_parse (b : bytes) : option eth_tx := match b with [2; tip] => Some (z_tx (Z.of_N tip)) | _ => None end.
Definition r_it (tip : N) : itx := mkITx (w_kc [2; tip]) false 1 [].
Definition r_block (tip : N) : iblock := mkBlock 1 [mkEntry INotEth [8] 0 3 IRNone; mkEntry (IEth (r_it tip)) [9] 0 21000 (IRCall [])] [].
Example C143_example :
  (∀ b t, r_parse b = Some t → r_marshal t = b) ∧
  Forall (λ tip : N,
    let t := z_tx (Z.of_N tip) in
    let st := index_blocks ex_bits ex_hash [r_block tip] in
    let eth_of (_ : itx) := t in
    (match eth_to_cosmos w_kc w_ck w_benc y_rec (fun a => a) x_stake 18 [] t with
     | Some x => match cosmos_to_eth w_kc w_bdec (fun b => b) x_stake 18 [] x with COk t' _ => bool_decide (r_marshal t' = [2; tip]) | _ => false end
     | None => false end,
     send_answer w_kc r_marshal r_parse [2; tip],
     match get_raw r_marshal eth_of (eth_chain_id w_kc []) st (w_kc [2; tip]) with Found b => Some b | _ => None end,
     get_raw_at r_marshal eth_of (eth_chain_id w_kc []) st (hash_at ex_hash st 1) 1,
     get_raw_at r_marshal eth_of (eth_chain_id w_kc []) st (hash_at ex_hash st 1) 0)
    = (true, Some (w_kc [2; tip]),
       (if bool_decide (tip < 2 ^ 256) then Some [2; tip] else None), (if bool_decide (tip < 2 ^ 256) then [2; tip] else []), []))
    [1; 2 ^ 256].
Proof.
  split.
  - intros [|[|[|[]|]] [|tip []]] t [= <-]. unfold r_marshal, z_tx. by rewrite N2Z.id.
  - apply Forall_cons; split; [vm_compute; reflexivity|]. apply Forall_cons; split; [vm_compute; reflexivity|]. by apply Forall_nil.
Qed.
