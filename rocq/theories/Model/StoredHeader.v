(** Block headers: written as JSON when a block is indexed (indexer/abci.go 118-147, 187-194), read
    back for the parent of the next block and for every answer (indexer/reader.go 15-31,
    jsonrpc/backend/block.go 60-121), and formatted for the client (block.go 137-198).

    go-ethereum's core/types/gen_header_json.go (Header.MarshalJSON, UnmarshalJSON) and
    common/hexutil are modelled field by field; [header_hash] is Header.Hash (the Keccak hash of the
    RLP of all fields). Simplifications: a JSON object is its list of keys with a text or null (the
    "hash" that MarshalJSON adds is left out: UnmarshalJSON ignores it); the block's transactions
    are Model/BlockRpc.v's. The roots, the bloom filter and the block's gas come with the block. *)
From Verif.Base Require Import Prelude Hex.
From Verif.Model Require Import StoredTx.
Open Scope N_scope.

Record eth_header := EthHeader {
  h_parent : bytes; h_uncles : bytes; h_coinbase : bytes; h_root : bytes; h_txs : bytes; h_receipts : bytes; h_bloom : bytes;
  h_difficulty : Z; h_number : Z; h_gas_limit : N; h_gas_used : N; h_time : N; h_extra : bytes; h_mix : bytes; h_nonce : bytes;
  h_base_fee : option Z; h_withdrawals : option bytes; h_blob_gas : option N; h_excess : option N; h_beacon : option bytes
}.
(** A JSON object of texts; [None] is null *)
Definition object := list (text * option text).
Definition lookup_field (k : string) (o : object) : option text :=
  match list_find (λ kv, fst kv = txt k) o with Some (_, (_, v)) => v | None => None end.

(** hexutil.EncodeUint64; Uint64.UnmarshalText: at most 16 digits *)
Definition encode_u64 (n : N) : text := encode_big (Z.of_N n).
Definition read_u64 (t : text) : option N := if (18 <? length t)%nat then None else Z.to_N <$> read_big t.
(** Hash, Address, Bloom and BlockNonce: hexutil.UnmarshalFixedJSON *)
Definition read_fixed (n : nat) (t : text) : option bytes :=
  b ← hexutil_decode t; if bool_decide (length b = n) then Some b else None.

(** Header.MarshalJSON: nil pointers are null *)
Definition write_header (h : eth_header) : object :=
  [(txt "parentHash", Some (hexutil_encode (h_parent h)));
   (txt "sha3Uncles", Some (hexutil_encode (h_uncles h)));
   (txt "miner", Some (hexutil_encode (h_coinbase h)));
   (txt "stateRoot", Some (hexutil_encode (h_root h)));
   (txt "transactionsRoot", Some (hexutil_encode (h_txs h)));
   (txt "receiptsRoot", Some (hexutil_encode (h_receipts h)));
   (txt "logsBloom", Some (hexutil_encode (h_bloom h)));
   (txt "difficulty", Some (encode_big (h_difficulty h)));
   (txt "number", Some (encode_big (h_number h)));
   (txt "gasLimit", Some (encode_u64 (h_gas_limit h)));
   (txt "gasUsed", Some (encode_u64 (h_gas_used h)));
   (txt "timestamp", Some (encode_u64 (h_time h)));
   (txt "extraData", Some (hexutil_encode (h_extra h)));
   (txt "mixHash", Some (hexutil_encode (h_mix h)));
   (txt "nonce", Some (hexutil_encode (h_nonce h)));
   (txt "baseFeePerGas", encode_big <$> h_base_fee h);
   (txt "withdrawalsRoot", hexutil_encode <$> h_withdrawals h);
   (txt "blobGasUsed", encode_u64 <$> h_blob_gas h);
   (txt "excessBlobGas", encode_u64 <$> h_excess h);
   (txt "parentBeaconBlockRoot", hexutil_encode <$> h_beacon h)].
(** A pointer field: absent or null leaves it nil. *)
Definition optional {A} (read : text → option A) (t : option text) : option (option A) :=
  match t with None => Some None | Some t => Some <$> read t end.
(** A field that is no pointer and not required: absent or null leaves it zero. *)
Definition or_zero (n : nat) (t : option text) : option bytes :=
  match t with None => Some (replicate n 0) | Some t => read_fixed n t end.
(** Header.UnmarshalJSON: the fields without [optional] and [or_zero] are required *)
Definition read_header (o : object) : option eth_header :=
  parent ← lookup_field "parentHash" o ≫= read_fixed 32;
  uncles ← lookup_field "sha3Uncles" o ≫= read_fixed 32;
  coinbase ← or_zero 20 (lookup_field "miner" o);
  root ← lookup_field "stateRoot" o ≫= read_fixed 32;
  txs ← lookup_field "transactionsRoot" o ≫= read_fixed 32;
  receipts ← lookup_field "receiptsRoot" o ≫= read_fixed 32;
  bloom ← lookup_field "logsBloom" o ≫= read_fixed 256;
  difficulty ← lookup_field "difficulty" o ≫= read_big;
  number ← lookup_field "number" o ≫= read_big;
  gas_limit ← lookup_field "gasLimit" o ≫= read_u64;
  gas_used ← lookup_field "gasUsed" o ≫= read_u64;
  time ← lookup_field "timestamp" o ≫= read_u64;
  extra ← lookup_field "extraData" o ≫= hexutil_decode;
  mix ← or_zero 32 (lookup_field "mixHash" o);
  nonce ← or_zero 8 (lookup_field "nonce" o);
  base_fee ← optional read_big (lookup_field "baseFeePerGas" o);
  withdrawals ← optional (read_fixed 32) (lookup_field "withdrawalsRoot" o);
  blob_gas ← optional read_u64 (lookup_field "blobGasUsed" o);
  excess ← optional read_u64 (lookup_field "excessBlobGas" o);
  beacon ← optional (read_fixed 32) (lookup_field "parentBeaconBlockRoot" o);
  Some (EthHeader parent uncles coinbase root txs receipts bloom difficulty number gas_limit gas_used time extra mix nonce
                  base_fee withdrawals blob_gas excess beacon).

(** What a block brings: its base fee from the gas price (context_utils.go 80-87), the roots of its
    transactions and receipts, its bloom filter, the block gas meter and its time. *)
Record block_data := BlockData { bd_txs : bytes; bd_receipts : bytes; bd_bloom : bytes; bd_limit : N; bd_used : N; bd_time : N; bd_fee : Z }.

Section index.
Variable header_hash : eth_header → bytes.
(** The roots that stand for nothing (types.EmptyRootHash, EmptyUncleHash, EmptyWithdrawalsHash) *)
Variables empty_root empty_uncles empty_withdrawals : bytes.

(** abci.go 118-147 *)
Definition new_header (parent : bytes) (number : N) (d : block_data) : eth_header :=
  EthHeader parent empty_uncles (replicate 20 0) empty_root (bd_txs d) (bd_receipts d) (bd_bloom d)
    0 (Z.of_N number) (bd_limit d) (bd_used d) (bd_time d) [] zero_hash (replicate 8 0)
    (Some (bd_fee d)) (Some empty_withdrawals) None None None.
(** BlockHeaderMap and BlockHashToNumberMap *)
Record hstate := HState { hs_headers : gmap N object; hs_numbers : gmap bytes N }.
(** abci.go 141-147: what cannot be read leaves the parent zero *)
Definition parent_of (st : hstate) (number : N) : bytes :=
  if 1 <? number then
    match hs_headers st !! (number - 1) ≫= read_header with Some p => header_hash p | None => zero_hash end
  else zero_hash.
Definition index_header (st : hstate) (number : N) (d : block_data) : hstate :=
  let h := new_header (parent_of st number) number d in
  HState (<[number := write_header h]> (hs_headers st)) (<[header_hash h := number]> (hs_numbers st)).
(** A node that indexes the blocks from [first] on *)
Fixpoint index_from (first : N) (ds : list block_data) (st : hstate) : hstate :=
  match ds with [] => st | d :: ds' => index_from (first + 1) ds' (index_header st first d) end.

(** formatHeader (block.go 163-198): nil pointers are left out *)
Definition present (k : string) (o : option text) : object := match o with Some t => [(txt k, Some t)] | None => [] end.
Definition format_header (h : eth_header) : object :=
  [(txt "number", Some (encode_big (h_number h)));
   (txt "hash", Some (hexutil_encode (header_hash h)));
   (txt "parentHash", Some (hexutil_encode (h_parent h)));
   (txt "nonce", Some (hexutil_encode (h_nonce h)));
   (txt "mixHash", Some (hexutil_encode (h_mix h)));
   (txt "sha3Uncles", Some (hexutil_encode (h_uncles h)));
   (txt "logsBloom", Some (hexutil_encode (h_bloom h)));
   (txt "stateRoot", Some (hexutil_encode (h_root h)));
   (txt "miner", Some (hexutil_encode (h_coinbase h)));
   (txt "difficulty", Some (encode_big (h_difficulty h)));
   (txt "extraData", Some (hexutil_encode (h_extra h)));
   (txt "gasLimit", Some (encode_u64 (h_gas_limit h)));
   (txt "gasUsed", Some (encode_u64 (h_gas_used h)));
   (txt "timestamp", Some (encode_u64 (h_time h)));
   (txt "transactionsRoot", Some (hexutil_encode (h_txs h)));
   (txt "receiptsRoot", Some (hexutil_encode (h_receipts h)))] ++
  present "baseFeePerGas" (encode_big <$> h_base_fee h) ++
  present "withdrawalsRoot" (hexutil_encode <$> h_withdrawals h) ++
  present "blobGasUsed" (encode_u64 <$> h_blob_gas h) ++
  present "excessBlobGas" (encode_u64 <$> h_excess h) ++
  present "parentBeaconBlockRoot" (hexutil_encode <$> h_beacon h).
(** The header part of eth_getBlockByNumber and eth_getBlockByHash *)
Definition block_object (st : hstate) (number : N) : answer object :=
  match hs_headers st !! number with
  | None => Null
  | Some o => match read_header o with Some h => Found (format_header h) | None => Failed end
  end.
Definition block_object_by_hash (st : hstate) (hash : bytes) : answer object :=
  match hs_numbers st !! hash with None => Null | Some n => block_object st n end.
End index.
