(** The EVM indexer and the log queries on top of it: indexer/abci.go, indexer/utils.go,
    indexer/reader.go, jsonrpc/backend/{block,filters,tx}.go,
    jsonrpc/namespaces/eth/filters/{filter,api}.go.
    Simplifications. The collections are finite maps: the store under them is the subject
    of C41 (Model/CacheStore.v) and no Set fails; the JSON encoding of the values is taken
    to be faithful. Decoding a Cosmos transaction and converting it to an Ethereum
    transaction (C14, Model/EthTx.v) is an input of the block, so is the decoding of the
    protobuf result data. Roots, gas limit, time and base fee of the header are one opaque
    field. *)
From Verif.Base Require Import Prelude.
From Verif.Model Require Import EthLog.
From stdpp Require Import sorting.
Open Scope N_scope.

(** A converted transaction: what the indexer uses of it. *)
Record itx := mkITx {
  it_hash : bytes;                (* ethTx.Hash() *)
  it_creates : bool;              (* ethTx.To() == nil *)
  it_price : Z;                   (* ethTx.GasPrice() *)
  it_body : bytes                 (* everything else *)
}.

(** The first message response in the result data (utils.go 48-69). *)
Inductive iresp :=
  | IRCall (logs : list eth_log)
  | IRCreate (logs : list eth_log) (contract : bytes)
  | IRNone.                       (* undecodable, missing or of another type *)

(** One entry of the block: abci.go 43-57 with the result at the same position. *)
Inductive iconv :=
  | IBadBytes                     (* TxDecoder fails *)
  | IConvErr                      (* ConvertCosmosTxToEthereumTx fails *)
  | INotEth                       (* it returns nil *)
  | IEth (t : itx).
Record ientry := mkEntry {
  ie_conv : iconv;
  ie_cosmos_hash : bytes;         (* comettypes.Tx(txBytes).Hash() *)
  ie_code : N;                    (* TxResults[idx].Code *)
  ie_gas : Z;                     (* TxResults[idx].GasUsed, an int64 *)
  ie_resp : iresp                 (* TxResults[idx].Data *)
}.

(** go-ethereum core/types/receipt.go, log.go; the fields the code sets. A Bloom filter is
    the set of its bits. *)
Record receipt := mkReceipt {
  rc_ok : bool; rc_cumulative : N; rc_gas : N; rc_bloom : gset N; rc_logs : list eth_log;
  rc_index : N; rc_price : Z; rc_contract : option bytes
}.
(** rpctypes.RPCTransaction: the transaction and where it is. *)
Record rtx := mkRtx { rt_tx : itx; rt_block_hash : bytes; rt_number : N; rt_index : N }.
Record header := mkHeader {
  hd_number : N; hd_bloom : gset N; hd_parent : bytes; hd_rest : bytes
}.
(** A log with its place, as handed out. *)
Record placed_log := mkPlaced {
  pl_log : eth_log; pl_block_hash : bytes; pl_number : N; pl_tx_hash : bytes;
  pl_tx_index : N; pl_index : N
}.

(** indexer.go 68-75 *)
Record istate := mkI {
  i_tx : gmap bytes rtx;
  i_receipt : gmap bytes receipt;
  i_header : gmap N header;
  i_by_index : gmap (N * N) bytes;
  i_number : gmap bytes N;
  i_to_cosmos : gmap bytes bytes;
  i_of_cosmos : gmap bytes bytes
}.
Definition i_empty : istate := mkI ∅ ∅ ∅ ∅ ∅ ∅ ∅.

(** The block header fields that come from the context, and the chain's receipts root etc. *)
Record iblock := mkBlock { ib_height : N; ib_entries : list ientry; ib_rest : bytes }.

Section indexer.
(** The three bit positions of a value (go-ethereum core/types/bloom9.go bloomValues). *)
Variable bloom_bits : bytes → list N.
(** go-ethereum Header.Hash *)
Variable header_hash : header → bytes.

(** core/types/bloom9.go 106-129, LogsBloom and CreateBloom. *)
Definition log_bloom (l : eth_log) : gset N :=
  list_to_set (bloom_bits (el_address l) ++ (el_topics l ≫= bloom_bits)).
Definition logs_bloom (ls : list eth_log) : gset N := ⋃ (map log_bloom ls).
Definition create_bloom (rs : list receipt) : gset N := ⋃ (map (fun r => logs_bloom (rc_logs r)) rs).
(** core/types/bloom9.go BloomLookup *)
Definition bloom_lookup (b : gset N) (x : bytes) : bool :=
  forallb (fun n => bool_decide (n ∈ b)) (bloom_bits x).

(** utils.go 18-46. [None]: error. *)
Definition extract_logs (ok : bool) (resp : iresp) (creates : bool) : option (list eth_log * option bytes) :=
  if negb ok then Some ([], None)
  else match resp, creates with
       | IRCreate ls c, true => Some (ls, Some c)
       | IRCall ls, false => Some (ls, None)
       | _, _ => None
       end.

(** The loop of abci.go 43-113. [None] as the outcome: the error return, with the hash
    maps already updated. *)
Fixpoint index_loop (es : list ientry) (st : istate) (idx cum : N) (txs : list itx) (rs : list receipt)
  : istate * option (list itx * list receipt) :=
  match es with
  | [] => (st, Some (txs, rs))
  | e :: es' =>
      match ie_conv e with
      | IBadBytes => index_loop es' st idx cum txs rs
      | IConvErr => (st, None)
      | INotEth => index_loop es' st idx cum txs rs
      | IEth t =>
          let ok := ie_code e =? 0 in
          let st1 := mkI (i_tx st) (i_receipt st) (i_header st) (i_by_index st) (i_number st)
                         (<[it_hash t := ie_cosmos_hash e]> (i_to_cosmos st))
                         (<[ie_cosmos_hash e := it_hash t]> (i_of_cosmos st)) in
          let gas := Z.to_N (ie_gas e mod 2 ^ 64)%Z in
          let cum' := u64_add cum gas in
          let idx' := idx + 1 in
          match extract_logs ok (ie_resp e) (it_creates t) with
          | None => (st1, None)
          | Some (ls, c) =>
              index_loop es' st1 idx' cum' (txs ++ [t])
                (rs ++ [mkReceipt ok cum' gas (logs_bloom ls) ls idx' (it_price t) c])
          end
      end
  end.

(** The loop of abci.go 151-186, without the filling of the emitted logs. *)
Fixpoint store_loop (txs : list itx) (rs : list receipt) (bh : bytes) (height : N) (st : istate) : istate :=
  match txs, rs with
  | t :: txs', r :: rs' =>
      store_loop txs' rs' bh height
        (mkI (<[it_hash t := mkRtx t bh height (rc_index r)]> (i_tx st))
             (<[it_hash t := r]> (i_receipt st)) (i_header st)
             (<[(height, rc_index r) := it_hash t]> (i_by_index st))
             (i_number st) (i_to_cosmos st) (i_of_cosmos st))
  | _, _ => st
  end.

(** abci.go 173-185: the logs emitted to subscribers, one batch per transaction that has
    logs; [i] is the position in the loop. *)
Definition place_logs (ls : list eth_log) (bh : bytes) (height : N) (th : bytes) (ti : N) : list placed_log :=
  imap (fun j l => mkPlaced l bh height th ti (N.of_nat j)) ls.
Fixpoint emit_loop (i : nat) (txs : list itx) (rs : list receipt) (bh : bytes) (height : N) : list (list placed_log) :=
  match txs, rs with
  | t :: txs', r :: rs' =>
      match rc_logs r with
      | [] => emit_loop (S i) txs' rs' bh height
      | ls => place_logs ls bh height (it_hash t) (N.of_nat i) :: emit_loop (S i) txs' rs' bh height
      end
  | _, _ => []
  end.

(** abci.go 141-147: the parent hash, zero when the previous header is unknown. *)
Definition parent_hash (st : istate) (height : N) : bytes :=
  if 1 <? height then match i_header st !! (height - 1) with
                      | Some h => header_hash h | None => zero_hash end
  else zero_hash.

(** abci.go 30-217, ListenFinalizeBlock; the second component is what is emitted when there
    are subscribers, [None] when the block's indexing failed. *)
Definition index_block (b : iblock) (st : istate) : istate * option (header * list (list placed_log)) :=
  match index_loop (ib_entries b) st 0 0 [] [] with
  | (st1, None) => (st1, None)
  | (st1, Some (txs, rs)) =>
      let h := mkHeader (ib_height b) (create_bloom rs) (parent_hash st1 (ib_height b)) (ib_rest b) in
      let bh := header_hash h in
      let st2 := store_loop txs rs bh (ib_height b) st1 in
      (mkI (i_tx st2) (i_receipt st2) (<[ib_height b := h]> (i_header st2)) (i_by_index st2)
           (<[bh := ib_height b]> (i_number st2)) (i_to_cosmos st2) (i_of_cosmos st2),
       Some (h, emit_loop 0 txs rs bh (ib_height b)))
  end.

(** Blocks indexed one after the other. *)
Definition index_blocks (bs : list iblock) : istate :=
  fold_left (fun st b => (index_block b st).1) bs i_empty.

(** ** Readers: reader.go; [None] = collections.ErrNotFound *)
(** reader.go 14-31 *)
Definition header_by_number (st : istate) (n : N) : option header := i_header st !! n.
Definition header_by_hash (st : istate) (h : bytes) : option header :=
  i_number st !! h ≫= header_by_number st.
(** reader.go 44-51, 34-42, 83-86 *)
Definition tx_by_hash (st : istate) (h : bytes) : option rtx := i_tx st !! h.
Definition tx_by_block_index (st : istate) (n i : N) : option rtx :=
  i_by_index st !! (n, i) ≫= tx_by_hash st.
Definition receipt_by_hash (st : istate) (h : bytes) : option receipt := i_receipt st !! h.
(** The hashes of a block in index order: the walk of reader.go 54-80 over the keys with
    the block's prefix, in key order (big-endian index). *)
Definition block_hashes (st : istate) (n : N) : list bytes :=
  map snd (merge_sort (fun x y : N * bytes => Is_true (x.1 <=? y.1))
    (omap (fun kv : (N * N) * bytes => if kv.1.1 =? n then Some (kv.1.2, kv.2) else None)
       (map_to_list (i_by_index st)))).
(** reader.go 54-65 and 68-80, with the collecting callbacks of backend/tx.go 365-401;
    [None]: an error, because an entry is missing. *)
Definition block_txs (st : istate) (n : N) : option (list rtx) := mapM (tx_by_hash st) (block_hashes st n).
Definition block_receipts (st : istate) (n : N) : option (list receipt) :=
  mapM (receipt_by_hash st) (block_hashes st n).

(** ** backend/filters.go 10-50, GetLogsByHeight *)
Definition logs_by_height (st : istate) (n : N) : option (list placed_log) :=
  match header_by_number st n with
  | None => None
  | Some h =>
      match block_txs st n with
      | None => None
      | Some txs =>
          mjoin <$> mapM (fun t => (fun r => place_logs (rc_logs r) (header_hash h) n (it_hash (rt_tx t)) (rc_index r))
                                   <$> receipt_by_hash st (it_hash (rt_tx t))) txs
      end
  end.

(** backend/tx.go 434-446 inside marshalReceipt: the logs of a receipt as returned by
    eth_getTransactionReceipt. *)
Definition receipt_logs (st : istate) (h : bytes) : option (list placed_log) :=
  t ← tx_by_hash st h; r ← receipt_by_hash st h;
  Some (place_logs (rc_logs r) (rt_block_hash t) (rt_number t) (it_hash (rt_tx t)) (rt_index t)).

(** ** filters/filter.go *)
Record crit := mkCrit { cr_addresses : list bytes; cr_topics : list (list bytes) }.
(** filter.go 224-231 *)
Definition includes (l : list bytes) (x : bytes) : bool := existsb (fun y => bool_decide (y = x)) l.
(** filter.go 190-222, with no block bounds (the call of line 186). The loop indexes
    log.Topics, in range because of the length check. *)
Definition check_log (c : crit) (l : eth_log) : bool :=
  if (match cr_addresses c with [] => false | _ => true end) && negb (includes (cr_addresses c) (el_address l)) then false
  else if Nat.ltb (length (el_topics l)) (length (cr_topics c)) then false
  else forallb (fun st : list bytes * bytes =>
                  match fst st with [] => true | sub => includes sub (snd st) end)
               (zip (cr_topics c) (el_topics l)).
Definition filter_logs (c : crit) (ls : list placed_log) : list placed_log :=
  List.filter (fun l => check_log c (pl_log l)) ls.
(** filter.go 241-270 *)
Definition bloom_filter (b : gset N) (c : crit) : bool :=
  (match cr_addresses c with [] => true | l => existsb (bloom_lookup b) l end) &&
  forallb (fun sub => match sub with [] => true | _ => existsb (bloom_lookup b) sub end) (cr_topics c).
(** filter.go 173-188 *)
Definition block_logs (st : istate) (c : crit) (h : header) : option (list placed_log) :=
  if bloom_filter (hd_bloom h) c then filter_logs c <$> logs_by_height st (hd_number h) else Some [].
(** filter.go 156-171, [n] blocks from [b] on: an unknown header ends the search without an
    error, an error is an error. *)
Fixpoint range_logs (st : istate) (c : crit) (b : N) (n : nat) : option (list placed_log) :=
  match n with
  | O => Some []
  | S n' =>
      match header_by_number st b with
      | None => Some []
      | Some h =>
          match block_logs st c h with
          | None => None
          | Some ls => (app ls) <$> range_logs st c (b + 1) n'
          end
      end
  end.

Inductive lres := LErr | LLogs (l : list placed_log).
Definition lres_of (o : option (list placed_log)) : lres := match o with Some l => LLogs l | None => LErr end.

(** filter.go 73-135, range mode; [latest] is the node's latest block height
    (backend/block.go 15-22). *)
Definition resolve_bound (b : Z) (head : Z) : Z :=
  if (b <? 0)%Z then head else if (b =? 0)%Z then 1%Z else b.
Definition logs_range (st : istate) (latest : N) (c : crit) (from to : Z) : lres :=
  match header_by_number st latest with
  | None => LLogs []
  | Some h =>
      let head := Z.of_N (hd_number h) in
      let b := resolve_bound from head in
      let e := resolve_bound to head in
      if (e <? b)%Z then LErr
      else if (head <? b)%Z then LLogs []
      else let e' := if (head <? e)%Z then head else e in
           lres_of (range_logs st c (Z.to_N b) (Z.to_nat (e' - b + 1)))
  end.
(** api.go 346-377, GetLogs: eth_getLogs. [FromBlock], [ToBlock]: absent means latest (-2). *)
Inductive where_ := AtHash (h : bytes) | Between (from to : option Z).
Definition get_logs (st : istate) (latest : N) (c : crit) (w : where_) : lres :=
  if Nat.ltb 4 (length (cr_topics c)) then LErr
  else match w with
  | AtHash bh =>
      if bool_decide (bh = zero_hash) then logs_range st latest c 0 0
      else match header_by_hash st bh with
           | None => LErr
           | Some h => lres_of (block_logs st c h)
           end
  | Between from to =>
      let b := default (-2)%Z from in
      let e := default (-2)%Z to in
      if ((0 <? b) && (0 <? e) && (e <? b))%Z then LErr else logs_range st latest c b e
  end.

(** backend/tx.go 254-271, 229-252: the RPC lookups by block and index; the block number
    tag is cast to uint64 as it is. *)
Definition rpc_tx_by_number_index (st : istate) (tag : Z) (i : N) : option rtx :=
  tx_by_block_index st (Z.to_N (tag mod 2 ^ 64)%Z) i.
Definition rpc_tx_by_hash_index (st : istate) (bh : bytes) (i : N) : option rtx :=
  i_number st !! bh ≫= fun n => tx_by_block_index st n i.
End indexer.
