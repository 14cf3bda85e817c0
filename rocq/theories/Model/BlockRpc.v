(** The block and transaction lookups of the eth namespace, on the index of Model/Indexer.v:
    jsonrpc/backend/block.go, jsonrpc/backend/tx.go. [latest]: the height the node reports
    (block.go 15-22). Not modelled: failing of the node's status call and of the query
    context. *)
From Verif.Base Require Import Prelude Hex.
From Verif.Model Require Import EthLog Indexer EthTx SigVerify.
Open Scope N_scope.

(** What a client gets: an error, null, or an object *)
Inductive answer (A : Type) := AErr | ANull | AOk (a : A).
Arguments AErr {A}. Arguments ANull {A}. Arguments AOk {A} a.
Definition found {A} (o : option A) : answer A := match o with Some a => AOk a | None => ANull end.

(** An int64 from a uint64 and back *)
Definition int64 (n : N) : Z := if (n mod 2 ^ 64 <? 2 ^ 63) then Z.of_N (n mod 2 ^ 64) else (Z.of_N (n mod 2 ^ 64) - 2 ^ 64)%Z.

(** Number or hash, as given (rpc.BlockNumberOrHash); no field set means latest *)
Inductive block_ref := ByHash (h : bytes) | ByNumber (tag : Z) | ByNothing.

(** Transactions of a block object: in full or by hash *)
Inductive block_body := FullTxs (l : list rtx) | TxHashes (l : list bytes).
(** formatBlock (block.go 137-157): the header with its hash, and the transactions; the other
    fields are constants *)
Record block_obj := mkBlockObj { bo_header : header; bo_hash : bytes; bo_txs : block_body }.
(** marshalReceipt (tx.go 433-482) *)
Record receipt_obj := mkReceiptObj {
  ro_block_hash : bytes; ro_number : N; ro_tx_hash : bytes; ro_index : N;
  ro_ok : bool; ro_gas : N; ro_cumulative : N; ro_price : Z; ro_bloom : gset N;
  ro_contract : option bytes; ro_logs : list placed_log
}.
Definition zero_addr : bytes := repeat 0 20.

Section rpc.
Variable header_hash : header → bytes.
Variable st : istate.
Variable latest : N.

(** resolveBlockNr (block.go 45-58) *)
Definition resolve_nr (tag : Z) : N :=
  if (tag <? 0)%Z then latest else if (tag =? 0)%Z then 1 else Z.to_N tag.
(** resolveBlockNrOrHash (block.go 24-43); [None]: error *)
Definition resolve_ref (r : block_ref) : option N :=
  match r with
  | ByHash h => i_number st !! h
  | ByNumber tag => Some (resolve_nr tag)
  | ByNothing => Some latest
  end.
(** GetHeaderByNumber, GetHeaderByHash (block.go 60-95) *)
Definition get_header_by_number (tag : Z) : answer header := found (header_by_number st (resolve_nr tag)).
Definition get_header_by_hash (h : bytes) : answer header := found (header_by_hash st h).
(** formatBlock *)
Definition format_block (h : header) (txs : list rtx) (full : bool) : block_obj :=
  mkBlockObj h (header_hash h) (if full then FullTxs txs else TxHashes (map (fun t => it_hash (rt_tx t)) txs)).
(** GetBlockByNumber (block.go 97-121) *)
Definition get_block_by_number (tag : Z) (full : bool) : answer block_obj :=
  let n := resolve_nr tag in
  match header_by_number st n with
  | None => ANull
  | Some h => match block_txs st n with
              | None => AErr
              | Some txs => AOk (format_block h txs full)
              end
  end.
(** GetBlockByHash (block.go 123-135): every error of BlockHashToNumber, not found included,
    is returned; the number is cast to an int64 *)
Definition get_block_by_hash (h : bytes) (full : bool) : answer block_obj :=
  match i_number st !! h with
  | None => AErr
  | Some n => get_block_by_number (int64 n) full
  end.
(** GetBlockTransactionCountByHash, ByNumber (tx.go 273-297) *)
Definition count_of (a : answer block_obj) : answer nat :=
  match a with
  | AErr => AErr
  | ANull => ANull
  | AOk b => AOk (match bo_txs b with FullTxs l => length l | TxHashes l => length l end)
  end.
Definition count_by_number (tag : Z) : answer nat := count_of (get_block_by_number tag true).
Definition count_by_hash (h : bytes) : answer nat := count_of (get_block_by_hash h true).
(** GetTransactionByHash (tx.go 142-156) *)
Definition get_tx_by_hash (h : bytes) : answer rtx := found (tx_by_hash st h).
(** marshalReceipt; the block hash, number and index of [tx] are set, because header hashes
    are not the zero hash (jsonrpc/types/tx.go 66-71) *)
Definition marshal_receipt (r : receipt) (t : rtx) : receipt_obj :=
  mkReceiptObj (rt_block_hash t) (rt_number t) (it_hash (rt_tx t)) (rt_index t)
    (rc_ok r) (rc_gas r) (rc_cumulative r) (rc_price r) (rc_bloom r)
    (match rc_contract r with Some c => if bool_decide (c = zero_addr) then None else Some c | None => None end)
    (place_logs (rc_logs r) (rt_block_hash t) (rt_number t) (it_hash (rt_tx t)) (rt_index t)).
(** GetTransactionReceipt (tx.go 204-227) *)
Definition get_receipt (h : bytes) : answer receipt_obj :=
  match tx_by_hash st h with
  | None => ANull
  | Some t => found ((fun r => marshal_receipt r t) <$> receipt_by_hash st h)
  end.
(** GetBlockReceipts (tx.go 403-430) *)
Definition get_block_receipts (r : block_ref) : answer (list receipt_obj) :=
  match resolve_ref r with
  | None => AErr
  | Some n =>
      match block_txs st n, block_receipts st n with
      | Some txs, Some rs =>
          if bool_decide (length txs = length rs) then AOk (zip_with marshal_receipt rs txs) else AErr
      | _, _ => AErr
      end
  end.
End rpc.

(** PendingTransactions (tx.go 331-371): the node returns the first 30 unconfirmed
    transactions when no number is asked for (CometBFT's default page). A nil dereference is
    recovered by the RPC server and becomes an error. Entries are decoded bytes, [None] if
    they do not decode. *)
Section pending.
Variable keccak : bytes -> bytes.
Variable bech_dec : text -> option bytes.
Variable key_addr : pubkey -> bytes.
Variable fee_denom : text.
Variable decimals : Z.
Variable chain : bytes.
Fixpoint pending_loop (l : list (option vtx)) : option (list eth_tx) :=
  match l with
  | [] => Some []
  | None :: _ => None
  | Some x :: l' =>
      match convert keccak bech_dec key_addr fee_denom decimals chain x with
      | CrashC | Conv CErr => None
      | Conv CNil => pending_loop l'
      | Conv (COk t _) => cons t <$> pending_loop l'
      end
  end.
Definition pending_transactions (mempool : list (option vtx)) : option (list eth_tx) :=
  pending_loop (take 30 mempool).
End pending.
