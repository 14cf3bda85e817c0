(** Raw transactions: eth_sendRawTransaction's answer and eth_getRawTransactionByHash,
    eth_getRawTransactionByBlockHashAndIndex (jsonrpc/backend/tx.go 29-40, 225-248, 294-324,
    jsonrpc/namespaces/eth/api.go 162-175) over the index with its stored JSON (Model/StoredTx.v).
    [marshal] is go-ethereum's Transaction.MarshalBinary, [keccak] of it is Transaction.Hash, [parse]
    is Transaction.UnmarshalBinary.
    Simplification: a query context is always had. Byte strings that are nil or empty are the answer
    "0x" alike (hexutil.Bytes). *)
From Verif.Base Require Import Prelude.
From Verif.Model Require Import EthTx Indexer StoredTx.
Open Scope N_scope.

Section raw.
Variable keccak : bytes → bytes.
Variable marshal : eth_tx → bytes.
Variable parse : bytes → option eth_tx.
Variable eth_of : itx → eth_tx.
Variable chain_id : Z.

(** tx.go 29-40: the hash that the sender is told once the transaction was taken *)
Definition send_answer (input : bytes) : option bytes := keccak ∘ marshal <$> parse input.
(** What was read for an entry, turned into bytes: ToTransaction().MarshalBinary(); for an unknown
    type ToTransaction is nil and MarshalBinary panics, which the RPC server answers as an error. *)
Definition raw_of (q : rtx) : answer bytes :=
  match stored eth_of chain_id q with
  | None => Failed
  | Some r => match rpc_to_tx r with Some t => Found (marshal t) | None => Failed end
  end.
(** tx.go 294-312 *)
Definition get_raw (st : istate) (h : bytes) : answer bytes :=
  match tx_by_hash st h with None => Found [] | Some q => raw_of q end.
(** tx.go 315-324 with 225-248 and api.go 168-175, which hides the error *)
Definition get_raw_at (st : istate) (block_hash : bytes) (index : N) : bytes :=
  match rpc_tx_by_hash_index st block_hash index with
  | None => []
  | Some q => match raw_of q with Found b => b | _ => [] end
  end.
End raw.
