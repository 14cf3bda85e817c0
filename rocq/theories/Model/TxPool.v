(** The txpool namespace: jsonrpc/backend/txpool.go. Not modelled: the error of an unreachable
    node, and the layout of the lines of txpool_inspect (120-125; numbers are in hexadecimal). *)
From Verif.Base Require Import Prelude Hex.
From Verif.Model Require Import EthTx.
Open Scope N_scope.

(** The maps are keyed by account.Hex() and the decimal nonce; here by the address and the number. *)
Notation pool := (gmap bytes (gmap N rpc_tx)).
Definition pool_get (p : pool) (a : bytes) (n : N) : option rpc_tx := m ← p !! a; m !! n.

Section txpool.
(** app.TxDecode and ConvertCosmosTxToEthereumTx at the latest state (EthTx.v, [cosmos_to_eth]) *)
Variable decode : bytes → option cosmos_tx.
Variable convert : cosmos_tx → conv.
(** b.ChainID() *)
Variable chain : Z.

(** txpool.go 48-54, 77-83 *)
Definition pool_put (p : pool) (a : bytes) (n : N) (q : rpc_tx) : pool :=
  <[a := <[n := q]> (default ∅ (p !! a))]> p.
(** One of the two loops (txpool.go 35-55, 62-84). Conversion yields only transaction types
    for which NewRPCTransaction has fields; for any other the entry is skipped here. *)
Fixpoint gather (txs : list bytes) (p : pool) : option pool :=
  match txs with
  | [] => Some p
  | raw :: r =>
      x ← decode raw;
      match convert x with
      | CErr => None
      | CNil => gather r p
      | COk t a =>
          match tx_common t, new_rpc_tx t zero_hash 0 0 chain with
          | Some c, Some q => gather r (pool_put p a (f_nonce c) q)
          | _, _ => gather r p
          end
      end
  end.
(** TxPoolContent (txpool.go 15-87). [mempool]: the node's unconfirmed transactions, of which it
    returns the first 100 (21-22); [queued]: the values of the queue (58-60). *)
Definition tx_pool_content (mempool queued : list bytes) : option (pool * pool) :=
  p ← gather (take 100 mempool) ∅; q ← gather queued ∅; Some (p, q).
(** TxPoolContentFrom (89-100): a missing map is an empty answer *)
Definition tx_pool_content_from (mempool queued : list bytes) (a : bytes) : option (gmap N rpc_tx * gmap N rpc_tx) :=
  c ← tx_pool_content mempool queued; Some (default ∅ (c.1 !! a), default ∅ (c.2 !! a)).
(** TxPoolStatus (103-117) *)
Definition tx_pool_status (mempool queued : list bytes) : nat * nat := (length mempool, length queued).
(** TxPoolInspect (121-157): recipient, value, gas, gas price *)
Definition inspect_line (q : rpc_tx) : option bytes * Z * N * option Z := (q_to q, q_value q, q_gas q, q_gas_price q).
Definition inspect_pool (p : pool) : gmap bytes (gmap N (option bytes * Z * N * option Z)) :=
  (fun m => list_to_map ((fun e : N * rpc_tx => (q_nonce e.2, inspect_line e.2)) <$> map_to_list m)) <$> p.
Definition tx_pool_inspect (mempool queued : list bytes) :=
  c ← tx_pool_content mempool queued; Some (inspect_pool c.1, inspect_pool c.2).
End txpool.
