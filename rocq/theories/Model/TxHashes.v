(** The cosmos namespace: the Cosmos and the Ethereum hash of a transaction lead to each other.
    jsonrpc/namespaces/cosmos/api.go 30-43, jsonrpc/backend/cosmos.go 11-38, indexer/reader.go
    90-103 over the maps the indexer fills (indexer/abci.go 66-75, Model/Indexer.v).
    Simplification: a query context is always had. Both hashes have 32 bytes, so the conversions
    BytesToHash and UnprefixedHash(bz) are the identity. *)
From Verif.Base Require Import Prelude.
From Verif.Model Require Import Indexer.

(** api.go 30-40, cosmos.go 11-23, reader.go 91-93: not found is the zero hash, without an error *)
Definition cosmos_tx_hash_by_tx_hash (st : istate) (h : bytes) : bytes := default zero_hash (i_to_cosmos st !! h).
(** api.go 42-44, cosmos.go 26-38, reader.go 96-103 *)
Definition tx_hash_by_cosmos_tx_hash (st : istate) (h : bytes) : bytes := default zero_hash (i_of_cosmos st !! h).
