(** When the index reaches the disk: indexer/abci.go 24-27 (ListenCommit), indexer/store.go
    (the buffered store), app/indexer.go 96-99, cmd/minitiad/rollback.go.

    A block is indexed into memory when it is finalised (abci.go 30-217), the application
    commits its own state (BaseApp.Commit), and only then is the index written
    (ListenCommit is called after the commit of the multistore). A node can stop anywhere.
    A block that was finalised but not committed is finalised again after a restart (CometBFT
    stores a decided block before it hands it out); a committed block is not.
    A block the indexer refuses stops the node (C99) and is not a step here. *)
From Verif.Base Require Import Prelude.
From Verif.Model Require Import EthLog Indexer.
Open Scope N_scope.

Inductive phase := PIdle | PFinal (b : iblock) | PCommitted.
Record inode := INode {
  in_app : list iblock;          (* blocks the application has committed *)
  in_disk : istate;              (* the index on disk *)
  in_mem : istate;               (* what the JSON-RPC server reads: disk and buffer *)
  in_phase : phase;
  in_decided : option iblock     (* finalised once, not yet committed *) }.
Definition in_start : inode := INode [] i_empty i_empty PIdle None.

(** Each lookup is as in one of the two. *)
Definition between {K V} `{Countable K} (m1 m2 m : gmap K V) : Prop := ∀ k, m !! k = m1 !! k ∨ m !! k = m2 !! k.
(** store.go 122-124, cachekv Write: the buffered keys in key order, one database write
    each. Keys start with the prefixes of indexer/keys.go, so the maps are written one after
    the other: headers, numbers, transactions, receipts, positions, the Cosmos hashes.
    [n] of them are complete and one may be partly written. *)
Definition cut {K V} `{Countable K} (i n : nat) (d m x : gmap K V) : Prop :=
  if (i <? n)%nat then x = m else if (i =? n)%nat then between d m x else x = d.
Definition partly_written (n : nat) (d m x : istate) : Prop :=
  cut 0 n (i_header d) (i_header m) (i_header x) ∧ cut 1 n (i_number d) (i_number m) (i_number x) ∧
  cut 2 n (i_tx d) (i_tx m) (i_tx x) ∧ cut 3 n (i_receipt d) (i_receipt m) (i_receipt x) ∧
  cut 4 n (i_by_index d) (i_by_index m) (i_by_index x) ∧
  cut 5 n (i_to_cosmos d) (i_to_cosmos m) (i_to_cosmos x) ∧ cut 6 n (i_of_cosmos d) (i_of_cosmos m) (i_of_cosmos x).

Section node.
Variable bloom_bits : bytes → list N.
Variable header_hash : header → bytes.

Inductive nstep : inode → inode → Prop :=
  (** abci.go 30-217 *)
  | n_finalize app d m dec b m' ev :
      ib_height b = N.of_nat (length app) + 1 → (dec = None ∨ dec = Some b) →
      index_block bloom_bits header_hash b m = (m', Some ev) →
      nstep (INode app d m PIdle dec) (INode app d m' (PFinal b) (Some b))
  (** BaseApp.Commit, the multistore *)
  | n_commit app d m dec b : nstep (INode app d m (PFinal b) dec) (INode (app ++ [b]) d m PCommitted None)
  (** abci.go 24-27 *)
  | n_write app d m dec : nstep (INode app d m PCommitted dec) (INode app m m PIdle dec)
  (** The process stops before or after the application's commit, and is started again. *)
  | n_stop_before app d m ph dec : ph ≠ PCommitted → nstep (INode app d m ph dec) (INode app d d PIdle dec)
  | n_stop_after app d m dec : nstep (INode app d m PCommitted dec) (INode app d d PIdle dec)
  (** ... or while the index is being written. *)
  | n_stop_writing app d m dec n x : partly_written n d m x →
      nstep (INode app d m PCommitted dec) (INode app x x PIdle dec)
  (** rollback.go 30-62: CometBFT's state and the multistore go back to [h]; the index
      database is not touched. Without --hard CometBFT keeps its blocks and hands the same
      ones out again; that is one of the continuations. *)
  | n_rollback app d m dec h : (0 < h < length app)%nat →
      nstep (INode app d m PIdle dec) (INode (take h app) d d PIdle None).

(** The steps of a node that is never stopped between the application's commit and the end
    of the index write, and never rolled back. *)
Inductive nstep_safe : inode → inode → Prop :=
  | ns_finalize app d m dec b m' ev :
      ib_height b = N.of_nat (length app) + 1 → (dec = None ∨ dec = Some b) →
      index_block bloom_bits header_hash b m = (m', Some ev) →
      nstep_safe (INode app d m PIdle dec) (INode app d m' (PFinal b) (Some b))
  | ns_commit app d m dec b : nstep_safe (INode app d m (PFinal b) dec) (INode (app ++ [b]) d m PCommitted None)
  | ns_write app d m dec : nstep_safe (INode app d m PCommitted dec) (INode app m m PIdle dec)
  | ns_stop app d m ph dec : ph ≠ PCommitted → nstep_safe (INode app d m ph dec) (INode app d d PIdle dec).
End node.
