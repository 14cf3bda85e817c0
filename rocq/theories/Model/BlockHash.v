(** Block hashes for the BLOCKHASH opcode: x/evm/abci.go, x/evm/keeper/keeper.go,
    x/evm/keeper/context.go. *)
From Verif.Base Require Import Prelude.
Open Scope N_scope.

Notation hashes := (gmap N bytes).

(** keeper.go 274-288, TrackBlockHash; [num] is NumRetainBlockHashes. *)
Definition track_block_hash (num : N) (st : hashes) (height : N) (h : bytes) : hashes :=
  let st1 := if negb (num =? 0) && (num <? height) then delete (height - num) st else st in
  <[height := h]> st1.

(** abci.go 14-23, PreBlock of the block at [height]; [hdr] is ctx.HeaderHash(). *)
Definition pre_block (num : N) (st : hashes) (height : N) (hdr : bytes) : hashes :=
  if height <=? 1 then st else track_block_hash num st (height - 1) hdr.

(** context.go 114-121, GetHash: the zero hash when there is none. *)
Definition get_hash (st : hashes) (n : N) : bytes := default zero_hash (st !! n).

(** go-ethereum core/vm/instructions.go, opBlockhash, in a block at [height]. *)
Definition op_blockhash (st : hashes) (height n : N) : bytes :=
  let lower := if height <? 257 then 0 else height - 256 in
  if (lower <=? n) && (n <? height) then get_hash st n else zero_hash.

(** Blocks 1, 2, ..., [k] are processed in order; [num h] is the parameter in force
    at block [h] and [hdr h] the header hash the node hands over with it. *)
Fixpoint run_blocks (num : N → N) (hdr : N → bytes) (k : nat) : hashes :=
  match k with
  | O => ∅
  | S k' => pre_block (num (N.of_nat k)) (run_blocks num hdr k') (N.of_nat k) (hdr (N.of_nat k))
  end.
