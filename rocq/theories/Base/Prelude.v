(** Common vocabulary of the model. *)
From stdpp Require Export base gmap list numbers option strings.
From Coq Require Export ZArith NArith Lia.

(** Byte strings. Go's [byte] is a number below 256; where the bound matters
    the predicate [bytes_ok] is used. *)
Definition bytes := list N.
Definition bytes_ok (b : bytes) : Prop := Forall (fun x => (x < 256)%N) b.

(** 64-bit unsigned arithmetic of Go ([uint64]): everything is modulo 2^64. *)
Definition two64 : N := (2 ^ 64)%N.
Definition u64 (n : N) : N := (n mod two64)%N.
Definition u64_add (a b : N) : N := u64 (a + b)%N.
Definition u64_sub (a b : N) : N := u64 (a + two64 - u64 b)%N.

(** Addresses are 20-byte strings, hashes (slots, topics, words) 32-byte strings
    (go-ethereum common.Address / common.Hash). *)
Definition is_addr (a : bytes) : Prop := length a = 20.
Definition is_hash (h : bytes) : Prop := length h = 32.
Definition zero_hash : bytes := replicate 32 0%N.

(** Big-endian encoding of a number on [k] bytes and back
    (encoding/binary.BigEndian, big.Int.FillBytes / SetBytes). *)
Fixpoint be (k : nat) (n : N) : bytes :=
  match k with
  | 0 => []
  | S k' => be k' (n / 256)%N ++ [(n mod 256)%N]
  end.
Definition of_be (b : bytes) : N := fold_left (fun acc x => acc * 256 + x)%N b 0%N.
