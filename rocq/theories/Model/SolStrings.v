(** The Solidity library Strings (x/evm/contracts/util/Strings.sol), which ERC20Wrapper.sol
    uses to write numbers and addresses into the IBC transfer message.

    Simplifications: a [bytes memory] is the list of its bytes; [None] is a revert, a failed bounds
    check, or (in [to_string], which writes by assembly without a check) a write in front of the
    buffer, which would hit the length word. *)
From Verif.Base Require Import Prelude Hex.
Local Open Scope N_scope.

(** Strings.sol 6 *)
Definition hex_digits : text := txt "0123456789abcdef".

(** Strings.sol 16-24: the loop from index 2*length+1 down to 2, counted by [k] = i - 1. Returns
    the buffer and what is left of the value. *)
Fixpoint hex_loop (k : nat) (v : N) (buf : list N) : option (list N * N) :=
  match k with
  | O => Some (buf, v)
  | S k' =>
      d ← hex_digits !! N.to_nat (N.land v 15);
      if decide (S k < length buf)%nat then hex_loop k' (N.shiftr v 4) (<[S k := d]> buf) else None
  end.
(** Strings.sol 13-29 *)
Definition to_hex_string (v : N) (len : nat) : option text :=
  let buf := <[1%nat := 120]> (<[0%nat := 48]> (repeat 0 (2 * len + 2))) in
  match hex_loop (2 * len) v buf with
  | Some (buf', v') => if v' =? 0 then Some buf' else None
  | None => None
  end.
(** Strings.sol 31-33: uint160 of the address. *)
Definition to_hex_address (a : bytes) : option text := to_hex_string (of_be a) 20.

(** Strings.sol 54-87 *)
Definition log10_step (p : N) (s : N * N) : N * N := if 10 ^ p <=? fst s then (fst s / 10 ^ p, snd s + p) else s.
Definition log10 (v : N) : N :=
  let '(v1, r1) := log10_step 2 (log10_step 4 (log10_step 8 (log10_step 16 (log10_step 32 (log10_step 64 (v, 0)))))) in
  if 10 ^ 1 <=? v1 then r1 + 1 else r1.
(** Strings.sol 43-49: [ptr] is the distance from the start of the buffer. *)
Fixpoint dec_loop (ptr : nat) (v : N) (buf : list N) : option (list N) :=
  match ptr with
  | O => None
  | S p =>
      d ← hex_digits !! N.to_nat (v mod 10);
      let buf := <[p := d]> buf in
      if v / 10 =? 0 then Some buf else dec_loop p (v / 10) buf
  end.
(** Strings.sol 35-52 *)
Definition to_string (v : N) : option text :=
  let len := N.to_nat (log10 v + 1) in dec_loop len v (repeat 0 len).
