(** How a client reads the data a contract reverted with out of an error text, and how a contract
    encodes a reason. *)
From Verif.Base Require Import Prelude Hex.
Open Scope N_scope.

(** The text before [suffix], if it ends so. *)
Definition strip_end (suffix t : text) : option text :=
  let n := (length t - length suffix)%nat in
  if bool_decide (drop n t = suffix) then Some (take n t) else None.
(** The text after the last space. *)
Fixpoint last_word (acc t : text) : text :=
  match t with
  | [] => acc
  | c :: t' => if c =? 32 then last_word t' t' else last_word acc t'
  end.
(** The last word before the fixed ending, read as hexadecimal. *)
Definition read_revert (create : bool) (t : text) : option bytes :=
  t' ← strip_end (if create then txt ": Reverted: EVMCreate failed" else txt ": Reverted: EVMCall failed") t;
  hexutil_decode (last_word t' t').

(** A hastier reader: what stands after the first "revert: ", up to the next character that is
    no hexadecimal digit. *)
Fixpoint starts (p t : text) : option text :=
  match p, t with
  | [], _ => Some t
  | c :: p', d :: t' => if c =? d then starts p' t' else None
  | _, [] => None
  end.
Fixpoint after_first (p t : text) : option text :=
  match starts p t with
  | Some r => Some r
  | None => match t with [] => None | _ :: t' => after_first p t' end
  end.
Fixpoint hex_prefix (t : text) : text :=
  match t with c :: t' => match unhexd c with Some _ => c :: hex_prefix t' | None => [] end | [] => [] end.
Definition read_first (t : text) : option bytes :=
  r ← after_first (txt "revert: 0x") t; hex_dec (hex_prefix r).

(** Solidity's revert(reason): Error(string) in the ABI, filled up to a multiple of 32. *)
Definition error_string (reason : text) : bytes :=
  [8; 195; 121; 160] ++ be 32 32 ++ be 32 (N.of_nat (length reason)) ++ reason ++
  replicate ((32 - length reason mod 32) mod 32)%nat 0.
(** [b] holds the string [r] as the ABI writes it: the first word says where, and there stand its
    length, in a word, and then [r]. *)
Definition holds_string (b : bytes) (r : text) : Prop :=
  ∃ at_ rest, take 32 b = be 32 (N.of_nat at_) ∧ drop at_ b = be 32 (N.of_nat (length r)) ++ r ++ rest.
