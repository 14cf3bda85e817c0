(** Hexadecimal text. Text is a list of character codes. go-ethereum's common and
    common/hexutil packages, encoding/hex. *)
From Verif.Base Require Import Prelude.
Local Open Scope N_scope.

Definition text := list N.
(** Literals. *)
Fixpoint txt (s : string) : text :=
  match s with EmptyString => [] | String c s' => Ascii.N_of_ascii c :: txt s' end.

(** One digit; [up] selects upper case. *)
Definition hexd (up : bool) (n : N) : N := if n <? 10 then 48 + n else if up then 55 + n else 87 + n.
Definition unhexd (c : N) : option N :=
  if (48 <=? c) && (c <=? 57) then Some (c - 48)
  else if (97 <=? c) && (c <=? 102) then Some (c - 87)
  else if (65 <=? c) && (c <=? 70) then Some (c - 55)
  else None.

(** encoding/hex.EncodeToString, with the case of digit number [i] given by [up i]
    (go-ethereum's EIP-55 checksum chooses the case from a hash; [fun _ => false] is plain
    lower case). *)
Fixpoint hex_enc (up : nat -> bool) (b : bytes) : text :=
  match b with
  | [] => []
  | x :: b' => hexd (up 0%nat) (x / 16) :: hexd (up 1%nat) (x mod 16) :: hex_enc (fun i => up (2 + i)%nat) b'
  end.
Definition lower : nat -> bool := fun _ => false.

(** encoding/hex.DecodeString: [None] is an error (bad digit or odd length). *)
Fixpoint hex_dec (t : text) : option bytes :=
  match t with
  | [] => Some []
  | [_] => None
  | c :: d :: t' => x ← unhexd c; y ← unhexd d; r ← hex_dec t'; Some (x * 16 + y :: r)
  end.
(** common.Hex2Bytes: drops the error of DecodeString and keeps the bytes decoded before it. *)
Fixpoint hex2bytes (t : text) : bytes :=
  match t with
  | c :: d :: t' => match unhexd c, unhexd d with
                    | Some x, Some y => x * 16 + y :: hex2bytes t'
                    | _, _ => []
                    end
  | _ => []
  end.
(** common.has0xPrefix and stripping it *)
Definition strip0x (t : text) : text :=
  match t with
  | 48 :: x :: t' => if (x =? 120) || (x =? 88) then t' else t
  | _ => t
  end.
Definition has0x (t : text) : bool :=
  match t with 48 :: x :: _ => (x =? 120) || (x =? 88) | _ => false end.
(** common.FromHex: strip the prefix, pad an odd number of digits. *)
Definition from_hex (t : text) : bytes :=
  let t := strip0x t in
  hex2bytes (if Nat.odd (length t) then 48 :: t else t).
(** common.BytesToAddress, common.BytesToHash: keep the last [n] bytes, pad on the left. *)
Definition to_fixed (n : nat) (b : bytes) : bytes :=
  if decide (n <= length b)%nat then drop (length b - n) b else replicate (n - length b) 0 ++ b.
(** common.HexToAddress, common.HexToHash *)
Definition hex_to_address (t : text) : bytes := to_fixed 20 (from_hex t).
Definition hex_to_hash (t : text) : bytes := to_fixed 32 (from_hex t).
(** common.IsHexAddress: 40 hex digits after an optional prefix. *)
Definition is_hex_address (t : text) : bool :=
  let t := strip0x t in
  bool_decide (length t = 40%nat) && forallb (fun c => match unhexd c with Some _ => true | None => false end) t.
(** hexutil.Encode and hexutil.Decode (Decode refuses text without a prefix). *)
Definition hexutil_encode (b : bytes) : text := [48; 120] ++ hex_enc lower b.
Definition hexutil_decode (t : text) : option bytes :=
  if has0x t then hex_dec (drop 2 t) else None.

(** common.Address.Hex with checksum: prefix and mixed case; [ck] is the EIP-55 case choice
    (first half-bytes of the keccak hash of the lower-case text). *)
Section checksum.
Variable ck : bytes -> nat -> bool.
Definition address_hex (a : bytes) : text := [48; 120] ++ hex_enc (ck a) a.
End checksum.
(** common.Hash.Hex *)
Definition hash_hex (h : bytes) : text := hexutil_encode h.
