(** The error text of a failed execution: x/evm/types/errors.go 13-14, 36, 41-50,
    x/evm/keeper/context.go 264-279 (call) and 365-381 (creation), query_server.go 82-96 (Call),
    jsonrpc/backend/eth.go 85-96 (eth_call).

    Simplifications: go-ethereum's abi.UnpackRevert is modelled for Error(string); what it answers
    on Panic(uint256) is a parameter. The texts of the virtual machine's other errors are arbitrary.
    Text is a list of bytes: a reason that is not UTF-8 is copied as it is (the JSON encoding of
    the answer is not modelled). *)
From Verif.Base Require Import Prelude Hex.
Open Scope N_scope.

(** The errors evm.Call and evm.Create return. *)
Inductive vm_error := VMReverted | VMOutOfGas | VMError (t : text).
Definition vm_error_text (e : vm_error) : text :=
  match e with VMReverted => txt "execution reverted" | VMOutOfGas => txt "out of gas" | VMError t => t end.

(** abi.UnpackRevert on Error(string): selector 0x08c379a0, then a word with the place of the
    string, there a word with its length, then the string. *)
Definition revert_selector : bytes := [8; 195; 121; 160].
Definition panic_selector : bytes := [78; 72; 123; 113].
Definition unpack_string (b : bytes) : option text :=
  if (length b <? 32)%nat then None else
  let off := of_be (take 32 b) in
  if N.of_nat (length b) <? off + 32 then None else
  let s := drop (N.to_nat off) b in
  let len := of_be (take 32 s) in
  if N.of_nat (length b) <? off + 32 + len then None else Some (take (N.to_nat len) (drop 32 s)).
Section unpack.
Variable unpack_panic : bytes -> option text.
Definition unpack_revert (b : bytes) : option text :=
  if (length b <? 4)%nat then None else
  if bool_decide (take 4 b = revert_selector) then unpack_string (drop 4 b)
  else if bool_decide (take 4 b = panic_selector) then unpack_panic (drop 4 b)
  else None.

(** errorsmod's Wrap: description, colon, what is wrapped *)
Definition wrap (outer inner : text) : text := outer ++ txt ": " ++ inner.
(** NewRevertError (errors.go 41-50) *)
Definition new_revert_error (revert : bytes) : text :=
  match unpack_revert revert with
  | Some reason => wrap (txt "reason: " ++ reason ++ txt ", revert: " ++ hexutil_encode revert) (txt "Reverted")
  | None => wrap (txt "revert: " ++ hexutil_encode revert) (txt "Reverted")
  end.
Definition failed_text (create : bool) : text := if create then txt "EVMCreate failed" else txt "EVMCall failed".
(** context.go 264-279, 365-381: the error, for what the virtual machine returned *)
Definition exec_error (create : bool) (ret : bytes) (e : vm_error) (remaining : N) : text :=
  match e with
  | VMOutOfGas => wrap (vm_error_text e) (failed_text create)
  | VMReverted => if remaining =? 0 then wrap (vm_error_text e) (failed_text create)
                  else wrap (new_revert_error ret) (failed_text create)
  | VMError _ => wrap (vm_error_text e) (failed_text create)
  end.

(** What the caller of eth_call gets: data, or an error with a text and no data
    (errors.New gives go-ethereum's server no ErrorData). *)
Inductive call_answer := Returned (b : bytes) | Failed (message : text) (data : option text).
Definition eth_call_answer (create : bool) (ret : bytes) (e : option vm_error) (remaining : N) : option call_answer :=
  match e with
  | None => Returned <$> hexutil_decode (hexutil_encode ret)
  | Some e => Some (Failed (exec_error create ret e remaining) None)
  end.
End unpack.
