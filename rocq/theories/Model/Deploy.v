(** Contract deployment messages: x/evm/keeper/msg_server.go 28-143. The EVM run is
    opaque; of go-ethereum's EVM.create only the nonce increase of the caller before
    the constructor runs is modelled (core/vm/evm.go, create). *)
From Verif.Base Require Import Prelude Hex.
From Verif.Model Require Import Token Params.

Section deploy.
(** The rest of the chain state. *)
Context {X : Type}.
Record dstate := DState { d_accts : accounts; d_next : N; d_params : evm_params; d_rest : X }.

(** The run of the init code by the EVM (None: the deployment fails). *)
Definition evm_run := dstate → bytes → bytes → Z → option N → option dstate.

(** SetNonce of the caller in EVM.create, through the account table. *)
Definition inc_seq (m : accounts) (next : N) (a : bytes) : accounts * N :=
  match m !! a with
  | Some x => (<[a := Acct (ac_num x) (ac_seq x + 1)%N (ac_pub x) (ac_kind x)]> m, next)
  | None => (<[a := Acct next 1 false KBase]> m, (next + 1)%N)
  end.

(** msg_server.go 56-71 and 115-130: the publisher check compares text. *)
Definition publisher_allowed (p : evm_params) (sender : text) : bool :=
  bool_decide (ep_publishers p = []) || bool_decide (sender ∈ ep_publishers p).

(** Create (salt None) and Create2 (salt given) after the message is decoded: the
    sender and code texts and the value. [ac] is the address codec. *)
Definition msg_create (ac : text → option bytes) (run : evm_run) (s : dstate)
    (sender code : text) (value : Z) (salt : option N) : option dstate :=
  match ac sender with
  | None => None
  | Some a =>
      match convert_to_evm (d_accts s) (d_next s) a true with
      | None => None
      | Some (caller, m, n) =>
          if bool_decide (code = []) then None
          else match hexutil_decode code with
               | None => None
               | Some bz =>
                   if bool_decide (two256 <= value)%Z then None
                   else if publisher_allowed (d_params s) sender then
                     let '(m1, n1) := inc_seq m n caller in
                     run (DState m1 n1 (d_params s) (d_rest s)) caller bz value salt
                   else None
               end
      end
  end.
End deploy.
Arguments dstate : clear implicits.
Arguments evm_run : clear implicits.
