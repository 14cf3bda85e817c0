(** The making of a contract, context by context: go-ethereum's EVM.create (core/vm/evm.go), as
    called by EVMCreateWithTracer (x/evm/keeper/context.go 333-418), over the snapshots of
    Model/Snapshots.v.

    The state is a map from an account and a field to a number: field 0 is the account's nonce, 1
    says that a contract was made there (statedb.go 265-298, CreateContract), 2 is the code; all
    other fields are anything else that is kept in the store (balances in the token, slots, logs).
    The order of the writes and snapshots is go-ethereum's: with value the balance is asked first,
    by a call of the token, which takes a snapshot (context.go 64-96, CanTransfer); then the
    sender's nonce is written; then the snapshot of the creation is taken, the contract is made
    with nonce 1, the value is moved by a call of the token that opens [k] frames of its own
    (context.go 97-113; ERC20ACL.sol, ERC20Registry.sol), the init code runs, and the code is
    stored. Only a successful creation is committed.

    Simplifications: what the registry precompile writes past the contexts is not described (C61);
    the address is given; gas is not modelled (a frame without gas fails). *)
From Verif.Base Require Import Prelude Layers.
From Verif.Model Require Import Snapshots.
Open Scope N_scope.

Notation fld := (bytes * N)%type.
Notation nonce_of a := (a, 0).
Notation made_at a := (a, 1).
Notation code_of a := (a, 2).
Notation cprog := (prog fld N).

(** One piece of code after another, if the first succeeds. *)
Fixpoint and_then (p q : cprog) : cprog :=
  match p with
  | Done true => q
  | Done false => Done false
  | Write k o p' => Write k o (and_then p' q)
  | Read k f => Read k (fun v => and_then (f v) q)
  | Call c f => Call c (fun b => and_then (f b) q)
  end.
Definition put_all (ws : list (fld * N)) (p : cprog) : cprog := foldr (fun e q => Write (fst e) (Some (snd e)) q) p ws.
(** A call of the token: its frame, [k] frames of its own, and its writes. *)
Definition token_call (k : nat) (ws : list (fld * N)) (rest : cprog) : cprog :=
  Call (Nat.iter k (fun p => Call (Done true) (fun _ => p)) (put_all ws (Done true)))
       (fun ok => if ok then rest else Done false).
(** CanTransfer and Transfer with value; nothing without ([None]). *)
Definition ask (v : option (nat * list (fld * N))) (rest : cprog) : cprog :=
  match v with None => rest | Some _ => Call (Done true) (fun _ => rest) end.
Definition move (v : option (nat * list (fld * N))) (rest : cprog) : cprog :=
  match v with None => rest | Some (k, ws) => token_call k ws rest end.
(** create: [a] the sender, [y] the new address, [code] what the init code returns. *)
Definition create_prog (v : option (nat * list (fld * N))) (a y : bytes) (init : cprog) (code : N) : cprog :=
  ask v (
  Read (nonce_of a) (fun n =>
  Write (nonce_of a) (Some (default 0 n + 1)) (
  Read (nonce_of y) (fun n' => Read (code_of y) (fun c' =>
  if bool_decide (default 0 n' ≠ 0 ∨ c' ≠ None) then Done false else
  Call (Write (made_at y) (Some 1) (Write (nonce_of y) (Some 1) (
        move v (and_then init (Write (code_of y) (Some code) (Done true))))))
       Done))))).
(** EVMCreateWithTracer: outcome, and the store afterwards (a failure is an error of the message,
    whose writes are dropped by the message server's caller). [None]: a panic. *)
Definition evm_create_with (rv : sdb fld N -> Z -> option (sdb fld N)) (v : option (nat * list (fld * N))) (a y : bytes) (init : cprog) (code : N) (m : gmap fld N)
  : option (bool * gmap fld N) :=
  match run rv (create_prog v a y init code) (new_sdb m) with
  | None => None
  | Some (true, s) => Some (true, m_base (db_store (flush_all s)))
  | Some (false, _) => Some (false, m)
  end.
Definition evm_create := evm_create_with revert_to.
