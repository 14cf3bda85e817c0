(** Queries (x/evm/keeper/query_server.go 29-104) and the store they run on.

    gRPC queries and the JSON-RPC methods eth_call (jsonrpc/backend/eth.go 60-104)
    reach [Call], which runs the EVM on a cache context whose write function is
    dropped (line 79: [sdkCtx, _ = sdkCtx.CacheContext()]). eth_estimateGas runs
    baseapp's Simulate, which does the same with the whole transaction. *)
From Verif.Base Require Import Prelude Layers.

Section query.
Context {K V : Type} `{Countable K}.

(** What code that was handed some contexts can do with the store: read, write and
    branch the contexts it has, and flush the branches it made itself. Adaptive: what
    it does next depends on what it has read. The contexts are numbered by the order
    in which the program got them (0 is the one it was handed). *)
Inductive qprog :=
| QDone
| QRead (i : nat) (k : K) (next : option V → qprog)
| QWrite (i : nat) (k : K) (o : option V) (next : qprog)
| QBranch (i : nat) (next : qprog)
| QFlush (i : nat) (next : qprog).

(** [caps]: the contexts of the program in the order it got them. A flush of the
    context it was handed ([i = 0]) is not possible: the write function is not among
    the things it has. Using a context it does not have is not possible either; such
    a step does nothing. *)
Fixpoint qrun (caps : list nat) (p : qprog) (ms : mstore K V) : mstore K V :=
  match p with
  | QDone => ms
  | QRead i k f => match caps !! i with
                   | Some c => qrun caps (f (read ms c k)) ms
                   | None => ms
                   end
  | QWrite i k o p' => match caps !! i with
                       | Some c => qrun caps p' (write ms c k o)
                       | None => ms
                       end
  | QBranch i p' => match caps !! i with
                    | Some c => let '(ms', c') := branch ms c in qrun (caps ++ [c']) p' ms'
                    | None => ms
                    end
  | QFlush i p' => match i, caps !! i with
                   | S _, Some c => qrun caps p' (flush ms c)
                   | _, _ => ms
                   end
  end.

(** Query.Call on the context [c]: CacheContext, run, drop. *)
Definition query_call (c : nat) (p : qprog) (ms : mstore K V) : mstore K V :=
  let '(ms', c') := branch ms c in qrun [c'] p ms'.
End query.
Arguments qprog K V : clear implicits.

(** Account numbers (C61): account records and the number counter live in the
    multistore; [None] is the counter, [Some a] the record of [a], of which only the
    number is kept. cosmos-sdk x/auth keeper: NextAccountNumber, NewAccountWithAddress
    and SetAccount; x/evm/state/statedb.go 265-303; erc20_stores.go 42-45. *)
Notation nkey := (option bytes).
Section numbers.
Definition next_number (ms : mstore nkey N) (c : nat) : N := default 0%N (read ms c None).
Definition new_account (ms : mstore nkey N) (c : nat) (a : bytes) : mstore nkey N :=
  match read ms c (Some a) with
  | Some _ => ms
  | None => let n := next_number ms c in write (write ms c None (Some (n + 1)%N)) c (Some a) (Some n)
  end.
End numbers.
