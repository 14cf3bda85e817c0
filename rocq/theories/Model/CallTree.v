(** Call frames and native value: how go-ethereum's EVM (core/vm/evm.go, Call, DelegateCall,
    StaticCall; core/vm/instructions.go, opCall, opDelegateCall, opStaticCall, opSstore, makeLog,
    opBalance, opSelfdestruct6780; core/vm/interpreter.go, readOnly) uses the chain's value hooks
    (x/evm/keeper/context.go 64-113, CanTransfer and Transfer) and balance functions
    (x/evm/state/statedb.go 122-185, AddBalance, SubBalance, GetBalance), where native value is
    the balance in the fee token's contract.

    The code a contract runs is a tree of actions: what it does next may depend on anything it
    has read and on how its calls ended, so every execution is one of the trees. A frame that
    fails for any reason of its own (revert, invalid instruction, out of gas) is [PRevert].

    Frames are opened and undone by StateDB's own Snapshot and RevertToSnapshot, and the end of the
    transaction by its Commit (statedb.go 560-590, 629-658), on the path of contexts of
    Model/Paths.v. The balance functions and the value hooks are calls of the token, so each of
    them opens frames too (statedb.go 122-185; ERC20.sol, transferable, register_erc20_store).

    Simplifications: no contract creation by contracts; what the registry precompile writes
    (accounts and the list of holders) goes to the store the execution started with, past all
    contexts (Token.v, [call_tok]), and stays whatever fails; the 100000 gas of the hooks suffice
    for the provided tokens' functions. *)
From Verif.Base Require Import Prelude Hex.
From Verif.Model Require Import Token Paths.
Open Scope Z_scope.

(** Logs: a contract's own, and the token's Transfer events. *)
Inductive event := EUser (a : bytes) (n : Z) | EMoved (from to : bytes) (v : Z).
Record st := St { s_w : world; s_sto : gmap (bytes * Z) Z; s_log : list event }.

Inductive prog :=
| PStop                                                  (* the frame succeeds *)
| PRevert                                                (* the frame fails *)
| PStore (slot v : Z) (k : prog)
| PLoad (slot : Z) (k : Z → prog)
| PLog (n : Z) (k : prog)
| PBalance (a : bytes) (k : Z → prog)
| PSend (to : bytes) (v : Z) (k : bool → prog)           (* calls transfer of the fee token *)
| PCall (to : bytes) (v : Z) (body : prog) (k : bool → prog)  (* calls [to], whose code does [body], with value [v] *)
| PDestruct (heir : bytes)
| PDelegate (body : prog) (k : bool → prog)              (* runs a library's code, [body], as itself *)
| PStatic (to : bytes) (body : prog) (k : bool → prog).  (* calls [to] read-only *)

Section run.
Variable E : env.
Variable fee : bytes.

(** A call of the fee token's function [o] by [sender] that logs [ev]. *)
Definition tok_call (s : st) (sender : bytes) (o : op) (ev : event) : bool * st :=
  let '(ok, w) := call_tok E (s_w s) fee sender o in
  (ok, St w (s_sto s) (if ok then s_log s ++ [ev] else s_log s)).

(** What the execution sees and the contexts below it. *)
Notation mst := (path st).
Definition snapped (m : mst) : mst := fst (pt_snapshot m).
(** Restoring the content of [s] in a state that has come to [s']: storage, code (with it the
    token's ledger) and logs; not what the registry wrote (Token.v, [call_tok]). *)
Definition undo (s s' : st) : st :=
  St (upd_code (s_w s') (fun _ => w_code (s_w s))) (s_sto s) (s_log s).
(** RevertToSnapshot (statedb.go 577-590) *)
Definition rollback (m : mst) (id : Z) : option mst :=
  match pt_revert m id with
  | Some p => Some (pt_set p (undo (pt_cur p) (pt_cur m)))
  | None => None
  end.
(** Commit (statedb.go 629-658), for executions that destroy no contract they made *)
Definition settle (m : mst) : st := undo (pt_commit m) (pt_cur m).
(** A frame: snapshot, run, revert on failure (core/vm/evm.go, Call, DelegateCall, StaticCall);
    [None]: a panic, which no frame catches. *)
Definition in_frame (m : mst) (go : mst -> option (bool * mst)) : option (bool * mst) :=
  let '(m1, id) := pt_snapshot m in
  match go m1 with
  | Some (false, m2) => match rollback m2 id with Some m3 => Some (false, m3) | None => None end
  | r => r
  end.
(** The frames a function of the token opens before it writes: the check of the recipient
    (ERC20ACL.sol), the question whether it is registered and the registration
    (ERC20Registry.sol, register_erc20_store). *)
Definition inner_frames (w : world) (o : op) : nat :=
  (match o with OTransfer _ _ | OTransferFrom _ _ _ | OMint _ _ | OBurn _ | OBurnFrom _ _ => 1 | _ => 0 end +
   match op_recipient o with
   | Some r => if bool_decide ((r, fee) ∈ w_stores w) then 1 else 2
   | None => 0
   end)%nat.
Definition tok_frame (m : mst) (sender : bytes) (o : op) (ev : event) : option (bool * mst) :=
  in_frame m (fun m1 =>
    let m2 := Nat.iter (inner_frames (s_w (pt_cur m1)) o) snapped m1 in
    let '(ok, s') := tok_call (pt_cur m2) sender o ev in Some (ok, pt_set m2 s')).
(** One that must not fail (context.go 108-112, statedb.go 132-136, 151-155: panic). *)
Definition tok_must (m : mst) (sender : bytes) (o : op) (ev : event) : option mst :=
  match tok_frame m sender o ev with Some (true, m') => Some m' | _ => None end.
(** context.go 97-113, Transfer *)
Definition hook_transfer (m : mst) (a1 a2 : bytes) (v : Z) : option mst :=
  if v =? 0 then Some m else tok_must m a1 (OTransfer a2 v) (EMoved a1 a2 v).
(** context.go 69-96, CanTransfer: the balance is asked of the token in a frame of its own. *)
Definition asked (m : mst) (v : Z) : mst :=
  if (v =? 0) || bool_decide (fee = null_addr) then m else snapped m.
(** statedb.go 141-156 and 122-138 (run as the chain, 0x1) *)
Definition sub_balance (m : mst) (a : bytes) (v : Z) : option mst :=
  if v =? 0 then Some m else tok_must m chain_addr (OSudoBurn a v) (EMoved a null_addr v).
Definition add_balance (m : mst) (a : bytes) (v : Z) : option mst :=
  if v =? 0 then Some m else tok_must m chain_addr (OSudoMint a v) (EMoved null_addr a v).

(** Empty (statedb.go 319-327) *)
Definition empty_addr (w : world) (a : bytes) : bool :=
  (default 0 (balance_of w fee a) =? 0) && match w_accts w !! a with None => true | Some v => is_empty_acct v end.

(** The code of contract [self] in its frame: [None] the whole transaction is aborted by a panic;
    otherwise whether the frame succeeded, and the state at its end. [ro]: the interpreter is
    read-only, and the instructions that write fail their frame (instructions.go, opSstore,
    makeLog, opSelfdestruct6780, opCall: ErrWriteProtection); the token's transfer, which writes
    storage and registers the holder, fails in its own frame (the registry refuses too: C96).
    The price of CALL with value and of SELFDESTRUCT depends on whether the other side is empty,
    which asks for its balance (core/vm/gas_table.go, gasCall; operations_acl.go,
    makeSelfdestructGasFn: if it is, also for one's own; opSelfdestruct6780 asks again). *)
Fixpoint frame (ro : bool) (p : prog) (self : bytes) (m : mst) : option (bool * mst) :=
  let s := pt_cur m in
  match p with
  | PStop => Some (true, m)
  | PRevert => Some (false, m)
  | PStore x v k =>
      if ro then Some (false, m) else frame ro k self (pt_set m (St (s_w s) (<[(self, x) := v]> (s_sto s)) (s_log s)))
  | PLoad x k => frame ro (k (default 0 (s_sto s !! (self, x)))) self m
  | PLog n k => if ro then Some (false, m) else frame ro k self (pt_set m (St (s_w s) (s_sto s) (s_log s ++ [EUser self n])))
  | PBalance a k => frame ro (k (default 0 (balance_of (s_w s) fee a))) self (snapped m)
  | PSend to v k =>
      match (if ro then in_frame m (fun m1 => Some (false, m1)) else tok_frame m self (OTransfer to v) (EMoved self to v)) with
      | None => None
      | Some (ok, m') => frame ro (k ok) self m'
      end
  | PCall to v body k =>
      if ro && negb (v =? 0) then Some (false, m) else
      let m0 := asked (if v =? 0 then m else snapped m) v in
      if can_transfer (s_w s) fee self v
      then match in_frame m0 (fun m1 => match hook_transfer m1 self to v with
                                        | None => None
                                        | Some m2 => frame ro body to m2
                                        end) with
           | None => None
           | Some (ok, m') => frame ro (k ok) self m'
           end
      else frame ro (k false) self m0
  | PDelegate body k =>
      match in_frame m (frame ro body self) with
      | None => None
      | Some (ok, m') => frame ro (k ok) self m'
      end
  | PStatic to body k =>
      match in_frame m (frame true body to) with
      | None => None
      | Some (ok, m') => frame ro (k ok) self m'
      end
  | PDestruct heir =>
      if ro then Some (false, m) else
      let v := default 0 (balance_of (s_w s) fee self) in
      let m0 := if empty_addr (s_w s) heir then snapped (snapped (snapped m)) else snapped (snapped m) in
      match sub_balance m0 self v with
      | None => None
      | Some m1 => match add_balance m1 heir v with
                   | None => None
                   | Some m2 => Some (true, m2)
                   end
      end
  end.

(** The outermost frame of an execution that starts in [s] (core/vm/evm.go, Call; and create, where
    [prep] is the making of the contract); only a successful one is committed (context.go 241-318,
    320-418). *)
Definition execute (prep : st -> st) (caller to : bytes) (v : Z) (body : prog) (s : st) : option (bool * st) :=
  let m0 := asked (Path s []) v in
  if can_transfer (s_w s) fee caller v
  then match in_frame m0 (fun m1 => match hook_transfer (pt_set m1 (prep (pt_cur m1))) caller to v with
                                    | None => None
                                    | Some m2 => frame false body to m2
                                    end) with
       | None => None
       | Some (true, m') => Some (true, settle m')
       | Some (false, m') => Some (false, pt_cur m')
       end
  else Some (false, s).
(** context.go 252-315, EVMCall *)
Definition evm_call (caller to : bytes) (v : Z) (body : prog) (s : st) : option st :=
  match execute (fun s => s) caller to v body s with
  | Some (true, s') => Some s'
  | _ => None
  end.
End run.
