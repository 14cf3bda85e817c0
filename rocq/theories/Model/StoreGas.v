(** What a write to a slot costs and refunds, over the contexts of an execution:
    go-ethereum's makeGasSStoreFunc (core/vm/operations_acl.go, EIP-2200, 2929 and 3529), which
    reads GetState and GetCommittedState and calls AddRefund and SubRefund of the StateDB
    (x/evm/state/statedb.go 187-215, 423-431, 516-534), and the frames of core/vm/evm.go over
    Snapshot and RevertToSnapshot (561-590).

    The content of a context is the slots and the refund counter, which is kept in the same
    context (transientRefund); GetCommittedState reads the oldest context, as it is now.

    Simplification: the account of a slot exists (GetState answers 0 otherwise, 462-476; a contract
    made in this execution has no slots in the oldest context either way).

    go-ethereum is replaced by a fork in go.mod (290), whose source is not here: its gas rules are
    taken to be those of go-ethereum 1.14.9. *)
From Verif.Base Require Import Prelude.
From Verif.Model Require Import Paths.
Local Open Scope N_scope.

Notation slot := (bytes * N)%type.
Record cell := Cell { c_slots : gmap slot N; c_refund : N }.
Notation cells := (path cell).
Definition value_in (c : cell) (x : slot) : N := default 0 (c_slots c !! x).
(** GetState, GetCommittedState *)
Definition current (m : cells) (x : slot) : N := value_in (pt_cur m) x.
Definition committed (m : cells) (x : slot) : N := value_in (pt_base (pt_cur m) (pt_up m)) x.
(** SetState (statedb.go 530-534) *)
Definition write_slot (m : cells) (x : slot) (v : N) : cells :=
  pt_set m (Cell (<[x := v]> (c_slots (pt_cur m))) (c_refund (pt_cur m))).
(** AddRefund (187-198); a uint64 *)
Definition add_refund (m : cells) (n : N) : cells :=
  pt_set m (Cell (c_slots (pt_cur m)) ((c_refund (pt_cur m) + n) mod 2 ^ 64)).
(** SubRefund (200-215); [None]: the panic "Refund counter below zero". *)
Definition sub_refund (m : cells) (n : N) : option cells :=
  if c_refund (pt_cur m) <? n then None else Some (pt_set m (Cell (c_slots (pt_cur m)) (c_refund (pt_cur m) - n))).

(** The gas of a write of [v] where [o] is committed and [c] current, without the 2100 for a slot
    not touched before, and the changes of the refund counter in order. *)
Inductive change := Add (n : N) | Sub (n : N).
Definition store_gas (o c v : N) : N * list change :=
  if c =? v then (100, [])
  else if o =? c then
    if o =? 0 then (20000, [])
    else (2900, if v =? 0 then [Add 4800] else [])
  else
    (100, (if o =? 0 then [] else if c =? 0 then [Sub 4800] else if v =? 0 then [Add 4800] else []) ++
          (if o =? v then if o =? 0 then [Add 19900] else [Add 2800] else [])).
Fixpoint apply_changes (m : cells) (l : list change) : option cells :=
  match l with
  | [] => Some m
  | Add n :: l' => apply_changes (add_refund m n) l'
  | Sub n :: l' => m' ← sub_refund m n; apply_changes m' l'
  end.

(** What contracts do, as seen from here. [Burn]: the gas of everything else. [Token]: a call of
    the fee token by the keeper, on gas of its own, for [n] gas of the frame (statedb.go 121-185;
    context.go 64-113); if it fails, the keeper panics. A call hands over at most what is left: the
    stipend of a call with value is part of the 9000 paid for it, of which 6700 are burnt. A frame
    that runs out of gas anywhere is [Fail] there. *)
Inductive code :=
| Stop | Revert | Fail
| Gas (k : N → code)
| Burn (n : N) (k : code)
| Load (x : slot) (k : N → code)
| Store (x : slot) (v : N) (cold : bool) (k : code)
| Enter (g : N) (body : code) (k : bool → N → code)
| Token (n : N) (body : code) (k : code).

(** [BadRevert]: RevertToSnapshot out of range (583-586); [BadRefund]: the counter below zero;
    [BadToken]: the panic of the keeper when the fee token refuses. *)
Inductive outcome := Ended (ok : bool) (rem : N) (m : cells) | BadRevert | BadRefund | BadToken.

(** A frame (core/vm/evm.go, Call): a snapshot, undone if the code fails. *)
Definition in_frame (go : cells → outcome) (m : cells) : outcome :=
  let '(m1, id) := pt_snapshot m in
  match go m1 with
  | Ended false rem m2 => match pt_revert m2 id with Some m3 => Ended false rem m3 | None => BadRevert end
  | o => o
  end.
(** statedb.go 60 *)
Definition token_gas : N := 100000.
(** [sentry]: EIP-2200's 2300; a store with no more gas than that fails before anything else. *)
Fixpoint go (sentry : N) (p : code) (g : N) (m : cells) : outcome :=
  match p with
  | Stop => Ended true g m
  | Revert => Ended false g m
  | Fail => Ended false 0 m
  | Gas k => go sentry (k g) g m
  | Burn n k => if g <? n then Ended false 0 m else go sentry k (g - n) m
  | Load x k => go sentry (k (current m x)) g m
  | Store x v cold k =>
      if g <=? sentry then Ended false 0 m
      else
        let '(cost, l) := store_gas (committed m x) (current m x) v in
        let cost := if cold : bool then cost + 2100 else cost in
        match apply_changes m l with
        | None => BadRefund
        | Some m1 => if g <? cost then Ended false 0 m1 else go sentry k (g - cost) (write_slot m1 x v)
        end
  | Enter a body k =>
      let g1 := N.min a g in
      match in_frame (go sentry body g1) m with
      | Ended ok rem m' => go sentry (k ok rem) (g - g1 + rem) m'
      | o => o
      end
  | Token n body k =>
      if g <? n then Ended false 0 m
      else match in_frame (go sentry body token_gas) m with
           | Ended true _ m' => go sentry k (g - n) m'
           | Ended false _ _ => BadToken
           | o => o
           end
  end.
(** An execution: the value of the transaction first ([pre], a call of the fee token inside the
    first frame), then the code; committed if it succeeds (context.go 200-330). *)
Definition after_pre (sentry : N) (pre : option code) (rest : cells → outcome) (m : cells) : outcome :=
  match pre with
  | None => rest m
  | Some b => match in_frame (go sentry b token_gas) m with
              | Ended true _ m' => rest m'
              | Ended false _ _ => BadToken
              | o => o
              end
  end.
Definition execution (sentry : N) (pre : option code) (p : code) (g : N) (slots : gmap slot N) : outcome :=
  in_frame (after_pre sentry pre (go sentry p g)) (Path (Cell slots 0) []).
