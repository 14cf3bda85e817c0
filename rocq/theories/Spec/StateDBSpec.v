(** Specifications for the StateDB properties: functions of the command history alone. *)
From Verif.Base Require Import Prelude Layers.
From Verif.Model Require Import Snapshots StateDB.

(** Commands whose arguments have the Go types (common.Address, common.Hash, uint64). *)
Definition op_ok (o : op) : bool :=
  let A a := Nat.eqb (length a) 20 in
  let H h := Nat.eqb (length h) 32 in
  match o with
  | OpSetState a k v | OpSetTransient a k v => A a && H k && H v
  | OpSetNonce a n => A a
  | OpSetCode a _ => A a
  | OpAddRefund g | OpSubRefund g => (g <? two64)%N
  | OpAddLog _ => true
  | OpAddAddr a => A a
  | OpAddSlot a k => A a && H k
  | OpCreateAccount a | OpCreateContract a => A a
  | OpAddBalance a _ | OpSubBalance a _ => A a
  | OpSelfDestruct a | OpSelfDestruct6780 a | OpGetBalance a => A a
  | OpSnapshotS => true
  end.

(** The last value stored at (contract, slot) by the history, newest wins. *)
Fixpoint last_store (a slot : bytes) (l : list op) : option bytes :=
  match l with
  | [] => None
  | o :: l' =>
      match last_store a slot l' with
      | Some v => Some v
      | None => match o with
                | OpSetState a' slot' v => if decide (a' = a /\ slot' = slot) then Some v else None
                | _ => None
                end
      end
  end.

(** The last value TSTOREd by contract [a] under [k]. *)
Fixpoint last_tstore (a k : bytes) (l : list op) : option bytes :=
  match l with
  | [] => None
  | o :: l' =>
      match last_tstore a k l' with
      | Some v => Some v
      | None => match o with
                | OpSetTransient a' k' v => if decide (a' = a /\ k' = k) then Some v else None
                | _ => None
                end
      end
  end.

(** The refund counter as a number: additions wrap at 2^64, a subtraction below zero has no
    result. *)
Fixpoint refund_after (r : N) (l : list op) : option N :=
  match l with
  | [] => Some r
  | OpAddRefund g :: l' => refund_after ((r + g) mod 2 ^ 64)%N l'
  | OpSubRefund g :: l' => if (r <? g)%N then None else refund_after (r - g)%N l'
  | _ :: l' => refund_after r l'
  end.
Fixpoint refund_added (l : list op) : N :=
  match l with [] => 0%N | OpAddRefund g :: l' => (g + refund_added l')%N | _ :: l' => refund_added l' end.
Fixpoint refund_subtracted (l : list op) : N :=
  match l with [] => 0%N | OpSubRefund g :: l' => (g + refund_subtracted l')%N | _ :: l' => refund_subtracted l' end.

(** The history contains no command that replaces the account record or code of [a]. *)
Definition resets_code (a : bytes) (o : op) : bool :=
  match o with
  | OpSetCode a' _ | OpCreateAccount a' | OpCreateContract a' => bool_decide (a' = a)
  | _ => false
  end.

(** Logs emitted by one command in a world [w]: the EVM's own logs, and the Transfer events
    of the fee token for balance changes. *)
Definition emits (fee_log : bytes -> bytes -> N -> log) (e : N) (w : world) (o : op) : list log :=
  let burn a := let b := bal w a in if (b =? 0)%N then [] else [fee_log a addr0 b] in
  match o with
  | OpAddLog l => [l]
  | OpAddBalance a n => if (n =? 0)%N then [] else [fee_log addr0 a n]
  | OpSubBalance a n => if (n =? 0)%N then [] else [fee_log a addr0 n]
  | OpSelfDestruct a => match get_acc w a with None => [] | Some _ => burn a end
  | OpSelfDestruct6780 a =>
      match get_acc w a with
      | None => []
      | Some _ => if has_key w (KCreated e a) then burn a else []
      end
  | _ => []
  end.
Section emitted.
Variable fee_log : bytes -> bytes -> N -> log.
Variable keccak : bytes -> bytes.
(** The logs emitted along a history, in order. *)
Fixpoint emitted (e : N) (s : db) (l : list op) : list log :=
  match l with
  | [] => []
  | o :: l' =>
      emits fee_log e (vw s) o ++
      match step fee_log keccak e s o with None => [] | Some s' => emitted e s' l' end
  end.
End emitted.

(** States of the database that can occur: a fresh one over any store, then any commands
    (with any execution indices) and any reverts. *)
Section reach.
Variable fee_log : bytes -> bytes -> N -> log.
Variable keccak : bytes -> bytes.
Inductive reach (m : world) : db -> Prop :=
| reach_new : reach m (new_sdb m)
| reach_step e s o s' : reach m s -> step fee_log keccak e s o = Some s' -> reach m s'
| reach_revert s i s' : reach m s -> revert_to s i = Some s' -> reach m s'.

(** The same, with reverts to the outermost snapshot only. *)
Inductive reach_outer (m : world) : db -> Prop :=
| ro_new : reach_outer m (new_sdb m)
| ro_step e s o s' : reach_outer m s -> step fee_log keccak e s o = Some s' -> reach_outer m s'
| ro_revert s s' : reach_outer m s -> revert_to s (-1) = Some s' -> reach_outer m s'.

(** Commands and reverts other than to the outermost snapshot. *)
Inductive inner_trace : db -> db -> Prop :=
| it_refl s : inner_trace s s
| it_step e s o s1 s2 : step fee_log keccak e s o = Some s1 -> inner_trace s1 s2 -> inner_trace s s2
| it_revert s i s1 s2 : i <> (-1)%Z -> revert_to s i = Some s1 -> inner_trace s1 s2 -> inner_trace s s2.
End reach.
