(** What the owner of an account sees of one Ethereum transaction, on a plain ledger in units of
    the fee token (Spec/CallTreeSpec.v): the fee goes to the collector first, then the call is
    made, then part of the fee may come back. *)
From Verif.Base Require Import Prelude Hex.
From Verif.Model Require Import CallTree.
From Verif.Spec Require Import CallTreeSpec.
Open Scope Z_scope.

(** The outermost call: [from] calls [to] with [v], and [body] is what the code there does. *)
Definition outer (to : bytes) (v : Z) (body : prog) : prog :=
  PCall to v body (fun ok => if ok then PStop else PRevert).

(** The ledger when the transaction succeeds: [l'] is the outcome of the call on the ledger after
    the fee, and [back] is what comes back. *)
Definition succeeded (blk : bytes → bool) (l : ledger) (from to col : bytes) (v fee back : Z) (body : prog) (l2 : ledger) : Prop :=
  ∃ l', eth blk (outer to v body) from (pay l from col fee) = (Told, true, l') ∧ l2 = pay l' col from back.
(** The call never comes, on the ledger, to a failure that is caught. *)
Definition catches_none (blk : bytes → bool) (l : ledger) (from to col : bytes) (v fee : Z) (body : prog) : Prop :=
  (eth blk (outer to v body) from (pay l from col fee)).1.1 ≠ CatchesFailure.
(** ... and when it fails. *)
Definition only_fee (l : ledger) (from col : bytes) (fee : Z) : ledger := pay l from col fee.
