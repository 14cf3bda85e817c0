(** Several requests in one transaction, on the plain ledger of Spec/CallTreeSpec.v: each starts
    where the one before ended, and they succeed together or not at all. *)
From Verif.Base Require Import Prelude Hex.
From Verif.Model Require Import CallTree.
From Verif.Spec Require Import CallTreeSpec WalletSpec.
Open Scope Z_scope.

(** [a] calls [to] with data and value, or sends [v] of the fee token to [b]. *)
Inductive act := ACall (a to data : bytes) (v : Z) | ASend (a b : bytes) (v : Z).
Definition actor (x : act) : bytes := match x with ACall a _ _ _ | ASend a _ _ => a end.

Section together.
Variable blk : bytes -> bool.
(** What the code at an address does with an input. *)
Variable code : bytes -> bytes -> prog.
(** Who may be sent to. *)
Variable open_to : bytes -> bool.
Fixpoint together (l : list act) (g : ledger) : result :=
  match l with
  | [] => (Told, true, g)
  | ACall a to d v :: l' =>
      match eth blk (outer to v (code to d)) a g with
      | (Told, true, g') => together l' g'
      | r => r
      end
  | ASend a b v :: l' =>
      if decide (v <= l_bal g a) then if open_to b then together l' (pay g a b v) else (Told, false, g)
      else (Told, false, g)
  end.
End together.

(** How many of the calls are [y]'s. *)
Definition is_call_by (y : bytes) (x : act) : bool := match x with ACall a _ _ _ => bool_decide (a = y) | _ => false end.
Definition calls_by (y : bytes) (l : list act) : N := N.of_nat (length (List.filter (is_call_by y) l)).
