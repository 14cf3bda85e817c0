(** Specification vocabulary of the bank properties. *)
From Verif.Base Require Import Prelude Hex.
From Verif.Model Require Import Token Bank Params.
Open Scope Z_scope.

(** ** Send restrictions *)

(** What modules may do to the chain's send restriction at start-up; [None] stands
    for Go's nil function. *)
Inductive restr_action :=
| RAppend (r : option restriction)
| RPrepend (r : option restriction)
| RClear.

(** The order in which the restrictions are expected to run. *)
Fixpoint expected_order (cur : list restriction) (h : list restr_action) : list restriction :=
  match h with
  | [] => cur
  | RAppend (Some r) :: h' => expected_order (cur ++ [r]) h'
  | RPrepend (Some r) :: h' => expected_order (r :: cur) h'
  | RAppend None :: h' | RPrepend None :: h' => expected_order cur h'
  | RClear :: h' => expected_order [] h'
  end.

(** Run restrictions one after the other: each gets the recipient its predecessor
    chose, the first refusal is final. *)
Fixpoint run_in_order (l : list restriction) (w : world) (from to : bytes) (amt : list coin) : option bytes :=
  match l with
  | [] => Some to
  | r :: l' => match r w from to amt with
               | None => None
               | Some to' => run_in_order l' w from to' amt
               end
  end.

(** ** Parameters *)

Definition params_valid (ac : text → option bytes) (p : evm_params) : Prop :=
  (∀ a, a ∈ ep_publishers p → ac a ≠ None) ∧
  (∀ a, a ∈ ep_allowed p → is_hex_address a = true ∨ ac a ≠ None) ∧
  0 <= ep_ratio p <= 10 ^ 18 ∧
  (ep_retain p = 0%N ∨ (256 <= ep_retain p)%N).
