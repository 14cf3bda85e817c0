(** Whether a denomination has a supply: x/evm/keeper/erc20.go 230-240 (HasSupply of the ERC20
    keeper), x/bank/keeper/keeper.go 163-171 (HasSupply of the bank keeper).

    Simplifications: store errors other than "not found" do not happen. *)
From Verif.Base Require Import Prelude Hex.
From Verif.Model Require Import Token Bank.

(** erc20.go 230-240; [None] is an error: only the denomination's address can be malformed. *)
Definition k_has_supply (w : world) (d : text) : option bool :=
  match denom_to_contract w d with
  | None => if is_erc20_denom d then None else Some false
  | Some c => Some (bool_decide (c ∈ w_reg w))
  end.
(** keeper.go 163-171: an error makes the bank keeper panic. *)
Inductive has_supply_result := HasSupply (b : bool) | HasSupplyPanics.
Definition b_has_supply (w : world) (d : text) : has_supply_result :=
  match k_has_supply w d with Some b => HasSupply b | None => HasSupplyPanics end.
