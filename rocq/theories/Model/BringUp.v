(** Bring-up of the EVM module at genesis (x/evm/keeper/genesis.go 17-91, Initialize) and the
    chain upgrade (app/upgrade.go). The factory and the wrapper are deployed by CREATE2 from the
    chain's address with fixed salts and code (the wrapper's code contains the factory's
    address), so each has one possible address: [e_factory E] and [W].

    Simplification: what a new contract at a free address needs is [deploy] of Token.v; the
    constructors succeed. *)
From Verif.Base Require Import Prelude Hex.
From Verif.Model Require Import Token Bank Params.
Open Scope Z_scope.

Record evm_chain := EvmChain {
  ch_w : world;
  ch_params : evm_params;
  ch_factory : option bytes;
  ch_wrapper : option bytes }.

Section bring_up.
Variable E : env.
Variable W : bytes.
Variable answers : world → bytes → bool.

(** context_utils.go 18-39, LoadFee, which every EVM run starts with: an unknown denomination
    is no fee contract; a malformed evm/... is an error. *)
Definition load_fee (w : world) (d : text) : bool :=
  match denom_to_contract w d with
  | Some c => load_fee_ok answers w c
  | None => negb (is_erc20_denom d)
  end.

(** genesis.go 53-66, DeployERC20Factory. A new contract's nonce is 1 (EIP-161). *)
Definition deploy_factory (s : evm_chain) : option evm_chain :=
  if load_fee (ch_w s) (ep_fee_denom (ch_params s)) then
    w1 ← deploy (ch_w s) (e_factory E) CCustom;
    Some (EvmChain (upd_fnonce w1 1) (ch_params s) (Some (e_factory E)) (ch_wrapper s))
  else None.
(** genesis.go 68-91, DeployERC20Wrapper *)
Definition deploy_wrapper (s : evm_chain) : option evm_chain :=
  f ← ch_factory s;
  if load_fee (ch_w s) (ep_fee_denom (ch_params s)) then
    w1 ← deploy (ch_w s) W CCustom;
    Some (EvmChain w1 (ch_params s) (Some f) (Some W))
  else None.
(** genesis.go 26-50, InitializeWithDecimals *)
Definition initialize (s : evm_chain) : option evm_chain :=
  s1 ← deploy_factory s;
  if load_fee (ch_w s1) (ep_fee_denom (ch_params s1)) then
    let '(ok, w2) := create_erc20 E (ch_w s1) (ep_fee_denom (ch_params s1)) in
    if ok then deploy_wrapper (EvmChain w2 (ch_params s1) (ch_factory s1) (ch_wrapper s1)) else None
  else None.
(** app/upgrade.go 16-40; an error stops the chain at the upgrade's height. *)
Definition upgrade (s : evm_chain) : option evm_chain :=
  deploy_wrapper (EvmChain (ch_w s) (upgrade_params (ch_params s)) (ch_factory s) (ch_wrapper s)).
End bring_up.
