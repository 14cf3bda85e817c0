(** Model of the EVM module's parameters: x/evm/types/params.go,
    x/evm/keeper/msg_server.go (UpdateParams) and app/upgrade.go. *)
From Verif.Base Require Import Prelude Hex.
From Verif.Model Require Import Token Bank.
Open Scope Z_scope.

(** proto/minievm/evm/v1/types.proto 12-58. The ratio is a LegacyDec: an integer
    number of 10^-18. *)
Record evm_params := EvmParams {
  ep_eips : list Z;
  ep_publishers : list text;
  ep_allow_custom : bool;
  ep_allowed : list text;
  ep_fee_denom : text;
  ep_ratio : Z;
  ep_retain : N }.

Definition dec_one : Z := 10 ^ 18.

(** types/address.go 34-44, ContractAddressFromString; [ac] is the bech32 address
    codec ([None]: not an address). *)
Definition contract_addr_from_string (ac : text → option bytes) (t : text) : option bytes :=
  if is_hex_address t then Some (hex_to_address t) else to_fixed 20 <$> ac t.

(** params.go 28-52, Validate. *)
Definition validate_params (ac : text → option bytes) (p : evm_params) : bool :=
  forallb (fun a => bool_decide (is_Some (ac a))) (ep_publishers p) &&
  forallb (fun a => bool_decide (is_Some (contract_addr_from_string ac a))) (ep_allowed p) &&
  negb ((ep_ratio p <? 0) || (dec_one <? ep_ratio p)) &&
  negb (negb (ep_retain p =? 0)%N && (ep_retain p <? 256)%N).

(** context_utils.go 18-39, LoadFee: the decimals of the fee contract are read
    unless it is the zero address; a contract that does not answer is an error.
    [answers] tells which contracts of unknown code answer. *)
Definition load_fee_ok (answers : world → bytes → bool) (w : world) (c : bytes) : bool :=
  bool_decide (c = null_addr) ||
  match w_code w !! c with Some (CTok _) => true | Some CCustom => answers w c | None => false end.

(** msg_server.go 229-262, testFeeDenom, on a cached context: the fee contract must
    let the chain mint and then burn one unit. *)
Definition test_fee_denom (answers : world → bytes → bool) (f : caller) (w : world) (d : text) : bool :=
  match denom_to_contract w d with
  | None => false
  | Some c =>
      load_fee_ok answers w c &&
      let '(ok1, w1) := f w c (OSudoMint chain_addr 1) in
      ok1 && fst (f w1 c (OSudoBurn chain_addr 1))
  end.

Record params_env := ParamsEnv {
  pe_ac : text → option bytes;
  pe_answers : world → bytes → bool;
  pe_call : caller;
  pe_authority : text }.

(** msg_server.go 200-226, UpdateParams; [None] is an error. *)
Definition update_evm_params (P : params_env) (w : world) (authority : text) (p : evm_params) : option evm_params :=
  if bool_decide (pe_authority P = authority) then
    if test_fee_denom (pe_answers P) (pe_call P) w (ep_fee_denom p) then
      if validate_params (pe_ac P) p then Some p else None
    else None
  else None.

(** app/upgrade.go 17-44: what the 0.5.7 upgrade does to the parameters
    (types/params.go 11-18 gives the default ratio 0.5). *)
Definition upgrade_params (p : evm_params) : evm_params :=
  EvmParams (ep_eips p) (ep_publishers p) (ep_allow_custom p) (ep_allowed p) (ep_fee_denom p)
            (5 * 10 ^ 17) 0.

(** Delivery of one message or upgrade to the stored parameters. *)
Inductive params_msg := PUpdate (w : world) (authority : text) (p : evm_params) | PUpgrade.
Definition params_deliver (P : params_env) (cur : evm_params) (m : params_msg) : evm_params :=
  match m with
  | PUpdate w a p => default cur (update_evm_params P w a p)
  | PUpgrade => upgrade_params cur
  end.
