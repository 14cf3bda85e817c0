(** Gas accounting, unit conversion and fees.
    x/evm/types/gas.go, x/evm/types/decimals.go, x/evm/keeper/context.go (gas part),
    x/evm/keeper/context_utils.go, x/evm/keeper/txutils.go:38-48, x/evm/ante/gas_prices.go,
    app/posthandler/gasrefund.go. *)
From Verif.Base Require Import Prelude.

(** ** Gas (uint64 as [N] with wrapping subtraction) *)
(** CalGasUsed (x/evm/types/gas.go:8-16); params.RefundQuotientEIP3529 = 5. *)
Definition cal_gas_used (balance remaining refunded : N) : N :=
  let used := u64_sub balance remaining in
  let refund := (used / 5)%N in
  let refund := if (refunded <? refund)%N then refunded else refund in
  u64_sub used refund.

(** The SDK's gas meter: limit and gas consumed so far. *)
Record meter := Meter { g_limit : N; g_consumed : N }.
(** GasConsumedToLimit *)
Definition consumed_to_limit (g : meter) : N := N.min (g_consumed g) (g_limit g).
(** ConsumeGas: panics with ErrorOutOfGas when the limit is exceeded (the meter keeps the
    increased counter); overflow of the counter also panics. *)
Inductive charge := Charged (g : meter) | OutOfGasPanic (g : meter).
Definition consume_gas (g : meter) (amount : N) : charge :=
  let c := (g_consumed g + amount)%N in
  if (two64 <=? c)%N then OutOfGasPanic (Meter (g_limit g) (two64 - 1)%N)
  else if (g_limit g <? c)%N then OutOfGasPanic (Meter (g_limit g) c)
  else Charged (Meter (g_limit g) c).

(** computeGasLimit (context.go:38-45) *)
Definition compute_gas_limit (simulate : option N) (g : meter) : N :=
  match simulate with
  | Some sim_limit => sim_limit
  | None => u64_sub (g_limit g) (consumed_to_limit g)
  end.

(** What evm.Call / evm.Create / evm.StaticCall of go-ethereum return: remaining gas and the
    error. *)
Inductive evm_err := ErrReverted | ErrOOG | ErrOther.
Record evm_out := EvmOut { eo_err : option evm_err; eo_remaining : N; eo_refund : N }.

(** EVMCallWithTracer (context.go:265-282) and EVMCreateWithTracer (context.go:364-383),
    gas part: the meter after the call and whether an error is returned. *)
Definition evm_call_gas (balance : N) (g : meter) (o : evm_out) : charge * bool :=
  let failed := match eo_err o with Some _ => true | None => false end in
  if (eo_remaining o =? 0)%N && (match eo_err o with Some ErrReverted | Some ErrOther => true | _ => false end)
  then (Charged g, true)
  else (consume_gas g (cal_gas_used balance (eo_remaining o) (eo_refund o)), failed).

(** ** Decimals (x/evm/types/decimals.go). [big.Int.Div] with a positive divisor is
    floor division; [d] is a uint8. *)
Local Open Scope Z_scope.
Definition pow10 (d : Z) : Z := 10 ^ d.
(** ToEthersUint (decimals.go:10-25) *)
Definition to_ethers (d : Z) (v : Z) : Z :=
  if d =? 18 then v else if 18 <? d then v / pow10 (d - 18) else v * pow10 (18 - d).
(** FromEthersUnit (decimals.go:61-75) *)
Definition from_ethers (d : Z) (v : Z) : Z :=
  if d =? 18 then v else if 18 <? d then v * pow10 (d - 18) else v / pow10 (18 - d).
(** ToGweiUint (decimals.go:27-42), FromGweiUnit (decimals.go:44-59) *)
Definition to_gwei (d : Z) (v : Z) : Z :=
  if d =? 9 then v else if 9 <? d then v / pow10 (d - 9) else v * pow10 (9 - d).
Definition from_gwei (d : Z) (v : Z) : Z :=
  if d =? 9 then v else if 9 <? d then v * pow10 (d - 9) else v / pow10 (9 - d).
(** uint8 addition of [fee.Decimals()+9] (context_utils.go:63, 77) *)
Definition u8_add (a b : Z) : Z := (a + b) mod 256.

(** computeGasFeeAmount (txutils.go:38-48) *)
Definition compute_gas_fee_amount (fee_cap gas d : Z) : Z :=
  if fee_cap =? 0 then 0 else from_ethers d (fee_cap * gas) + 1.

(** ** cosmossdk.io/math LegacyDec: an integer scaled by 10^18. *)
Definition dec_one : Z := 10 ^ 18.
(** LegacyDec.QuoTruncate: (a * 10^36 / b) / 10^18, truncating. *)
Definition dec_quo_truncate (a b : Z) : Z := (a * dec_one * dec_one / b) / dec_one.
(** LegacyDec.MulTruncate and Mul of values whose product is a multiple of 10^18. *)
Definition dec_mul_truncate (a b : Z) : Z := a * b / dec_one.
(** TruncateInt *)
Definition dec_truncate_int (a : Z) : Z := a / dec_one.
(** LegacyNewDec *)
Definition dec_of_int (a : Z) : Z := a * dec_one.

(** baseFee (context_utils.go:66-78) and extractGasPriceFromContext (context_utils.go:41-64)
    from a positive gas price: price times 1e9, truncated, converted with decimals+9. *)
Definition gas_price_wei (d : Z) (price : Z) : Z :=
  to_ethers (u8_add d 9) (dec_truncate_int (dec_mul_truncate price (dec_of_int (10 ^ 9)))).

(** GasPricesDecorator.AnteHandle (x/evm/ante/gas_prices.go:20-43): price of one denom from
    its fee amount; [int64(gas)] is exact because transaction validation bounds the gas limit
    by 2^63-1 (cosmos-sdk x/auth/tx, MaxGasWanted). *)
Definition gas_price_of_fee (fee gas : Z) : Z := dec_quo_truncate (dec_of_int fee) (dec_of_int gas).

(** GasRefundDecorator.PostHandle (app/posthandler/gasrefund.go:30-77). *)
Inductive exec_mode := ModeCheck | ModeReCheck | ModeSimulate | ModeFinalize.
Global Instance exec_mode_eq_dec : EqDecision exec_mode. Proof. solve_decision. Defined.
Definition refund_gas (ratio gas_left : Z) : Z := dec_truncate_int (ratio * gas_left).
(** DecCoins.MulDec rounds each product to the nearest 10^-18; here the factor is an
    integer so the product is exact. TruncateDecimal keeps the integer part. *)
Definition refund_coin (price gas_refund : Z) : Z :=
  dec_truncate_int (price * dec_of_int gas_refund / dec_one).
Definition refund_coins (prices : list (string * Z)) (gas_refund : Z) : list (string * Z) :=
  List.filter (fun c => negb (snd c =? 0)) (map (fun p => (fst p, refund_coin (snd p) gas_refund)) prices).
Record refund := Refund { rf_to : bytes; rf_coins : list (string * Z) }.
(** Result [None]: no transfer; otherwise one transfer from the fee collector. [prices] is
    the context value stored by GasPricesDecorator ([None] in simulation). *)
Definition gas_refund (success : bool) (mode : exec_mode) (is_eth : option bool)
    (prices : option (list (string * Z))) (ratio : Z) (g : meter) (payer : bytes) (granter : option bytes)
    : option refund :=
  if success && bool_decide (mode = ModeFinalize) then
    match is_eth, prices with
    | Some true, Some ps =>
        let left := Z.of_N (u64_sub (g_limit g) (consumed_to_limit g)) in
        let coins := refund_coins ps (refund_gas ratio left) in
        match coins with
        | [] => None
        | _ => Some (Refund (default payer granter) coins)
        end
    | _, _ => None
    end
  else None.
