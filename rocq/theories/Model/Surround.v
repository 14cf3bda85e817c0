(** What a contract sees of the block and the transaction it runs in: x/evm/keeper/context.go
    38-45 and 52-151 (computeGasLimit, buildBlockContext, buildTxContext), context_utils.go 19-78
    (LoadFee, extractGasPriceFromContext, baseFee), x/evm/types/chain_config.go, with the gas
    prices put into the context by x/evm/ante/gas_prices.go and the minimum prices of
    app/keepers/gas_price.go.

    Simplifications: [cx_hash] and the other fields of the SDK's context are inputs (the SDK sets
    the header hash when a block is executed and leaves it empty in queries and simulations); the
    hooks CanTransfer and Transfer are in CallTree.v, GetHash in BlockHash.v. *)
From Verif.Base Require Import Prelude Hex.
From Verif.Model Require Import Fees EthTx.
Local Open Scope Z_scope.

(** The SDK context: height, time (unix seconds), header hash, chain id, gas meter, the
    simulation limit when simulating, the transaction's gas prices, the chain's minimum prices. *)
Record cctx := CCtx { cx_height : Z; cx_time : Z; cx_hash : bytes; cx_chain : bytes; cx_meter : meter; cx_sim : option N;
                      cx_prices : option (list (text * Z)); cx_min : text -> Z }.
(** types.Fee: the contract is [None] when the denomination names none, and the decimals are 0 then
    (context_utils.go 19-39). *)
Record fee_token := FeeTok { ft_denom : text; ft_contract : option bytes; ft_dec : Z }.
Definition load_fee (denom : text) (contract : option bytes) (dec : bytes -> Z) : fee_token :=
  FeeTok denom contract (match contract with Some a => dec a | None => 0 end).

(** The instructions ORIGIN, GASPRICE, NUMBER, TIMESTAMP, CHAINID, BASEFEE, GASLIMIT, PREVRANDAO,
    COINBASE. *)
Record seen := Seen { o_origin : bytes; o_gasprice : Z; o_number : Z; o_timestamp : Z; o_chainid : Z; o_basefee : Z;
                      o_gaslimit : N; o_random : bytes; o_coinbase : bytes }.

(** GasPricesDecorator (gas_prices.go 20-43): outer [None] refuses the transaction, inner [None]
    leaves the context without prices. DecCoins.QuoDecTruncate drops zeros. *)
Definition ante_gas_prices (simulate : bool) (fees : list (text * Z)) (gas : N) : option (option (list (text * Z))) :=
  if simulate then Some None
  else if (gas =? 0)%N then None
  else Some (Some (List.filter (fun c => negb (snd c =? 0)) (map (fun c => (fst c, gas_price_of_fee (snd c) (Z.of_N gas))) fees))).
(** DecCoins.AmountOf *)
Fixpoint price_of (d : text) (l : list (text * Z)) : Z :=
  match l with [] => 0 | (d', p) :: l' => if bool_decide (d = d') then p else price_of d l' end.

Section see.
Variable keccak : bytes -> bytes.
(** context_utils.go 41-64 *)
Definition extract_gas_price (ft : fee_token) (c : cctx) : Z :=
  match ft_contract ft with
  | None => 0
  | Some _ =>
      match cx_prices c with
      | None => 0
      | Some ps => let p := price_of (ft_denom ft) ps in if p <=? 0 then 0 else gas_price_wei (ft_dec ft) p
      end
  end.
(** context_utils.go 66-78 *)
Definition base_fee (ft : fee_token) (c : cctx) : Z := gas_price_wei (ft_dec ft) (cx_min c (ft_denom ft)).
(** context.go 52-57, 120: an empty header hash is 32 zero bytes, a short one panics in the
    conversion to an array, of a long one the first 32 bytes count. *)
Definition random_of (h : bytes) : option bytes :=
  match h with [] => Some (repeat 0%N 32) | _ => if decide (length h < 32)%nat then None else Some (take 32 h) end.
(** context.go 52-151; the chain id: chain_config.go 13-31. *)
Definition see (ft : fee_token) (c : cctx) (caller : bytes) : option seen :=
  r ← random_of (cx_hash c);
  Some (Seen caller (extract_gas_price ft c) (cx_height c) (cx_time c mod 2 ^ 64) (eth_chain_id keccak (cx_chain c))
             (base_fee ft c) (compute_gas_limit (cx_sim c) (cx_meter c)) r (repeat 0%N 20)).
End see.
