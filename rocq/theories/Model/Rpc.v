(** JSON-RPC state queries, eth_call, gas estimation and gas prices.
    jsonrpc/backend/{block,eth,gas,tx}.go, jsonrpc/types/transaction_args.go,
    x/evm/keeper/{query_server,msg_server}.go, app/ante/{ante,fee}.go. *)
From Verif.Base Require Import Prelude Hex.
From Verif.Model Require Import Fees EthTx.
Local Open Scope Z_scope.

(** ** Heights *)
(** What the backend sees of the node at one moment: [nd_status] is
    Status().SyncInfo.LatestBlockHeight (the height of CometBFT's block store),
    [nd_latest] the application's latest committed version (0 before the first block) and
    [nd_pruned] the number of versions, counted from version 1, that pruning has removed. *)
Record node := Node { nd_status : Z; nd_latest : Z; nd_pruned : Z }.
(** CometBFT stores block h before the application commits it, and starts block h+1 only
    after that. *)
Definition node_ok (n : node) : Prop :=
  0 ≤ nd_pruned n ∧ nd_pruned n < Z.max 1 (nd_latest n) ∧ nd_latest n ≤ nd_status n ≤ nd_latest n + 1 ∧ nd_status n < 2 ^ 63.
(** A later moment. *)
Definition later (n m : node) : Prop := nd_status n ≤ nd_status m ∧ nd_latest n ≤ nd_latest m ∧ nd_pruned n ≤ nd_pruned m.

(** baseapp.CreateQueryContext(height, false): the version served. *)
Definition create_query_context (n : node) (h : Z) : option Z :=
  if h <? 0 then None else
  if nd_latest n =? 0 then None else
  if nd_latest n <? h then None else
  if h =? 0 then Some (nd_latest n) else
  if h <=? nd_pruned n then None else Some h.
(** int64(x) of a uint64 *)
Definition to_int64 (x : Z) : Z := if x <? 2 ^ 63 then x else x - 2 ^ 64.
(** uint64(x) of an int64 *)
Definition to_uint64 (x : Z) : Z := x mod 2 ^ 64.
(** getQueryCtxWithHeight (tx.go 118-129): Status is asked at [n], the context made at [m]. *)
Definition query_ctx_at (n m : node) (h : Z) : option Z :=
  create_query_context m (to_int64 (if nd_status n <=? h then 0 else h)).

(** rpc.BlockNumberOrHash: a hash, a number (negative numbers are the tags: pending -1,
    latest -2, finalized -3, safe -4; "earliest" is 0), or nothing. *)
Inductive block_ref := ByHash (h : bytes) | ByNumber (z : Z) | NoRef.
(** resolveBlockNrOrHash (block.go 25-46); [idx] is the indexer's BlockHashToNumber. *)
Definition resolve_ref (idx : bytes → option Z) (n : node) (r : block_ref) : option Z :=
  match r with
  | ByHash h => idx h
  | ByNumber z => Some (if z <? 0 then nd_status n else if z =? 0 then 1 else z)
  | NoRef => Some (nd_status n)
  end.

(** The version answered by eth_call, eth_getCode, eth_getStorageAt and eth_getBalance
    (eth.go 17-26, 46-62, 97-106, 120-129): block resolved at [n1], Status of
    getQueryCtxWithHeight at [n2], context made at [n3]. *)
Definition state_version (idx : bytes → option Z) (n1 n2 n3 : node) (r : block_ref) : option Z :=
  match resolve_ref idx n1 r with
  | Some h => query_ctx_at n2 n3 h
  | None => None
  end.

(** GetTransactionCount (tx.go 149-191): where the sequence is read. *)
Inductive count_source := FromCheckState | FromVersion (v : Z) | CountNull | CountError.
Definition count_source_of (idx : bytes → option Z) (n2 n3 : node) (r : block_ref) : count_source :=
  let at_number z :=
    if z =? -1 then FromCheckState
    else match query_ctx_at n2 n3 (if z <? 0 then 0 else z) with Some v => FromVersion v | None => CountError end in
  match r with
  | ByHash h => match idx h with Some z => at_number (to_int64 z) | None => CountNull end
  | ByNumber z => at_number z
  | NoRef => at_number 0
  end.

Section state.
(** The application state after each block, and what queries read of it. *)
Context {S : Type}.
Variable st : Z → S.
Variable fee_denom_of : S → text.
Variable decimals_of : S → text → option Z.
Variable balance_of : S → bytes → text → option Z.
Variable sequence_of : S → bytes → option N.
(** State of the mempool check at the moment of the request. *)
Variable check_state : S.

(** eth_getCode, eth_getStorageAt: any function [f] of the state. *)
Definition state_query {A} (idx : bytes → option Z) (n1 n2 n3 : node) (r : block_ref) (f : S → A) : option A :=
  f <$> (st <$> state_version idx n1 n2 n3 r).
(** eth_getBalance (eth.go 17-39): feeDenomWithDecimals (gas.go 96-116) asks for the fee
    denom at [n4] and for its decimals at [n5], in contexts of the latest version. *)
Definition get_balance (idx : bytes → option Z) (n1 n2 n3 n4 n5 : node) (r : block_ref) (a : bytes) : option Z :=
  v ← state_version idx n1 n2 n3 r;
  v4 ← create_query_context n4 0;
  v5 ← create_query_context n5 0;
  let denom := fee_denom_of (st v4) in
  d ← decimals_of (st v5) denom;
  b ← balance_of (st v) a denom;
  Some (to_ethers d b).
(** eth_getTransactionCount: [None] is an error, [Some None] the null answer. *)
Definition get_transaction_count (idx : bytes → option Z) (n2 n3 : node) (r : block_ref) (a : bytes) : option (option N) :=
  match count_source_of idx n2 n3 r with
  | FromCheckState => Some (Some (default 0%N (sequence_of check_state a)))
  | FromVersion v => Some (Some (default 0%N (sequence_of (st v) a)))
  | CountNull => Some None
  | CountError => None
  end.
End state.

(** ** Calls *)
(** common.Address{} *)
Definition zero_addr : bytes := replicate 20 0%N.

(** The top-level run handed to the EVM: EVMCallWithTracer and EVMCreateWithTracer
    (context.go 241-262, 333-371). A nil value becomes zero. [None] as salt: CREATE. *)
Inductive invocation :=
| InvCall (caller to : bytes) (input : bytes) (value : Z) (al : access_list)
| InvCreate (caller : bytes) (code : bytes) (value : Z) (salt : option N) (al : access_list).
(** uint256.FromBig: nil gives nil (used as zero), more than 256 bits overflows, and a
    negative number becomes its two's complement. *)
Definition u256_from_big (v : option Z) : option Z :=
  match v with
  | None => Some 0
  | Some z => if Z.abs z <? 2 ^ 256 then Some (z mod 2 ^ 256) else None
  end.

Section calls.
Variable bech_enc : bytes → text.
Variable bech_dec : text → option bytes.
Variable ck : bytes → nat → bool.

(** TransactionArgs (transaction_args.go 10-25): the fields it has; [a_input] is preferred
    to [a_data] (GetData, 36-44). *)
Record call_args := CallArgs { a_from : option bytes; a_to : option bytes; a_value : option Z;
                               a_nonce : option N; a_data : option bytes; a_input : option bytes }.
Definition get_data (a : call_args) : bytes := default (default [] (a_data a)) (a_input a).
Definition get_from (a : call_args) : bytes := default zero_addr (a_from a).

(** QueryCallRequest *)
Record call_request := CallReq { cr_sender : text; cr_contract : text; cr_input : text; cr_value : option Z }.
(** eth_call (eth.go 62-91) builds the request after CallDefaults. Value stays unset. *)
Definition eth_call_request (a : call_args) : call_request :=
  CallReq (bech_enc (get_from a))
          (match a_to a with Some t => address_hex ck t | None => [] end)
          (hexutil_encode (get_data a)) None.
(** Query.Call up to the EVM (query_server.go 39-87): the run it makes. *)
Definition query_invocation (q : call_request) : option invocation :=
  caller ← (match cr_sender q with [] => Some zero_addr | s => to_fixed 20 <$> bech_dec s end);
  to ← (match cr_contract q with [] => Some zero_addr | c => contract_address bech_dec c end);
  input ← hexutil_decode (cr_input q);
  value ← u256_from_big (cr_value q);
  Some (if bool_decide (to = zero_addr) then InvCreate caller input value None []
        else InvCall caller to input value []).
Definition eth_call_invocation (a : call_args) : option invocation := query_invocation (eth_call_request a).

(** MsgCall and MsgCreate/MsgCreate2 up to the EVM (msg_server.go 27-60, 92-118, 158-190),
    for senders of 20 bytes, which are their own EVM address. The nonce increase, the empty
    code check and the publisher list are not part of this function. MsgCall does not pass its
    access list on (190). *)
Definition msg_invocation (m : cmsg) : option invocation :=
  match m with
  | CCall sender caddr input value _ =>
      s ← bech_dec sender; to ← contract_address bech_dec caddr; i ← hexutil_decode input;
      v ← u256_from_big (Some value); Some (InvCall s to i v [])
  | CCreate sender code value al =>
      s ← bech_dec sender; c ← hexutil_decode code; v ← u256_from_big (Some value);
      Some (InvCreate s c v None (al_of_text al))
  | CCreate2 sender code value salt al =>
      s ← bech_dec sender; c ← hexutil_decode code; v ← u256_from_big (Some value);
      Some (InvCreate s c v (Some salt) (al_of_text al))
  | COther _ => None
  end.

(** eth_estimateGas (gas.go 37-62): the message that is simulated. *)
Definition estimate_msg (decimals : Z) (a : call_args) : cmsg :=
  let value := from_ethers decimals (default 0 (a_value a)) in
  match a_to a with
  | None => CCreate (bech_enc (get_from a)) (hexutil_encode (get_data a)) value []
  | Some t => CCall (bech_enc (get_from a)) (address_hex ck t) (hexutil_encode (get_data a)) value []
  end.
End calls.

(** ** Gas price (gas.go 118-142): the same computation as the block context's. *)
Definition eth_gas_price (d min_price : Z) : Z := gas_price_wei d min_price.
(** OPinit's CheckTxFeeWithMinGasPrices for the fee token (not in the repository): the fee
    must be at least the minimum price times the gas limit, rounded up. The price is a
    LegacyDec, i.e. scaled by 10^18. *)
Definition fee_accepted (min_price gas fee : Z) : bool := min_price * gas <=? fee * dec_one.

(** ** Gas before execution (app/ante/ante.go 80-100, app/ante/fee.go 37-60) *)
(** One decorator's work: gas it consumes from the meter of its context, and whether it then
    accepts. *)
Record work := Work { w_gas : N; w_ok : bool }.
(** A gas meter: [None] infinite. The consumed amount is kept separately. *)
Inductive ante_result := AnteOk (consumed : N) | AnteRefused (consumed : N) | AnteOutOfGas (consumed : N).
Definition meter_ok (limit : option N) (consumed : N) : bool :=
  match limit with Some l => (consumed <=? l)%N | None => true end.
(** A chain of decorators on one context. *)
Fixpoint run_work (limit : option N) (consumed : N) (ws : list work) : ante_result :=
  match ws with
  | [] => AnteOk consumed
  | w :: ws' =>
      let c := (consumed + w_gas w)%N in
      if negb (meter_ok limit c) then AnteOutOfGas c
      else if negb (w_ok w) then AnteRefused c
      else run_work limit c ws'
  end.
(** feeDeductionGasAmount (fee.go 13) *)
Definition fee_deduction_gas : N := 250000%N.
(** GasFreeFeeDecorator.AnteHandle with the decorators after it: DeductFeeDecorator calls
    [next], so [rest] runs on the context handed to it. [fees] are the coins of the fee. *)
Definition fee_step (limit : option N) (consumed : N) (simulate : bool) (fee_denom : option text)
    (fees : list (text * Z)) (deduct : work) (rest : list work) : ante_result :=
  let special := match fees, fee_denom with [(d, _)], Some f => bool_decide (d = f) | _, _ => false end in
  if special then
    match run_work None 0 (deduct :: rest) with
    | AnteOk _ => AnteOk consumed
    | AnteRefused _ => AnteRefused consumed
    | AnteOutOfGas _ => AnteOutOfGas consumed
    end
  else
    let c := if simulate && forallb (fun f => snd f =? 0) fees then (consumed + fee_deduction_gas)%N else consumed in
    if negb (meter_ok limit c) then AnteOutOfGas c else run_work limit c (deduct :: rest).
(** The whole chain: the decorators before the fee ([before], after SetUpContext made the
    meter), the fee, the decorators after it. SetUpContext gives an infinite meter in
    simulation. *)
Definition ante_run (gas : N) (simulate : bool) (fee_denom : option text) (fees : list (text * Z))
    (before : list work) (deduct : work) (rest : list work) : ante_result :=
  let limit := if simulate then None else Some gas in
  match run_work limit 0 before with
  | AnteOk c => fee_step limit c simulate fee_denom fees deduct rest
  | r => r
  end.

(** Execution of the message under a gas limit: contracts that do not look at the gas left
    succeed iff the gas given covers the highest point [peak] of their consumption; [refund]
    is the refund counter at the end (before the cap). Charged as in [evm_call_gas].
    eth_estimateGas reports the gas charged in simulation: ante plus execution. *)
Record exec_profile := Profile { x_peak : N; x_refund : N }.
Definition exec_charge (x : exec_profile) : N := (x_peak x - N.min (x_refund x) (x_peak x / 5))%N.
Definition estimate_gas (ante_gas : N) (x : exec_profile) : N := (ante_gas + exec_charge x)%N.
(** The transaction with gas limit [gas] has enough gas: what the ante handler took and the
    peak of the execution fit. *)
Definition enough_gas (gas ante_gas : N) (x : exec_profile) : bool := (ante_gas + x_peak x <=? gas)%N.
