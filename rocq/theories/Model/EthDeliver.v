(** One Ethereum transaction, a call or a contract creation, from submission to its last effect:
    what the node makes of it
    (ConvertEthereumTxToCosmosTx, Model/EthTx.v), the ante handler (app/ante/ante.go 77-96: gas
    prices, fee, signatures, sequences), the message server (x/evm/keeper/msg_server.go 28-83,
    158-196, Create and Call) with the EVM run (Model/CallTree.v), and the post handler (app/posthandler/gasrefund.go,
    sequence.go), inside baseapp.runTx (Model/RunTx.v).

    Simplifications: senders of 20 bytes, which is what an Ethereum signature gives; constructors
    that destroy the contract they make, or that catch a failure (which can lose the contract and
    the sender's nonce, see C115), are not described (the theorems exclude them); the fee payer is the signer (ConvertEthereumTxToCosmosTx sets no
    other, txutils.go 150-180); gas is a parameter ([used]: what the meter shows after the
    message, [None]: more than the limit), whose arithmetic is C13, C14; keys and sequences live
    in the signature model's accounts, and accounts the EVM run makes join them when the next
    transaction starts ([sync]); [code_at] does not describe the token contracts; the block gas
    meter has room (see C100). *)
From Verif.Base Require Import Prelude Hex.
From Verif.Model Require Import Fees EthTx SigVerify Token Bank CallTree.
Local Open Scope Z_scope.

Record node := Node { nd_st : st; nd_accs : vaccs }.
Inductive receipt := Refused | Included (ok : bool) (n : node).
Inductive ran := MsgPanic | MsgErr | MsgOk (n : node).

Section deliver.
Variable keccak : bytes -> bytes.
Variable bech_dec : text -> option bytes.
Variable recover_addr : content -> N -> Z -> Z -> option bytes.
Variable key_addr : pubkey -> bytes.
Variable key_verify : pubkey -> bytes -> bytes -> bool.
Variable sign_bytes : Z -> bytes -> N -> N -> pubkey -> vtx -> option bytes.
Variable fee_denom : text.
Variable decimals : Z.
Variable chain : bytes.
Variable cost_k1 cost_r1 : N.
(** gas left for signature verification *)
Variable limit : N.
Variable E : env.
Variable B : bank_env.
(** the fee token's contract *)
Variable fee : bytes.
(** what the code at an address does with an input *)
Variable code_at : bytes -> bytes -> prog.
(** params.GasRefundRatio *)
Variable ratio : Z.
(** params.AllowedPublishers *)
Variable publishers : list text.
(** crypto.CreateAddress *)
Variable create_addr : bytes -> N -> bytes.
(** what init code does, run at an address *)
Variable init_of : bytes -> bytes -> prog.

(** The wire form of a converted transaction: the key is the recovered public key, the signer the
    message's sender (txutils.go 118-180). *)
Definition wire (pk : pubkey) (rest : bytes) (x : cosmos_tx) : vtx :=
  VTx (c_msgs x) (c_memo x)
      (map (fun sg => VSig (Some pk) (match s_data sg with Some (m, b) => SSingle m b | None => SMulti [] [] end) (s_seq sg)) (c_sigs x))
      (c_fee x) (c_gas x) (map (fun _ => key_addr pk) (c_sigs x)) rest.

Definition st_world (w : world) (s : st) : st := St w (s_sto s) (s_log s).

(** DeductFeeDecorator (SDK, called at app/ante/fee.go 46-66): the fee goes to the fee collector. *)
Definition coins_of (l : list (text * Z)) : list coin := map (fun c => Coin (fst c) (snd c)) l.
Definition pay_fee (x : vtx) (payer : bytes) (w : world) : option world :=
  match v_fee x with
  | [] => Some w
  | l => let '(ok, w') := b_send_to_module B w payer (be_fee_collector B) (coins_of l) in
         if ok then Some w' else None
  end.

(** SetSequence(GetSequence()+d) *)
Definition next_seq (m : vaccs) (a : bytes) : vaccs :=
  alter (fun c => VAcc (a_key c) (u64 (a_seq c + 1)) (a_num c)) a m.
Definition prev_seq (m : vaccs) (a : bytes) : vaccs :=
  alter (fun c => VAcc (a_key c) (u64_sub (a_seq c) 1) (a_num c)) a m.
Definition call_senders (x : vtx) : list bytes :=
  match v_msgs x with
  | [CCall s _ _ _ _] | [CCreate s _ _ _] => match bech_dec s with Some a => [a] | None => [] end
  | _ => []
  end.
(** IncrementSequenceDecorator in delivery (app/ante/sigverify.go 224-284) *)
Definition ante_seqs (x : vtx) (m : vaccs) : vaccs :=
  fold_left prev_seq (call_senders x) (fold_left next_seq (v_signers x) m).

(** The ante handler; [None]: the transaction is refused. Gas 0: x/evm/ante/gas_prices.go 27-30. *)
Definition ante (x : vtx) (n : node) : option node :=
  if (v_gas x =? 0)%N then None else
  payer ← head (v_signers x);
  w1 ← pay_fee x payer (s_w (nd_st n));
  accs1 ← ante_sigs keccak bech_dec recover_addr key_addr key_verify sign_bytes fee_denom decimals chain
                    cost_k1 cost_r1 false false limit (nd_accs n) x;
  Some (Node (st_world w1 (nd_st n)) (ante_seqs x accs1)).

(** increaseNonce (msg_server.go 145-156) *)
Definition increase_nonce (m : vaccs) (a : bytes) : vaccs :=
  match m !! a with Some _ => next_seq m a | None => <[a := VAcc None 1 0]> m end.
(** Whether something is at an address where a contract is to be made (go-ethereum core/vm/evm.go,
    create: nonce, code; x/evm/state/statedb.go 698-723, GetStorageRoot: any account that is not
    empty, any stored slot, also one that holds zero). *)
Definition taken_addr (n : node) (y : bytes) : bool :=
  match nd_accs n !! y with
  | Some v => match a_key v with Some _ => true | None => negb (a_seq v =? 0)%N end
  | None => false
  end ||
  match w_code (s_w (nd_st n)) !! y with Some _ => true | None => false end ||
  match w_accts (s_w (nd_st n)) !! y with Some v => negb (is_empty_acct v) | None => false end ||
  existsb (fun e => bool_decide (fst (fst e) = y)) (map_to_list (s_sto (nd_st n))).
(** Create (msg_server.go 28-83), EVMCreate (context.go 320-418) and go-ethereum's EVM.create
    (balance, nonce, then the address): the new account has nonce 1 (EIP-158). *)
Definition exec_create (a : bytes) (sender code : text) (value : Z) (n : node) : ran :=
  match code with
  | [] => MsgErr
  | _ =>
      match hexutil_decode code with
      | None => MsgErr
      | Some bz =>
          if two256 <=? Z.abs value then MsgErr else
          if negb (bool_decide (publishers = []) || bool_decide (sender ∈ publishers)) then MsgErr else
          if negb (can_transfer (s_w (nd_st n)) fee a (pack256 value)) then MsgErr else
          let nonce := match nd_accs n !! a with Some v => a_seq v | None => 0%N end in
          if (nonce + 1 =? two64)%N then MsgErr else
          let accs1 := increase_nonce (nd_accs n) a in
          let y := create_addr a nonce in
          if taken_addr (Node (nd_st n) accs1) y then MsgErr else
          match deploy (s_w (nd_st n)) y CCustom with
          | None => MsgPanic
          | Some w1 =>
              match execute E fee (st_world w1) a y (pack256 value) (init_of y bz) (nd_st n) with
              | None => MsgPanic
              | Some (false, _) => MsgErr
              | Some (true, s') =>
                  let num := match nd_accs n !! y, w_accts w1 !! y with
                             | Some v, _ => a_num v
                             | None, Some v => ac_num v
                             | None, None => 0%N
                             end in
                  MsgOk (Node s' (<[y := VAcc None 1 num]> accs1))
              end
          end
      end
  end.
(** Call (msg_server.go 158-196) and EVMCall (context.go 252-315): an error of the EVM is an error
    of the message. *)
Definition exec (x : vtx) (n : node) : ran :=
  match v_msgs x with
  | [CCall sender caddr input value _] =>
      match bech_dec sender with
      | None => MsgErr
      | Some a =>
          let accs1 := increase_nonce (nd_accs n) a in
          match contract_address bech_dec caddr, hexutil_decode input with
          | Some to, Some data =>
              if two256 <=? Z.abs value then MsgErr else
              let body := match w_code (s_w (nd_st n)) !! to with None => PStop | Some _ => code_at to data end in
              match execute E fee (fun s => s) a to (pack256 value) body (nd_st n) with
              | None => MsgPanic
              | Some (false, _) => MsgErr
              | Some (true, s') => MsgOk (Node s' accs1)
              end
          | _, _ => MsgErr
          end
      end
  | [CCreate sender code value _] =>
      match bech_dec sender with
      | None => MsgErr
      | Some a => exec_create a sender code value n
      end
  | _ => MsgErr
  end.

(** GasRefundDecorator (app/posthandler/gasrefund.go 30-77); prices: x/evm/ante/gas_prices.go 33. *)
Definition refund_of (x : vtx) (used : N) : list coin :=
  let left := Z.of_N (u64_sub (v_gas x) (N.min used (v_gas x))) in
  List.filter (fun c => negb (c_amt c =? 0))
    (map (fun c => Coin (fst c) (refund_coin (gas_price_of_fee (snd c) (Z.of_N (v_gas x))) (refund_gas ratio left))) (v_fee x)).
Definition refund (x : vtx) (used : N) (n : node) : option node :=
  match is_eth key_addr fee_denom x with
  | None => None
  | Some false => Some n
  | Some true =>
      match refund_of x used with
      | [] => Some n
      | l => payer ← head (v_signers x);
             col ← fst <$> be_modules B !! be_fee_collector B;
             let '(ok, w') := k_send_coins (be_call B) (s_w (nd_st n)) col payer l in
             if ok then Some (Node (st_world w' (nd_st n)) (nd_accs n)) else None
      end
  end.
(** SequenceIncrementDecorator after a failed message (app/posthandler/sequence.go 22-80) *)
Definition post_failed (x : vtx) (n : node) : node := Node (nd_st n) (fold_left next_seq (call_senders x) (nd_accs n)).

(** There is one account store: an account made by a transfer (Token.v, [create_acct]) is one
    that can sign from then on. *)
Definition sync (n : node) : node :=
  Node (nd_st n) (nd_accs n ∪ ((fun a => VAcc None (ac_seq a) (ac_num a)) <$> w_accts (s_w (nd_st n)))).

(** baseapp.runTx (Model/RunTx.v); [keep]: the post handler's writes are kept after a failure. *)
Definition run_tx (x : vtx) (used : option N) (keep : bool) (n : node) : receipt :=
  match ante x n with
  | None => Refused
  | Some n1 =>
      match used with
      | None => Included false n1
      | Some g =>
          match exec x n1 with
          | MsgPanic => Included false n1
          | MsgErr => Included false (if keep then post_failed x n1 else n1)
          | MsgOk n2 => match refund x g n2 with
                        | Some n3 => Included true n3
                        | None => Included false n1
                        end
          end
      end
  end.
Definition deliver (x : vtx) (used : option N) (keep : bool) (n : node) : receipt := run_tx x used keep (sync n).
End deliver.
