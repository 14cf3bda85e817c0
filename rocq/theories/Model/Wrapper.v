(** The wrapping contract, x/evm/contracts/erc20_wrapper/ERC20Wrapper.sol (the
    deployed bytecode is compiled from it), on top of the token model.

    Simplifications: events and the names and symbols of the wrapped tokens are left
    out; a zero address in the two mappings is an absent entry; decimals() is a fixed
    function of the contract (the provided tokens never change it). Calls of the
    wrapper into origin tokens of unknown code are given by [Spec/WrapperSpec.v]. *)
From Verif.Base Require Import Prelude Hex Dec Json.
From Verif.Model Require Import Token Bank.
Open Scope Z_scope.

(** ** The IBC transfer message (ibc-go MsgTransfer), as far as it moves tokens. *)
Record imsg := IMsg {
  im_port : text; im_channel : text; im_denom : text; im_amount : Z;
  im_sender : text; im_receiver : text; im_memo : text }.

Definition transfer_type : text := txt "/ibc.applications.transfer.v1.MsgTransfer".

(** The JSON names of the fields of MsgTransfer, Coin and Height. *)
Definition msg_fields : list text := txt <$>
  ["@type"; "source_port"; "source_channel"; "token"; "sender"; "receiver";
   "timeout_height"; "timeout_timestamp"; "memo"]%string.
Definition coin_fields : list text := txt <$> ["denom"; "amount"]%string.
Definition height_fields : list text := txt <$> ["revision_number"; "revision_height"]%string.

(** Unknown fields are an error unless the decoder is lenient (jsonpb,
    AllowUnknownFields). *)
Definition fields_ok (strict : bool) (known : list text) (l : list (text * json)) : bool :=
  negb strict || forallb (fun '(k, _) => bool_decide (k ∈ known)) l.

(** A string field; the zero value when absent. *)
Definition jstr (k : text) (l : list (text * json)) : option text :=
  match jget k l with
  | None => Some []
  | Some (JStr s) => Some s
  | Some (JObj _) => None
  end.
(** A uint64 field, written as a string. *)
Definition ju64 (k : text) (l : list (text * json)) : option N :=
  match jget k l with
  | None => Some 0%N
  | Some (JStr s) => n ← dec_parse s; if (n <? two64)%N then Some n else None
  | Some (JObj _) => None
  end.
Definition jheight (strict : bool) (k : text) (l : list (text * json)) : option unit :=
  match jget k l with
  | None => Some tt
  | Some (JObj h) =>
      if fields_ok strict height_fields h
      then _ ← ju64 (txt "revision_number") h; _ ← ju64 (txt "revision_height") h; Some tt
      else None
  | Some (JStr _) => None
  end.
Definition jcoin (strict : bool) (k : text) (l : list (text * json)) : option (text * Z) :=
  match jget k l with
  | Some (JObj c) =>
      if fields_ok strict coin_fields c
      then d ← jstr (txt "denom") c; a ← jstr (txt "amount") c; n ← dec_parse a; Some (d, Z.of_N n)
      else None
  | _ => None
  end.

(** cosmos/contract.go 205-240, execute_cosmos: codec.UnmarshalInterfaceJSON of the
    text, for messages of type MsgTransfer. A message without an amount is refused
    here rather than by its validation. *)
Definition decode_transfer (strict : bool) (t : text) : option imsg :=
  j ← json_first t;
  match j with
  | JStr _ => None
  | JObj l =>
      ty ← jstr (txt "@type") l;
      if bool_decide (ty = transfer_type) && fields_ok strict msg_fields l then
        p ← jstr (txt "source_port") l;
        ch ← jstr (txt "source_channel") l;
        '(d, a) ← jcoin strict (txt "token") l;
        s ← jstr (txt "sender") l;
        r ← jstr (txt "receiver") l;
        _ ← jheight strict (txt "timeout_height") l;
        _ ← ju64 (txt "timeout_timestamp") l;
        m ← jstr (txt "memo") l;
        Some (IMsg p ch d a s r m)
      else None
  end.

(** ** The contract *)

Record wenv := WEnv {
  we_env : env;
  we_ck : bytes → nat → bool;              (* EIP-55 letter case *)
  we_self : bytes;                         (* the wrapper's address *)
  we_self_text : text;                     (* its bech32 form, to_cosmos_address *)
  we_of_text : text → option bytes;        (* the address codec, for the signer *)
  we_strict : bool;                        (* the decoder refuses unknown fields *)
  we_accept : imsg → bool;                 (* what else IBC asks of a transfer: channel, timeout, receiver *)
  we_escrow : text → text → bytes;         (* escrow account of a port and channel *)
  we_decimals : bytes → Z }.               (* decimals() of a token *)

Record wst := WSt {
  ws_w : world;
  ws_wrapped : gmap bytes bytes;           (* wrappedTokens: origin -> wrapped *)
  ws_origin : gmap bytes bytes;            (* originTokens: wrapped -> origin *)
  ws_id : N;                               (* callBackId *)
  ws_cb : gmap N (bytes * text * Z);       (* ibcCallBack: sender, denomination, amount *)
  ws_q : list imsg }.                      (* messages waiting for the end of the execution *)

Definition put_w (s : wst) (w : world) : wst :=
  WSt w (ws_wrapped s) (ws_origin s) (ws_id s) (ws_cb s) (ws_q s).

(** WRAPPED_DECIMAL, line 26. *)
Definition wrapped_decimals : Z := 6.

(** 145-160, _convertDecimal; [None] is a revert (overflow, or nothing left). *)
Definition convert_decimal (amount d d' : Z) : option Z :=
  let check v := if v =? 0 then None else Some v in
  if d' <? d then
    let f := 10 ^ (d - d') in
    if f <? two256 then check (amount / f) else None
  else if d <? d' then
    let f := 10 ^ (d' - d) in
    if (f <? two256) && (amount * f <? two256) then check (amount * f) else None
  else check amount.

(** A call the wrapper makes: a revert inside reverts the whole execution. *)
Definition wcall (V : wenv) (s : wst) (c : bytes) (o : op) : option wst :=
  let '(ok, w') := call_tok (we_env V) (ws_w s) c (we_self V) o in
  if ok then Some (put_w s w') else None.

(** 134-141, the creating branch of _ensureWrappedTokenExists. *)
Definition create_wrapped (V : wenv) (s : wst) (tok : bytes) : option wst :=
  '(c, w1) ← factory_create (we_env V) (ws_w s) (we_self V);
  Some (WSt w1 (<[tok := c]> (ws_wrapped s)) (<[c := tok]> (ws_origin s)) (ws_id s) (ws_cb s) (ws_q s)).

(** 133-143, _ensureWrappedTokenExists. *)
Definition ensure_wrapped (V : wenv) (s : wst) (tok : bytes) : option wst :=
  match ws_wrapped s !! tok with
  | Some _ => Some s
  | None => create_wrapped V s tok
  end.

(** 162-203, _ibc_transfer: the message, assembled from its parts. *)
Definition ibc_text (channel denom amount self receiver timeout id addr : text) : text :=
  txt "{""@type"": ""/ibc.applications.transfer.v1.MsgTransfer"","
  ++ txt """source_port"": ""transfer"","
  ++ txt """source_channel"": """ ++ channel ++ txt ""","
  ++ txt """token"": { ""denom"": """ ++ denom ++ txt """,""amount"": """ ++ amount ++ txt """},"
  ++ txt """sender"": """ ++ self ++ txt ""","
  ++ txt """receiver"": """ ++ receiver ++ txt ""","
  ++ txt """timeout_height"": {""revision_number"": ""0"",""revision_height"": ""0""},"
  ++ txt """timeout_timestamp"": """ ++ timeout ++ txt ""","
  ++ txt """memo"": """","
  ++ txt """async_callback"": {""id"": """ ++ id ++ txt """,""contract_address"": """ ++ addr ++ txt """}}".

Definition transfer_text (V : wenv) (s : wst) (channel : text) (c : bytes) (v : Z) (timeout : N) (receiver : text) : text :=
  ibc_text channel (contract_to_denom (we_ck V) (ws_w s) c) (dec_of (Z.to_N v)) (we_self_text V)
           receiver (dec_of timeout) (dec_of (ws_id s)) (hexutil_encode (we_self V)).

(** execute_cosmos (cosmos/contract.go 205-240): decode, every signer is the caller,
    append to the queue. *)
Definition execute_cosmos (V : wenv) (s : wst) (t : text) : option wst :=
  m ← decode_transfer (we_strict V) t;
  if bool_decide (we_of_text V (im_sender m) = Some (we_self V))
  then Some (WSt (ws_w s) (ws_wrapped s) (ws_origin s) (ws_id s) (ws_cb s) (ws_q s ++ [m]))
  else None.

(** 59-82: the rest of wrap once the origin tokens are locked and the amount [v] of
    wrapped tokens is known. *)
Definition finish_wrap (V : wenv) (s : wst) (sender : bytes) (channel : text) (tok : bytes)
    (receiver : text) (v : Z) (timeout : N) : option wst :=
  c ← ws_wrapped s !! tok;
  s1 ← wcall V s c (OMint (we_self V) v);
  if (ws_id s1 + 1 <? two64)%N then
    let id := (ws_id s1 + 1)%N in
    let s2 := WSt (ws_w s1) (ws_wrapped s1) (ws_origin s1) id
                  (<[id := (sender, contract_to_denom (we_ck V) (ws_w s1) c, v)]> (ws_cb s1)) (ws_q s1) in
    execute_cosmos V s2 (transfer_text V s2 channel c v timeout receiver)
  else None.

(** 43-82, wrap, for an origin token that is one of the provided contracts. *)
Definition wrap (V : wenv) (s : wst) (sender : bytes) (channel : text) (tok : bytes)
    (receiver : text) (amount : Z) (timeout : N) : option wst :=
  s1 ← ensure_wrapped V s tok;
  s2 ← wcall V s1 tok (OTransferFrom sender (we_self V) amount);
  v ← convert_decimal amount (we_decimals V tok) wrapped_decimals;
  finish_wrap V s2 sender channel tok receiver v timeout.

(** 87-109, unwrap, for an origin token that is one of the provided contracts. *)
Definition unwrap (V : wenv) (s : wst) (sender : bytes) (denom : text) (receiver : bytes) (v : Z) : option wst :=
  c ← denom_to_contract (ws_w s) denom;
  o ← ws_origin s !! c;
  s1 ← wcall V s c (OBurnFrom sender v);
  a ← convert_decimal v wrapped_decimals (we_decimals V o);
  wcall V s1 o (OTransfer receiver a).

(** 124-131, _handleFailedIbcTransfer: an unknown id reads as empty strings and zeros. *)
Definition handle_failed (V : wenv) (s : wst) (sender : bytes) (id : N) : option wst :=
  let '(to, denom, v) := default (null_addr, [], 0) (ws_cb s !! id) in
  unwrap V s sender denom to v.

(** 111-116 *)
Definition ibc_ack (V : wenv) (s : wst) (sender : bytes) (id : N) (success : bool) : option wst :=
  if success then Some s else handle_failed V s sender id.
(** 118-120 *)
Definition ibc_timeout (V : wenv) (s : wst) (sender : bytes) (id : N) : option wst :=
  handle_failed V s sender id.

(** The first waiting message is executed (context.go 435-463): the transfer
    application moves the coin from the sender, which [execute_cosmos] checked to be
    the wrapper, to the escrow account of the channel. Vouchers, which it burns
    instead, are treated alike: they leave the wrapper. *)
Definition dispatch_one (V : wenv) (s : wst) : option wst :=
  match ws_q s with
  | [] => None
  | m :: q =>
      if we_accept V m then
        c ← denom_to_contract (ws_w s) (im_denom m);
        let '(ok, w') := call_tok (we_env V) (ws_w s) c chain_addr
                           (OSudoTransfer (we_self V) (we_escrow V (im_port m) (im_channel m)) (pack256 (im_amount m))) in
        if ok then Some (WSt w' (ws_wrapped s) (ws_origin s) (ws_id s) (ws_cb s) q) else None
      else None
  end.
