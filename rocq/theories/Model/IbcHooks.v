(** IBC hooks: app/ibc-hooks (hooks.go, receive.go, ack.go, timeout.go, util.go).

    The chain's store, the transfer application below the hooks and the EVM are arbitrary: they
    are the functions of [hchain]. The text of a memo is decoded by an arbitrary function; only
    its result matters (util.go 53-82). ABI encoding of the calls is symbolic. Log lines and
    events are left out. ICS-20 and ICS-721 handling, two copies of the same code
    (receive.go 25-77 / 111-167, ack.go 16-90 / 92-166, timeout.go 17-91 / 93-167), is modelled once, with
    the items to approve as the difference. *)
From Verif.Base Require Import Prelude Hex.
Open Scope N_scope.

(** channeltypes.Packet, the parts used. *)
Record hpacket := HPacket {
  hp_src_port : text; hp_src_chan : text; hp_dst_port : text; hp_dst_chan : text;
  hp_data : bytes }.
(** What is transferred: a fungible amount (decimal text) or tokens of a class. *)
Inductive hpayload := HFungible (denom amount : text) | HNfts (class : text) (ids : list text).
(** FungibleTokenPacketData / NonFungibleTokenPacketData. *)
Record hdata := HData { hd_payload : hpayload; hd_sender : text; hd_receiver : text; hd_memo : text }.
(** Input of an EVM call. *)
Inductive hinput :=
  | IMemo (input : text)                       (* the hex text of the memo's message *)
  | IApprove (spender : bytes) (amount : N)     (* approve(spender, amount or token id) *)
  | IAck (id : N) (success : bool)              (* ibc_ack(id, success) *)
  | ITimeout (id : N).                          (* ibc_timeout(id) *)
(** evmtypes.MsgCall, and AsyncCallback (message.go 33-37). *)
Record hmsg := HMsg { hm_sender : text; hm_contract : text; hm_input : hinput }.
Record hcallback := HCallback { hc_id : N; hc_contract : text }.
(** validateAndParseMemo (util.go 53-82): whether the key "evm" is there; the decoded message and
    callback (which may be there although decoding reported an error); whether it did. *)
Record hmemo := HMemo { hk_routed : bool; hk_message : option hmsg; hk_callback : option hcallback; hk_err : bool }.

Inductive hack := AckResult (b : bytes) | AckError (why : text).
Definition ack_success (a : hack) : bool := match a with AckResult _ => true | AckError _ => false end.

(** A store and the gas left; a run that panics leaves nothing. *)
Record hworld {S : Type} := HWorld { hw_store : S; hw_gas : N }.
Arguments hworld : clear implicits.
Arguments HWorld {_}.
Inductive houtcome (S A : Type) := HRet (a : A) (w : hworld S) | HPanic.
Arguments HRet {_ _}. Arguments HPanic {_ _}.
(** What happens outside the hooks, in order. *)
Inductive hevent := EvApp (p : hpacket) | EvCall (m : hmsg).

(** The surroundings. *)
Record hchain (S : Type) := HChain {
  (* the application below: receive (None: the acknowledgement comes later), acknowledge, time out *)
  ch_recv : hworld S → hpacket → houtcome S (option hack);
  ch_ack : hworld S → hpacket → bytes → houtcome S bool;
  ch_timeout : hworld S → hpacket → houtcome S bool;
  (* evmMsgServer.Call: true when no error; the store may be dirty when there is one *)
  ch_call : hworld S → hmsg → houtcome S bool;
  (* im.HooksKeeper.GetAllowed; None: error *)
  ch_allowed : S → bytes → option bool;
  (* evmKeeper.GetContractAddrByDenom / GetContractAddrByClassId *)
  ch_token : S → text → option bytes;
  ch_class : S → text → option bytes;
  (* the address codec (bech32), decoding of packets and memos, amounts, token ids, hashes *)
  ch_bech32 : text → option bytes;
  ch_decode_recv : hpacket → option hdata;
  ch_decode_ack : hpacket → option hdata;
  ch_encode : hpacket → hdata → bytes;
  ch_memo : text → hmemo;
  ch_amount : text → option N;
  ch_token_id : text → text → option N;
  ch_ibc_denom : text → text;
  ch_ibc_class : text → text;
  ch_address_hash : text → text → text;
  ch_ack_error : bytes → bool }.
Arguments ch_recv {_}. Arguments ch_ack {_}. Arguments ch_timeout {_}. Arguments ch_call {_}.
Arguments ch_allowed {_}. Arguments ch_token {_}. Arguments ch_class {_}. Arguments ch_bech32 {_}.
Arguments ch_decode_recv {_}. Arguments ch_decode_ack {_}. Arguments ch_encode {_}. Arguments ch_memo {_}.
Arguments ch_amount {_}. Arguments ch_token_id {_}. Arguments ch_ibc_denom {_}. Arguments ch_ibc_class {_}.
Arguments ch_address_hash {_}. Arguments ch_ack_error {_}.

Section hooks.
Context {S : Type} (C : hchain S).
Notation world := (hworld S).

(** x/evm/types/address.go 34-44 ContractAddressFromString. *)
Definition contract_address (t : text) : option bytes :=
  if is_hex_address t then Some (hex_to_address t)
  else to_fixed 20 <$> ch_bech32 C t.

(** hooks.go 80-87 checkACL. *)
Definition check_acl (s : S) (contract : text) : option bool :=
  a ← contract_address contract; ch_allowed C s a.

(** util.go 29-33 DeriveIntermediateSender: a hash of "channel/sender" under a fixed prefix. *)
Definition sender_prefix : text := txt "ibc-evm-hook-intermediary".
Definition intermediate_sender (channel sender : text) : text :=
  ch_address_hash C sender_prefix (channel ++ [47] ++ sender).

(** util.go 126-152 LocalDenom, 154-180 LocalClassId; [ch_ibc_denom] is
    ParseDenomTrace(...).IBCDenom(), which for a native name is the name. *)
Definition port_channel (port chan : text) : text := port ++ [47] ++ chan ++ [47].
Definition local_name (name : text → text) (p : hpacket) (t : text) : text :=
  let voucher := port_channel (hp_src_port p) (hp_src_chan p) in
  if decide (voucher `prefix_of` t) then name (drop (length voucher) t)
  else name (port_channel (hp_dst_port p) (hp_dst_chan p) ++ t).

(** One approval to be given: the token contract's name is looked up, the amount or id parsed,
    at the time of the call (receive.go 79-109, 174-202). *)
Inductive hitem := ItAmount (denom amount : text) | ItToken (class id : text).
Definition items_of (p : hpacket) (pl : hpayload) : list hitem :=
  match pl with
  | HFungible d a => [ItAmount (local_name (ch_ibc_denom C) p d) a]
  | HNfts c ids => ItToken (local_name (ch_ibc_class C) p c) <$> ids
  end.
Definition zero_ck : bytes → nat → bool := λ _ _, false.
Definition approve_msg (s : S) (sender : text) (spender : bytes) (it : hitem) : option hmsg :=
  match it with
  | ItAmount denom amount =>
    amt ← ch_amount C amount; tok ← ch_token C s denom;
    Some (HMsg sender (address_hex zero_ck tok) (IApprove spender amt))
  | ItToken class id =>
    tid ← ch_token_id C class id; tok ← ch_class C s class;
    Some (HMsg sender (address_hex zero_ck tok) (IApprove spender tid))
  end.
(** The approvals one after the other; false when one fails. *)
Fixpoint approve_all (w : world) (sender : text) (spender : bytes) (its : list hitem) :
    houtcome S bool * list hevent :=
  match its with
  | [] => (HRet true w, [])
  | it :: its' =>
    match approve_msg (hw_store w) sender spender it with
    | None => (HRet false w, [])
    | Some m =>
      match ch_call C w m with
      | HPanic => (HPanic, [EvCall m])
      | HRet false w' => (HRet false w', [EvCall m])
      | HRet true w' => let '(o, t) := approve_all w' sender spender its' in (o, EvCall m :: t)
      end
    end
  end.

Definition hook_error : hack := AckError (txt "ibc evm hook error").
(** receive.go 25-77, 111-167. [None]: the acknowledgement comes later. *)
Definition on_recv (w : world) (p : hpacket) (d : hdata) : houtcome S (option hack) * list hevent :=
  let m := ch_memo C (hd_memo d) in
  match hk_routed m, hk_message m with
  | true, Some msg =>
    if hk_err m then (HRet (Some hook_error) w, [])
    else match check_acl (hw_store w) (hm_contract msg) with
    | None | Some false => (HRet (Some hook_error) w, [])
    | Some true =>
      if negb (bool_decide (hd_receiver d = hm_contract msg)) then (HRet (Some hook_error) w, [])
      else
        let inter := intermediate_sender (hp_dst_chan p) (hd_sender d) in
        let d' := HData (hd_payload d) (hd_sender d) inter (hd_memo d) in
        let p' := HPacket (hp_src_port p) (hp_src_chan p) (hp_dst_port p) (hp_dst_chan p) (ch_encode C p d') in
        match ch_recv C w p' with
        | HPanic => (HPanic, [EvApp p'])
        | HRet None _ => (HPanic, [EvApp p'])        (* ack.Success() of a nil acknowledgement *)
        | HRet (Some ack) w1 =>
          if negb (ack_success ack) then (HRet (Some ack) w1, [EvApp p'])
          else
            let '(o, t) := approve_all w1 inter (hex_to_address (hm_contract msg)) (items_of p (hd_payload d)) in
            match o with
            | HPanic => (HPanic, EvApp p' :: t)
            | HRet false w2 => (HRet (Some hook_error) w2, EvApp p' :: t)
            | HRet true w2 =>
              let call := HMsg inter (hm_contract msg) (hm_input msg) in
              match ch_call C w2 call with
              | HPanic => (HPanic, EvApp p' :: t ++ [EvCall call])
              | HRet false w3 => (HRet (Some hook_error) w3, EvApp p' :: t ++ [EvCall call])
              | HRet true w3 => (HRet (Some ack) w3, EvApp p' :: t ++ [EvCall call])
              end
            end
        end
    end
  | _, _ => (ch_recv C w p, [EvApp p])
  end.
(** hooks.go 44-54 OnRecvPacketOverride. *)
Definition recv_override (w : world) (p : hpacket) : houtcome S (option hack) * list hevent :=
  match ch_decode_recv C p with
  | Some d => on_recv w p d
  | None => (ch_recv C w p, [EvApp p])
  end.

(** The callback of ack.go 28-89 and timeout.go 28-90, after the application accepted: on a cache
    context, written only when the call succeeded. The gas meter is shared. *)
Definition callback (w : world) (p : hpacket) (d : hdata) (input : N → hinput) : houtcome S bool * list hevent :=
  let m := ch_memo C (hd_memo d) in
  match hk_routed m, hk_callback m with
  | true, Some cb =>
    if hk_err m then (HRet true w, [])
    else match check_acl (hw_store w) (hc_contract cb) with
    | None | Some false => (HRet true w, [])
    | Some true =>
      let call := HMsg (hd_sender d) (hc_contract cb) (input (hc_id cb)) in
      match ch_call C w call with
      | HPanic => (HPanic, [EvCall call])
      | HRet true w' => (HRet true w', [EvCall call])
      | HRet false w' => (HRet true (HWorld (hw_store w) (hw_gas w')), [EvCall call])
      end
    end
  | _, _ => (HRet true w, [])
  end.
(** hooks.go 56-66, ack.go: false is a returned error. *)
Definition ack_override (w : world) (p : hpacket) (ack : bytes) : houtcome S bool * list hevent :=
  match ch_ack C w p ack with
  | HPanic => (HPanic, [EvApp p])
  | HRet false w1 => (HRet false w1, [EvApp p])
  | HRet true w1 =>
    match ch_decode_ack C p with
    | None => (HRet true w1, [EvApp p])
    | Some d =>
      let '(o, t) := callback w1 p d (λ id, IAck id (negb (ch_ack_error C ack))) in (o, EvApp p :: t)
    end
  end.
(** hooks.go 68-78, timeout.go. *)
Definition timeout_override (w : world) (p : hpacket) : houtcome S bool * list hevent :=
  match ch_timeout C w p with
  | HPanic => (HPanic, [EvApp p])
  | HRet false w1 => (HRet false w1, [EvApp p])
  | HRet true w1 =>
    match ch_decode_ack C p with
    | None => (HRet true w1, [EvApp p])
    | Some d => let '(o, t) := callback w1 p d ITimeout in (o, EvApp p :: t)
    end
  end.

(** ** The relayer's transaction around it (ibc-go v8 core/keeper/msg_server.go RecvPacket,
    Acknowledgement, Timeout; baseapp runTx)

    Receiving runs on a cache context written unless the acknowledgement is an error; an error of
    the acknowledgement or timeout callback, and a panic, fail the transaction, whose store effects
    are dropped. [post] is the gas the rest of the transaction needs (at least the post handler,
    app/posthandler/gasrefund.go 30-77). *)
Inductive htx := TxFailed | TxDone (s : S) (ack : option hack).
Definition charge (post : N) (w : world) (ack : option hack) : htx :=
  if hw_gas w <? post then TxFailed else TxDone (hw_store w) ack.
Definition recv_tx (post : N) (w : world) (p : hpacket) : htx :=
  match fst (recv_override w p) with
  | HPanic => TxFailed
  | HRet (Some (AckError e)) w' => charge post (HWorld (hw_store w) (hw_gas w')) (Some (AckError e))
  | HRet ack w' => charge post w' ack
  end.
Definition ack_tx (post : N) (w : world) (p : hpacket) (ack : bytes) : htx :=
  match fst (ack_override w p ack) with
  | HRet true w' => charge post w' None
  | _ => TxFailed
  end.
Definition timeout_tx (post : N) (w : world) (p : hpacket) : htx :=
  match fst (timeout_override w p) with
  | HRet true w' => charge post w' None
  | _ => TxFailed
  end.
End hooks.
Arguments TxFailed {_}. Arguments TxDone {_}.
