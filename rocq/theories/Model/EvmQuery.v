(** The EVM module's gRPC queries (x/evm/keeper/query_server.go) other than the run of
    Query.Call, eth_getStorageAt and eth_getCode on top of them (jsonrpc/backend/eth.go
    106-152, jsonrpc/namespaces/eth/api.go), and net_version (jsonrpc/backend/net.go).

    Contract storage and code are those the state database shows on the committed state
    (C04, C12): functions of address and slot. Which block's state is read is C82. *)
From Verif.Base Require Import Prelude Hex.
From Verif.Model Require Import EthTx Token Bank.

Section queries.
(** The EIP-55 letter case and the bech32 codec. *)
Variable ck : bytes → nat → bool.
Variable bech_dec : text → option bytes.
(** Storage and code of the state the query reads. *)
Variable slot : bytes → bytes → bytes.
Variable code : bytes → bytes.
(** The token part of the same state. *)
Variable w : world.

(** query_server.go 106-122, Code *)
Definition q_code (contract : text) : option text :=
  a ← contract_address bech_dec contract; Some (hexutil_encode (code a)).
(** query_server.go 124-145, State: common.BytesToHash keeps the last 32 bytes of the key *)
Definition q_state (contract key : text) : option text :=
  a ← contract_address bech_dec contract; k ← hexutil_decode key; Some (hash_hex (slot a (to_fixed 32 k))).
(** query_server.go 171-181, ContractAddrByDenom *)
Definition q_contract_by_denom (d : text) : option text :=
  c ← denom_to_contract w d; Some (address_hex ck c).
(** query_server.go 183-196, Denom *)
Definition q_denom (contract : text) : option text :=
  a ← contract_address bech_dec contract; Some (contract_to_denom ck w a).

(** api.go 449-469, decodeHash: optional prefix, odd numbers of digits padded, at most 32
    bytes. *)
Definition decode_hash (t : text) : option bytes :=
  let s := strip0x t in
  b ← hex_dec (if Nat.odd (length s) then 48%N :: s else s);
  if (32 <? length b)%nat then None else Some (to_fixed 32 b).
(** eth.go 106-126 with api.go 262-269: hexutil.MustDecode panics on an error ([None] too). *)
Definition get_storage_at (a : bytes) (key : text) : option bytes :=
  k ← decode_hash key; v ← q_state (address_hex ck a) (hash_hex k); hexutil_decode v.
(** eth.go 128-152 *)
Definition get_code (a : bytes) : option bytes :=
  v ← q_code (address_hex ck a); hexutil_decode v.

(** query_server.go 39-47: the account Query.Call runs as *)
Definition q_call_sender (sender : text) : option bytes :=
  match sender with [] => Some (replicate 20 0%N) | _ => to_fixed 20 <$> bech_dec sender end.
(** msg_server.go 159-181: the account MsgCall runs as, on the account table [m] *)
Definition msg_call_sender (m : accounts) (n : N) (sender : text) : option bytes :=
  a ← bech_dec sender; r ← convert_to_evm m n a true; Some r.1.1.
End queries.

(** ** net_version (net.go 13-29) *)
(** strings.Split by "-" (45), the last item: the text after the last dash. *)
Fixpoint last_item (t : text) : text :=
  match t with
  | [] => []
  | c :: t' => if existsb (N.eqb 45) t' then last_item t' else if (c =? 45)%N then t' else t
  end.
(** strconv.Atoi without error: an optional sign, at least one digit, and a value that fits
    in 64 bits. *)
Definition digit (c : N) : option N := if ((48 <=? c) && (c <=? 57))%N then Some (c - 48)%N else None.
Fixpoint digits (acc : N) (t : text) : option N :=
  match t with [] => Some acc | c :: t' => d ← digit c; digits (acc * 10 + d)%N t' end.
Definition atoi_ok (t : text) : bool :=
  let neg := match t with c :: _ => (c =? 45)%N | [] => false end in
  let s := match t with c :: t' => if ((c =? 43) || (c =? 45))%N then t' else t | [] => [] end in
  match s with
  | [] => false
  | _ => match digits 0 s with
         | Some v => if neg then (v <=? 2 ^ 63)%N else (v <? 2 ^ 63)%N
         | None => false
         end
  end.
Definition net_version (chain_id : text) : text :=
  let v := last_item chain_id in if atoi_ok v then v else txt "1".
