(** Ethereum transactions inside Cosmos transactions.
    x/evm/keeper/txutils.go, x/evm/types/txutils.go, app/ante/verify.go,
    x/evm/types/chain_config.go, jsonrpc/types/tx.go, and the parts of go-ethereum's
    core/types (transaction_signing.go, transaction.go) they call. *)
From Verif.Base Require Import Prelude Hex.
From Verif.Model Require Import Fees.
Local Open Scope Z_scope.

(** Access list with binary fields (coretypes.AccessList). *)
Definition access_list := list (bytes * list bytes).
(** coretypes.TxData of the supported types. Blob transactions (and anything else) are
    [OtherTx]. Amounts are unbounded (big.Int). *)
Record common_fields := Com { f_nonce : N; f_gas : N; f_to : option bytes; f_value : Z; f_data : bytes }.
Inductive eth_tx :=
| LegacyTx (c : common_fields) (gas_price v r s : Z)
| AccessListTx (chain : Z) (c : common_fields) (gas_price : Z) (al : access_list) (v r s : Z)
| DynamicFeeTx (chain : Z) (c : common_fields) (tip fee : Z) (al : access_list) (v r s : Z)
| OtherTx (ty : N).

(** What a signature commits to (Signer.Hash of each signer, before hashing). *)
Inductive content :=
| SHomestead (c : common_fields) (gas_price : Z)
| SEip155 (chain : Z) (c : common_fields) (gas_price : Z)
| SAccess (chain : Z) (c : common_fields) (gas_price : Z) (al : access_list)
| SDynamic (chain : Z) (c : common_fields) (tip fee : Z) (al : access_list)
| SOther (ty : N).

(** Cosmos side. Memo: [None] if empty or not the expected JSON object; the fee caps are
    [None] when big.Int.SetString refuses them. *)
Record metadata := Meta { m_type : N; m_fee_cap : option Z; m_tip_cap : option Z }.
Definition text_access_list := list (text * list text).
Inductive cmsg :=
| CCall (sender caddr input : text) (value : Z) (al : text_access_list)
| CCreate (sender code : text) (value : Z) (al : text_access_list)
| CCreate2 (sender code : text) (value : Z) (salt : N) (al : text_access_list)
| COther (body : bytes).
(** [s_data] is [None] for a multi-signature. *)
Record csig := CSig { s_pub : bytes; s_data : option (Z * bytes); s_seq : N }.
Record cosmos_tx := CTx { c_msgs : list cmsg; c_memo : option metadata; c_sigs : list csig;
                          c_fee : list (text * Z); c_gas : N }.
(** txutils.go: SignMode_SIGN_MODE_ETHEREUM *)
Definition mode_ethereum : Z := 9999.

(** secp256k1 group order *)
Definition curve_n : Z := 0xFFFFFFFFFFFFFFFFFFFFFFFFFFFFFFFEBAAEDCE6AF48A03BBFD25E8CD0364141.

Section conv.
(** keccak256 *)
Variable keccak : bytes -> bytes.
(** EIP-55 case choice *)
Variable ck : bytes -> nat -> bool.
(** bech32 codec *)
Variable bech_enc : bytes -> text.
Variable bech_dec : text -> option bytes.
(** crypto.Ecrecover on the hash of a content: recovery id, r, s; and the address of a
    public key (PubKey.Address). *)
Variable recover : content -> N -> Z -> Z -> option bytes.
Variable pub_addr : bytes -> bytes.
(** params.FeeDenom and the decimals of that token *)
Variable fee_denom : text.
Variable decimals : Z.
(** Cosmos chain id *)
Variable cosmos_chain_id : bytes.

(** ConvertCosmosChainIDToEthereumChainID (chain_config.go:13-23) *)
Definition eth_chain_id : Z := Z.of_N (of_be (take 8 (keccak cosmos_chain_id))) mod 4503599627370476.

(** ** go-ethereum signers *)
(** isProtectedV (transaction.go): V other than 27, 28, 0, 1 *)
Definition protected (v : Z) : bool := negb ((v =? 27) || (v =? 28) || (v =? 0) || (v =? 1)).
(** deriveChainId: uint64 arithmetic when V fits in 64 bits, big integers otherwise *)
Definition derive_chain_id (v : Z) : Z :=
  if v <? 2 ^ 64 then if (v =? 27) || (v =? 28) then 0 else ((v - 35) mod 2 ^ 64) / 2 else (v - 35) / 2.
(** recoverPlain with homestead rules: V must be 27 or 28, r and s in range, s in the lower
    half *)
Definition recover_plain (ct : content) (v r s : Z) : option bytes :=
  if ((v =? 27) || (v =? 28)) && (1 <=? r) && (r <? curve_n) && (1 <=? s) && (s <=? curve_n / 2)
  then recover ct (Z.to_N (v - 27)) r s else None.
(** Signer.Hash content of the latest signer *)
Definition hash_content (chain : Z) (t : eth_tx) : content :=
  match t with
  | LegacyTx c p _ _ _ => SEip155 chain c p
  | AccessListTx _ c p al _ _ _ => SAccess chain c p al
  | DynamicFeeTx _ c tip fee al _ _ _ => SDynamic chain c tip fee al
  | OtherTx ty => SOther ty
  end.
(** Signer.Sender of LatestSignerForChainID: the recovered public key *)
Definition recover_sender (chain : Z) (t : eth_tx) : option bytes :=
  match t with
  | LegacyTx c p v r s =>
      if protected v then
        if derive_chain_id v =? chain then recover_plain (SEip155 chain c p) (v - 2 * chain - 8) r s else None
      else recover_plain (SHomestead c p) v r s
  | AccessListTx ch _ _ _ v r s | DynamicFeeTx ch _ _ _ _ v r s =>
      if ch =? chain then recover_plain (hash_content chain t) (v + 27) r s else None
  | OtherTx _ => None
  end.
Definition eth_sender (chain : Z) (t : eth_tx) : option bytes := pub_addr <$> recover_sender chain t.

(** ** Ethereum to Cosmos *)
(** ConvertEthAccessListToCosmos / ConvertCosmosAccessListToEth (types/txutils.go:8-43) *)
Definition al_to_text (al : access_list) : text_access_list :=
  map (fun e => (address_hex ck (fst e), map hash_hex (snd e))) al.
Definition al_of_text (al : text_access_list) : access_list :=
  map (fun e => (hex_to_address (fst e), map hex_to_hash (snd e))) al.

Definition tx_type (t : eth_tx) : N :=
  match t with LegacyTx _ _ _ _ _ => 0 | AccessListTx _ _ _ _ _ _ _ => 1 | DynamicFeeTx _ _ _ _ _ _ _ _ => 2 | OtherTx ty => ty end%N.
Definition tx_common (t : eth_tx) : option common_fields :=
  match t with LegacyTx c _ _ _ _ | AccessListTx _ c _ _ _ _ _ | DynamicFeeTx _ c _ _ _ _ _ _ => Some c | OtherTx _ => None end.
(** GasFeeCap(), GasTipCap(): the gas price for the older types *)
Definition fee_cap (t : eth_tx) : Z :=
  match t with LegacyTx _ p _ _ _ => p | AccessListTx _ _ p _ _ _ _ => p | DynamicFeeTx _ _ _ f _ _ _ _ => f | OtherTx _ => 0 end.
Definition tip_cap (t : eth_tx) : Z :=
  match t with LegacyTx _ p _ _ _ => p | AccessListTx _ _ p _ _ _ _ => p | DynamicFeeTx _ _ tip _ _ _ _ _ => tip | OtherTx _ => 0 end.
Definition tx_al (t : eth_tx) : access_list :=
  match t with AccessListTx _ _ _ al _ _ _ | DynamicFeeTx _ _ _ _ al _ _ _ => al | _ => [] end.
Definition tx_sig (t : eth_tx) : Z * Z * Z :=
  match t with LegacyTx _ _ v r s | AccessListTx _ _ _ _ v r s | DynamicFeeTx _ _ _ _ _ v r s => (v, r, s) | OtherTx _ => (0, 0, 0) end.

(** byte(x.Uint64()) of a big integer: the low byte of the absolute value *)
Definition low_byte (x : Z) : N := Z.to_N (Z.abs x mod 256).
(** The last signature byte (txutils.go:97-104) *)
Definition sig_v (chain : Z) (t : eth_tx) : option N :=
  match t with
  | LegacyTx _ _ v _ _ => Some (low_byte (v - (chain + chain + 35)))
  | AccessListTx _ _ _ _ v _ _ | DynamicFeeTx _ _ _ _ _ v _ _ => Some (low_byte v)
  | OtherTx _ => None
  end.
(** The 65 signature bytes r | s | v (txutils.go:106-107): r and s fit in 32 bytes once the
    signature values are validated. *)
Definition sig_bytes (r s : Z) (v : N) : bytes := be 32 (Z.to_N r) ++ be 32 (Z.to_N s) ++ [v].
(** math.NewIntFromBigInt panics beyond 256 bits. *)
Definition fits256 (x : Z) : bool := Z.abs x <? 2 ^ 256.

(** ConvertEthereumTxToCosmosTx (txutils.go:50-182). [None]: an error (or panic, which the
    RPC server turns into one). Ecrecover refuses recovery ids above 3. *)
Definition eth_to_cosmos (t : eth_tx) : option cosmos_tx :=
  let chain := eth_chain_id in
  c ← tx_common t;
  let amount := compute_gas_fee_amount (fee_cap t) (Z.of_N (f_gas c)) decimals in
  let value := from_ethers decimals (f_value c) in
  if negb (fits256 amount && fits256 value) then None else
  if negb (to_ethers decimals value =? f_value c) then None else
  from ← recover_sender chain t;
  let '(_, r, s) := tx_sig t in
  v ← sig_v chain t;
  if (3 <? v)%N then None else
  pub ← recover (hash_content chain t) v r s;
  let sender := bech_enc (pub_addr from) in
  let al := al_to_text (tx_al t) in
  let msg := match f_to c with
             | None => CCreate sender (hexutil_encode (f_data c)) value al
             | Some to => CCall sender (address_hex ck to) (hexutil_encode (f_data c)) value al
             end in
  Some (CTx [msg] (Some (Meta (tx_type t) (Some (fee_cap t)) (Some (tip_cap t))))
            [CSig pub (Some (mode_ethereum, sig_bytes r s v)) (f_nonce c)]
            (if amount =? 0 then [] else [(fee_denom, amount)]) (f_gas c)).

(** ** Cosmos to Ethereum *)
Inductive conv := CErr | CNil | COk (t : eth_tx) (sender : bytes).
(** ContractAddressFromString (types/address.go:36-47) *)
Definition contract_address (t : text) : option bytes :=
  if is_hex_address t then Some (hex_to_address t) else to_fixed 20 <$> bech_dec t.
(** Splitting the signature (txutils.go:252-259) *)
Definition split_sig (b : bytes) : option (Z * Z * Z) :=
  let r := Z.of_N (of_be (take 32 b)) in let s := Z.of_N (of_be (take 32 (drop 32 b))) in
  if decide (length b = 65%nat) then Some (Z.of_N (of_be (drop 64 b)), r, s)
  else if decide (length b = 64%nat) then Some (0, r, s) else None.
(** The message switch (txutils.go:275-315): recipient, input, value, access list. There is
    no default case: any other message gives the zero values (a nil value becomes 0 in
    coretypes.NewTx). [inl CNil]/[inl CErr] are early returns. *)
Definition msg_fields (m : cmsg) : conv + (option bytes * bytes * Z * access_list) :=
  match m with
  | CCall _ caddr input value al =>
      match contract_address caddr, hexutil_decode input with
      | Some a, Some d => inr (Some a, d, to_ethers decimals value, al_of_text al)
      | _, _ => inl CErr
      end
  | CCreate _ code value al =>
      match hexutil_decode code with
      | Some d => inr (None, d, to_ethers decimals value, al_of_text al)
      | None => inl CErr
      end
  | CCreate2 _ _ _ _ _ => inl CNil
  | COther _ => inr (None, [], 0, [])
  end.
(** ConvertCosmosTxToEthereumTx (txutils.go:192-371) *)
Definition cosmos_to_eth (x : cosmos_tx) : conv :=
  let chain := eth_chain_id in
  match c_msgs x, c_memo x, c_sigs x with
  | [m], Some md, [sg] =>
      if match c_fee x with (d, _) :: _ => negb (bool_decide (d = fee_denom)) | [] => false end then CNil else
      if negb (bool_decide (length (pub_addr (s_pub sg)) = 20%nat)) then CNil else
      match s_data sg with
      | None => CNil
      | Some (mode, b) =>
          if negb (mode =? mode_ethereum) then CNil else
          match split_sig b, m_fee_cap md, m_tip_cap md with
          | Some (v, r, s), Some fee, Some tip =>
              match msg_fields m with
              | inl e => e
              | inr (to, data, value, al) =>
                  let c := Com (s_seq sg) (c_gas x) to value data in
                  match m_type md with
                  | 0%N => COk (LegacyTx c fee (v + Z.of_N (u64 (35 + u64 (Z.to_N chain * 2)))) r s) (pub_addr (s_pub sg))
                  | 1%N => COk (AccessListTx chain c fee al v r s) (pub_addr (s_pub sg))
                  | 2%N => COk (DynamicFeeTx chain c tip fee al v r s) (pub_addr (s_pub sg))
                  | _ => CErr
                  end
              end
          | _, _, _ => CNil
          end
      end
  | _, _, _ => CNil
  end.

(** IsEthereumTx (txutils.go:374-433) *)
Definition is_ethereum_tx (x : cosmos_tx) : bool :=
  match c_msgs x, c_memo x, c_sigs x with
  | [m], Some _, [sg] =>
      negb (match c_fee x with (d, _) :: _ => negb (bool_decide (d = fee_denom)) | [] => false end) &&
      match m with CCall _ _ _ _ _ | CCreate _ _ _ _ => true | _ => false end &&
      bool_decide (length (pub_addr (s_pub sg)) = 20%nat) &&
      match s_data sg with Some (mode, _) => mode =? mode_ethereum | None => false end
  | _, _, _ => false
  end.

(** verifySignature in Ethereum mode (app/ante/verify.go:60-84), true = accepted *)
Definition verify_eth (x : cosmos_tx) : bool :=
  match cosmos_to_eth x with
  | COk t sender => match eth_sender eth_chain_id t with Some a => bool_decide (a = sender) | None => false end
  | _ => false
  end.
End conv.

(** ** JSON-RPC transaction objects (jsonrpc/types/tx.go:38-76, 78-134) *)
Record rpc_tx := Rpc { q_type : N; q_gas : N; q_gas_price : option Z; q_fee : Z; q_tip : Z; q_input : bytes; q_nonce : N;
                       q_to : option bytes; q_value : Z; q_v : Z; q_r : Z; q_s : Z; q_chain : Z;
                       q_al : option access_list; q_yparity : option Z;
                       q_block : option (bytes * N * N) }.
Definition new_rpc_tx (t : eth_tx) (block_hash : bytes) (number index : N) (chain : Z) : option rpc_tx :=
  c ← tx_common t;
  let '(v, r, s) := tx_sig t in
  Some (Rpc (tx_type t) (f_gas c) (Some (fee_cap t)) (fee_cap t) (tip_cap t) (f_data c) (f_nonce c) (f_to c) (f_value c)
            v r s chain (Some (tx_al t))
            (match t with LegacyTx _ _ _ _ _ => None | _ => Some (v mod 2 ^ 64) end)
            (if bool_decide (block_hash = zero_hash) then None else Some (block_hash, number, index))).
Definition rpc_to_tx (q : rpc_tx) : option eth_tx :=
  let c := Com (q_nonce q) (q_gas q) (q_to q) (q_value q) (q_input q) in
  let al := default [] (q_al q) in
  match q_type q with
  | 0%N => Some (LegacyTx c (default 0 (q_gas_price q)) (q_v q) (q_r q) (q_s q))
  | 1%N => Some (AccessListTx (q_chain q) c (default 0 (q_gas_price q)) al (q_v q) (q_r q) (q_s q))
  | 2%N => Some (DynamicFeeTx (q_chain q) c (q_tip q) (q_fee q) al (q_v q) (q_r q) (q_s q))
  | _ => None
  end.
