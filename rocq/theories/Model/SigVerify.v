(** Signatures of a transaction: which transactions the ante handler accepts, and what the
    conversion to an Ethereum transaction does when a signature carries no public key.
    app/ante/sigverify.go, app/ante/verify.go, app/ante/ante.go (order of the decorators),
    x/evm/keeper/txutils.go, and the cosmos-sdk (v0.50.10) functions they call:
    x/auth/ante SetPubKeyDecorator and SigGasConsumeDecorator, crypto/keys/multisig
    VerifyMultisignature. The SDK is not in /repo; what is modelled of it is said below. *)
From Verif.Base Require Import Prelude Hex.
From Verif.Model Require Import Fees EthTx.
Local Open Scope N_scope.

(** Public keys: secp256k1, ethsecp256k1, secp256r1, ed25519, k-of-n multisig, anything
    else. *)
Inductive pubkey :=
| KSecp (b : bytes) | KEth (b : bytes) | KR1 (b : bytes) | KEd (b : bytes)
| KMulti (k : nat) (ks : list pubkey) | KUnknown (b : bytes).
(** signing.SignatureData: one signature with its mode, or a multi-signature with a bit
    array saying which members signed. *)
Inductive sigdata := SSingle (mode : Z) (b : bytes) | SMulti (bits : list bool) (sigs : list sigdata).
(** signing.SignatureV2; the public key may be left out of a transaction *)
Record vsig := VSig { v_key : option pubkey; v_data : sigdata; v_seq : N }.
(** A transaction: [v_signers] is GetSigners (derived from the messages and the fee payer by
    the SDK), [v_rest] everything else the sign bytes cover. *)
Record vtx := VTx { v_msgs : list cmsg; v_memo : option metadata; v_sigs : list vsig;
                    v_fee : list (text * Z); v_gas : N; v_signers : list bytes; v_rest : bytes }.
(** A stored account *)
Record vacc := VAcc { a_key : option pubkey; a_seq : N; a_num : N }.
Notation vaccs := (gmap bytes vacc).

(** accepted / refused with an error / panic (baseapp.runTx recovers it and refuses the
    transaction) *)
Inductive res := ROk | RErr | RPanic.
(** Result of the conversion; [CrashC]: nil pointer dereference *)
Inductive conv_res := CrashC | Conv (c : conv).

Section sig.
Variable keccak : bytes -> bytes.
Variable bech_dec : text -> option bytes.
(** crypto.Ecrecover composed with the address of the recovered key *)
Variable recover_addr : content -> N -> Z -> Z -> option bytes.
(** PubKey.Address *)
Variable key_addr : pubkey -> bytes.
(** PubKey.VerifySignature *)
Variable key_verify : pubkey -> bytes -> bytes -> bool.
(** handler.GetSignBytes: mode, signer address, account number, sequence, public key,
    transaction *)
Variable sign_bytes : Z -> bytes -> N -> N -> pubkey -> vtx -> option bytes.
Variable fee_denom : text.
Variable decimals : Z.
Variable chain : bytes.
(** auth params: SigVerifyCostSecp256k1, SigVerifyCostSecp256r1() *)
Variable cost_k1 cost_r1 : N.

(** ** Conversion with an optional key *)
(** the transaction as Model/EthTx.v sees it, once the key is known (the key is represented
    by its address) *)
Definition with_key (x : vtx) (sg : vsig) (pk : pubkey) : cosmos_tx :=
  CTx (v_msgs x) (v_memo x)
      [CSig (key_addr pk) (match v_data sg with SSingle m b => Some (m, b) | SMulti _ _ => None end) (v_seq sg)]
      (v_fee x) (v_gas x).
(** the checks before the key is used (txutils.go:193-229, 376-405) *)
Definition fee_ok (x : vtx) : bool :=
  match v_fee x with (d, _) :: _ => bool_decide (d = fee_denom) | [] => true end.
(** ConvertCosmosTxToEthereumTx (txutils.go:192-371): sig.PubKey.Address() at line 239 is
    reached for every sign mode. *)
Definition convert (x : vtx) : conv_res :=
  match v_msgs x, v_memo x, v_sigs x with
  | [_], Some _, [sg] =>
      if negb (fee_ok x) then Conv CNil else
      match v_key sg with
      | None => CrashC
      | Some pk => Conv (cosmos_to_eth keccak bech_dec (fun a => a) fee_denom decimals chain (with_key x sg pk))
      end
  | _, _, _ => Conv CNil
  end.
(** IsEthereumTx (txutils.go:374-433); [None]: nil pointer dereference at line 415 *)
Definition is_eth (x : vtx) : option bool :=
  match v_msgs x, v_memo x, v_sigs x with
  | [m], Some _, [sg] =>
      if negb (fee_ok x) then Some false else
      match m with
      | CCall _ _ _ _ _ | CCreate _ _ _ _ =>
          match v_key sg with
          | None => None
          | Some pk => Some (is_ethereum_tx (fun a => a) fee_denom (with_key x sg pk))
          end
      | _ => Some false
      end
  | _, _, _ => Some false
  end.

(** ** Verification *)
(** internalSignModeToAPI (verify.go:22-37): direct, textual, direct aux, legacy amino JSON,
    EIP-191 *)
Definition known_mode (m : Z) : bool :=
  ((m =? 1) || (m =? 2) || (m =? 3) || (m =? 127) || (m =? 191))%Z.
(** The loop of LegacyAminoPubKey.VerifyMultisignature: the i-th member if its bit is set
    checks the next signature; running out of signatures is an index panic. The signatures
    come as their verification functions. *)
Fixpoint multi_loop (ks : list pubkey) (bits : list bool) (vs : list (pubkey -> res)) : res :=
  match ks, bits with
  | pk :: ks', true :: bits' =>
      match vs with
      | [] => RPanic
      | v :: vs' => match v pk with ROk => multi_loop ks' bits' vs' | e => e end
      end
  | _ :: ks', false :: bits' => multi_loop ks' bits' vs
  | _, _ => ROk
  end.
Definition count_true (bits : list bool) : nat := length (filter (fun b => b = true) bits).
(** verifySignature outside Ethereum mode (verify.go:86-120), VerifyMultisignature;
    [sb]: the sign bytes by mode. VerifySignature of a multisig key panics. *)
Fixpoint verify_data (sb : Z -> option bytes) (d : sigdata) (pk : pubkey) : res :=
  match d with
  | SSingle mode b =>
      if negb (known_mode mode) then RErr else
      match sb mode with
      | None => RErr
      | Some m => match pk with
                  | KMulti _ _ => RPanic
                  | _ => if key_verify pk m b then ROk else RErr
                  end
      end
  | SMulti bits sigs =>
      match pk with
      | KMulti k ks =>
          if negb (bool_decide (length ks = length bits)) then RErr else
          if bool_decide (length sigs < k)%nat || bool_decide (length bits < length sigs)%nat then RErr else
          if bool_decide (count_true bits < k)%nat then RErr else
          multi_loop ks bits (map (fun s pk' => verify_data sb s pk') sigs)
      | _ => RErr
      end
  end.
(** verifySignature (verify.go:41-121) *)
Definition verify_signature (sb : Z -> option bytes) (pk : pubkey) (d : sigdata) (x : vtx) : res :=
  match d with
  | SSingle mode b =>
      if (mode =? mode_ethereum)%Z then
        match convert x with
        | CrashC => RPanic
        | Conv (COk t sender) =>
            match recover_sender recover_addr (eth_chain_id keccak chain) t with
            | Some a => if bool_decide (a = sender) then ROk else RErr
            | None => RErr
            end
        | Conv _ => RErr
        end
      else verify_data sb d pk
  | SMulti _ _ => verify_data sb d pk
  end.

(** ** Gas for verification *)
(** DefaultSigVerificationGasConsumer and consumeMultisignatureVerificationGas
    (sigverify.go:142-207): the gas consumed; [None] an error or an index panic. *)
Fixpoint gas_loop (i : nat) (ks : list pubkey) (bits : list bool) (gs : list (pubkey -> option N)) : option N :=
  match bits with
  | [] => Some 0
  | false :: bits' => gas_loop (S i) ks bits' gs
  | true :: bits' =>
      pk ← ks !! i;
      match gs with
      | [] => None
      | g :: gs' => a ← g pk; b ← gas_loop (S i) ks bits' gs'; Some (a + b)
      end
  end.
Fixpoint sig_gas (d : sigdata) (pk : pubkey) : option N :=
  match pk with
  | KEd _ | KUnknown _ => None
  | KSecp _ | KEth _ => Some cost_k1
  | KR1 _ => Some cost_r1
  | KMulti k ks => match d with
                   | SSingle _ _ => None
                   | SMulti bits sigs => gas_loop 0 ks bits (map (fun s pk' => sig_gas s pk') sigs)
                   end
  end.

(** ** The signature decorators in order (ante.go:95-99) *)
(** SetPubKeyDecorator (SDK): a key in the transaction must belong to the signer; it is
    stored if the account has none. Not simulated. *)
Fixpoint set_keys (accs : vaccs) (l : list (vsig * bytes)) : option vaccs :=
  match l with
  | [] => Some accs
  | (sg, a) :: l' =>
      match v_key sg with
      | None => set_keys accs l'
      | Some pk =>
          if negb (bool_decide (key_addr pk = a)) then None else
          acc ← accs !! a;
          match a_key acc with
          | Some _ => set_keys accs l'
          | None => set_keys (<[a := VAcc (Some pk) (a_seq acc) (a_num acc)]> accs) l'
          end
      end
  end.
(** SigGasConsumeDecorator (SDK), not simulated: the gas of each signature under the key of
    the account. A nil key is refused by the consumer's default case. *)
Fixpoint gas_sum (accs : vaccs) (l : list (vsig * bytes)) : option N :=
  match l with
  | [] => Some 0
  | (sg, a) :: l' =>
      acc ← accs !! a; pk ← a_key acc;
      g ← sig_gas (v_data sg) pk; r ← gas_sum accs l'; Some (g + r)
  end.
(** One round of the loop of SigVerificationDecorator (sigverify.go:74-134), not simulated;
    [genesis]: block height 0 *)
Definition verify_one (recheck genesis : bool) (accs : vaccs) (x : vtx) (sg : vsig) (a : bytes) : res :=
  match accs !! a with
  | None => RErr
  | Some acc =>
      match a_key acc with
      | None => RErr
      | Some pk =>
          if negb (v_seq sg =? a_seq acc) then RErr else
          if recheck then ROk else
          verify_signature (fun m => sign_bytes m a (if genesis then 0 else a_num acc) (a_seq acc) pk x) pk (v_data sg) x
      end
  end.
Fixpoint verify_all (recheck genesis : bool) (accs : vaccs) (x : vtx) (l : list (vsig * bytes)) : res :=
  match l with
  | [] => ROk
  | (sg, a) :: l' => match verify_one recheck genesis accs x sg a with
                     | ROk => verify_all recheck genesis accs x l'
                     | e => e
                     end
  end.
(** The decorators together: the accounts afterwards, [None] if the transaction is refused.
    [limit]: gas left for verification. Different numbers of signatures and signers are
    refused by ValidateBasicDecorator and again at sigverify.go:69-72. *)
Definition ante_sigs (recheck genesis : bool) (limit : N) (accs : vaccs) (x : vtx) : option vaccs :=
  if negb (bool_decide (length (v_sigs x) = length (v_signers x))) then None else
  let l := zip (v_sigs x) (v_signers x) in
  accs1 ← set_keys accs l;
  g ← gas_sum accs1 l;
  if limit <? g then None else
  match verify_all recheck genesis accs1 x l with ROk => Some accs1 | _ => None end.

(** ** Indexing a block *)
(** What the result of a transaction contains: success, and the type URL of each message
    response with whether its value decodes ([None]: the data does not decode at all). *)
Record tx_result := TRes { r_ok : bool; r_data : option (list (text * bool)) }.
Definition url_create : text := txt "/minievm.evm.v1.MsgCreateResponse".
Definition url_call : text := txt "/minievm.evm.v1.MsgCallResponse".
(** extractLogsAndContractAddr and unpackData (indexer/utils.go:19-73): true = no error *)
Definition extract_ok (r : tx_result) (creation : bool) : bool :=
  if negb (r_ok r) then true else
  match r_data r with
  | Some ((url, value_ok) :: _) => bool_decide (url = if creation then url_create else url_call) && value_ok
  | _ => false
  end.
Definition tx_to (t : eth_tx) : option bytes := c ← tx_common t; f_to c.
(** The transaction loop of ListenFinalizeBlock (indexer/abci.go:44-109): [None] when it
    crashes or returns an error (the node stops, app/indexer.go:98-101, StopNodeOnErr). A
    transaction that does not decode is skipped. *)
Fixpoint index_txs (l : list (option vtx * tx_result)) : option (list eth_tx) :=
  match l with
  | [] => Some []
  | (None, _) :: l' => index_txs l'
  | (Some x, r) :: l' =>
      match convert x with
      | CrashC | Conv CErr => None
      | Conv CNil => index_txs l'
      | Conv (COk t _) =>
          if extract_ok r (bool_decide (tx_to t = None)) then cons t <$> index_txs l' else None
      end
  end.
End sig.
