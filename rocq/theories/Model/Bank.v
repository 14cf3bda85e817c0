(** Model of denominations (x/evm/types/denom.go), of the coin operations of the
    ERC-20 keeper (x/evm/keeper/erc20.go) and of the bank module (x/bank/keeper).

    Simplifications: logging, telemetry, events and metadata are left out. ABI
    packing is exact: a coin amount is taken modulo 2^256 as go-ethereum's abi
    package does for uint256 arguments. *)
From Verif.Base Require Import Prelude Hex.
From Verif.Model Require Import Token.
Open Scope Z_scope.

(** ** Denominations (x/evm/types/denom.go) *)

Definition denom_prefix : text := txt "evm/".

(** strings.HasPrefix and strings.TrimPrefix together: the rest after the prefix. *)
Fixpoint cut_prefix (p t : text) : option text :=
  match p, t with
  | [], _ => Some t
  | x :: p', y :: t' => if (x =? y)%N then cut_prefix p' t' else None
  | _, [] => None
  end.

(** 43-45, IsERC20Denom. *)
Definition is_erc20_denom (d : text) : bool :=
  match cut_prefix denom_prefix d with Some _ => true | None => false end.

(** 19-30, DenomToContractAddr; [None] is an error (unknown or malformed). *)
Definition denom_to_contract (w : world) (d : text) : option bytes :=
  match cut_prefix denom_prefix d with
  | Some h => if is_hex_address h then Some (hex_to_address h) else None
  | None => w_addr_of w !! d
  end.

(** 32-41, ContractAddrToDenom. [ck] is the EIP-55 letter case. *)
Definition contract_to_denom (ck : bytes → nat → bool) (w : world) (c : bytes) : text :=
  match w_denom_of w !! c with
  | Some d => d
  | None => denom_prefix ++ drop 2 (address_hex ck c)
  end.

(** ** Coins (cosmos-sdk types/coin.go) *)

Record coin := Coin { c_denom : text; c_amt : Z }.
Global Instance coin_eq_dec : EqDecision coin. Proof. solve_decision. Defined.

(** abi.Pack of a *big.Int as uint256 (go-ethereum common/math.U256Bytes). *)
Definition pack256 (z : Z) : Z := z mod two256.

(** Calls made by the chain itself (sender 0x1) to the contract at an address.
    For unknown code the outcome is not determined by the model, so the caller
    passes a function that must agree with [call_tok] on provided tokens and on
    addresses without code ([Spec/TokenSpec.v], [chain_calls]). *)
Definition caller := world → bytes → op → bool * world.

(** Results of keeper functions: success flag and state. On an error the writes
    made before it are still in the state handed back; the transaction runner
    discards them ([run_tx]). *)
Definition res := (bool * world)%type.

(** baseapp.runTx: the messages of a transaction run on a cached store, written
    only when all of them succeed. *)
Definition run_tx (w : world) (r : res) : world := if fst r then snd r else w.

(** erc20.go 329-370, CreateERC20 (decimals and events omitted). *)
Definition create_erc20 (E : env) (w : world) (d : text) : res :=
  match factory_create E w chain_addr with
  | Some (c, w1) => (true, upd_denoms w1 (<[c := d]> (w_denom_of w1)) (<[d := c]> (w_addr_of w1)))
  | None => (false, w)
  end.

(** erc20.go 384-399, the loop of SendCoins over EVM addresses. *)
Fixpoint send_loop (f : caller) (w : world) (from to : bytes) (l : list coin) : res :=
  match l with
  | [] => (true, w)
  | c :: l' =>
      match denom_to_contract w (c_denom c) with
      | None => (false, w)
      | Some ct =>
          let '(ok, w1) := f w ct (OSudoTransfer from to (pack256 (c_amt c))) in
          if ok then send_loop f w1 from to l' else (false, w1)
      end
  end.

(** erc20.go 373-402, SendCoins. *)
Definition k_send_coins (f : caller) (w : world) (from to : bytes) (l : list coin) : res :=
  match convert_to_evm (w_accts w) (w_nextnum w) from true with
  | None => (false, w)
  | Some (ef, m1, n1) =>
      let w1 := upd_accts w m1 n1 in
      match convert_to_evm (w_accts w1) (w_nextnum w1) to false with
      | None => (false, w1)
      | Some (et, m2, n2) => send_loop f (upd_accts w1 m2 n2) ef et l
      end
  end.

(** erc20.go 293-324, the loop of MintCoins. *)
Fixpoint mint_loop (E : env) (f : caller) (w : world) (a : bytes) (l : list coin) : res :=
  match l with
  | [] => (true, w)
  | c :: l' =>
      if is_erc20_denom (c_denom c) then (false, w)
      else
        let '(ok0, w0) := match w_addr_of w !! c_denom c with
                          | Some _ => (true, w)
                          | None => create_erc20 E w (c_denom c)
                          end in
        if ok0 then
          match denom_to_contract w0 (c_denom c) with
          | None => (false, w0)
          | Some ct =>
              let '(ok, w1) := f w0 ct (OSudoMint a (pack256 (c_amt c))) in
              if ok then mint_loop E f w1 a l' else (false, w1)
          end
        else (false, w0)
  end.

(** erc20.go 287-327, MintCoins. *)
Definition k_mint_coins (E : env) (f : caller) (w : world) (addr : bytes) (l : list coin) : res :=
  match convert_to_evm (w_accts w) (w_nextnum w) addr false with
  | None => (false, w)
  | Some (a, m, n) => mint_loop E f (upd_accts w m n) a l
  end.

(** erc20.go 65-92, the loop of BurnCoins; [fund w] is FundCommunityPool of the
    whole amount (line 69 passes [amount], not the coin). *)
Fixpoint burn_loop (f : caller) (fund : world → res) (w : world) (a : bytes) (l : list coin) : res :=
  match l with
  | [] => (true, w)
  | c :: l' =>
      if is_erc20_denom (c_denom c) then
        let '(ok, w1) := fund w in
        if ok then burn_loop f fund w1 a l' else (false, w1)
      else
        match denom_to_contract w (c_denom c) with
        | None => (false, w)
        | Some ct =>
            let '(ok, w1) := f w ct (OSudoBurn a (pack256 (c_amt c))) in
            if ok then burn_loop f fund w1 a l' else (false, w1)
        end
  end.

(** erc20.go 98-116, GetBalance ([None] is an error). Only provided tokens answer
    balanceOf in the model; an address without code makes the answer undecodable. *)
Definition k_balance (w : world) (addr : bytes) (d : text) : option Z :=
  match convert_to_evm (w_accts w) (w_nextnum w) addr false with
  | None => None
  | Some (a, _, _) =>
      match denom_to_contract w d with
      | None => if is_erc20_denom d then None else Some 0
      | Some ct => balance_of w ct a
      end
  end.

(** erc20.go 221-228, GetSupply. *)
Definition k_supply (w : world) (d : text) : option Z :=
  match denom_to_contract w d with
  | None => None
  | Some ct => match w_code w !! ct with Some (CTok t) => Some (t_supply t) | _ => None end
  end.

(** erc20.go 243-267, IterateAccountBalances: the coins handed to the callback, in
    key order (the order is not modelled: the listing is a list without
    specified order). Contracts that do not answer count as a zero balance. *)
Definition k_account_balances (ck : bytes → nat → bool) (w : world) (addr : bytes) : option (list coin) :=
  match convert_to_evm (w_accts w) (w_nextnum w) addr false with
  | None => None
  | Some (a, _, _) =>
      Some (omap (fun key : bytes * bytes =>
                    if bool_decide (fst key = a) then
                      let b := default 0 (balance_of w (snd key) a) in
                      if b =? 0 then None else Some (Coin (contract_to_denom ck w (snd key)) b)
                    else None)
                 (elements (w_stores w)))
  end.

(** erc20.go 270-284, IterateSupply. *)
Definition k_supplies (ck : bytes → nat → bool) (w : world) : list coin :=
  (fun c => Coin (contract_to_denom ck w c)
                 match w_code w !! c with Some (CTok t) => t_supply t | _ => 0 end)
  <$> elements (w_reg w).

(** ** Bank module (x/bank/keeper) *)

(** Send restrictions (send.go 299-335 and cosmos-sdk x/bank/types/restrictions.go
    SendRestrictionFn.Then / ComposeSendRestrictions). A restriction sees the
    state, sender, recipient and coins; [None] is an error. *)
Definition restriction := world → bytes → bytes → list coin → option bytes.

Definition compose_restrictions (rs : list (option restriction)) : option restriction :=
  match omap id rs with
  | [] => None
  | [r] => Some r
  | l => Some (fun w from to amt =>
                 foldl (fun acc r => to' ← acc; r w from to' amt) (Some to) l)
  end.
Definition restr_then (a b : option restriction) : option restriction := compose_restrictions [a; b].
Definition restr_append (cur : option restriction) (r : option restriction) := restr_then cur r.
Definition restr_prepend (cur : option restriction) (r : option restriction) := restr_then r cur.
Definition restr_clear (_ : option restriction) : option restriction := None.
Definition restr_apply (cur : option restriction) (w : world) (from to : bytes) (amt : list coin) : option bytes :=
  match cur with None => Some to | Some r => r w from to amt end.

(** Module accounts (auth keeper permAddrs): name to address and permissions. *)
Inductive perm := PMinter | PBurner | PStaking.
Global Instance perm_eq_dec : EqDecision perm. Proof. solve_decision. Defined.

Record bank_env := BankEnv {
  be_env : env;
  be_call : caller;
  be_restr : option restriction;
  be_mint_restr : list coin → bool;            (* mintCoinsRestrictionFn: false is an error *)
  be_modules : gmap text (bytes * list perm);
  be_fee_collector : text;
  be_authority : text }.

(** Bank parameters: send-enabled entries and default (view.go 33-36). *)
Record bank_params := BankParams { bp_default : bool; bp_entries : gmap text bool }.

(** send.go 116-163, SendCoins. *)
Definition b_send_coins (B : bank_env) (w : world) (from to : bytes) (amt : list coin) : res :=
  match restr_apply (be_restr B) w from to amt with
  | None => (false, w)
  | Some to' =>
      let '(ok, w1) := k_send_coins (be_call B) w from to' amt in
      if ok then (true, create_acct w1 to') else (false, w1)
  end.

(** keeper.go 265-276, SendCoinsFromAccountToModule ([None] is a panic). *)
Definition b_send_to_module (B : bank_env) (w : world) (from : bytes) (m : text) (amt : list coin) : res :=
  match be_modules B !! m with
  | None => (false, w)
  | Some (ma, _) => b_send_coins B w from ma amt
  end.

(** keeper.go 231-245, SendCoinsFromModuleToAccount. *)
Definition b_send_from_module (B : bank_env) (w : world) (m : text) (to : bytes) (amt : list coin) : res :=
  match be_modules B !! m with
  | None => (false, w)
  | Some (ma, _) => if e_blocked (be_env B) to then (false, w) else b_send_coins B w ma to amt
  end.

(** app/keepers/community_pool.go 25-27, FundCommunityPool. *)
Definition fund_community_pool (B : bank_env) (from : bytes) (amt : list coin) (w : world) : res :=
  b_send_to_module B w from (be_fee_collector B) amt.

(** erc20.go 59-95, BurnCoins. *)
Definition k_burn_coins (B : bank_env) (w : world) (addr : bytes) (l : list coin) : res :=
  match convert_to_evm (w_accts w) (w_nextnum w) addr false with
  | None => (false, w)
  | Some (a, m, n) => burn_loop (be_call B) (fund_community_pool B a l) (upd_accts w m n) a l
  end.

(** Coins.Validate (cosmos-sdk types/coin.go): strictly sorted valid denominations,
    positive amounts. [valid_denom] is the regular expression check; text order is
    byte order. *)
Fixpoint text_lt (a b : text) : bool :=
  match a, b with
  | [], _ :: _ => true
  | x :: a', y :: b' => if (x <? y)%N then true else if (x =? y)%N then text_lt a' b' else false
  | _, [] => false
  end.
Fixpoint sorted_denoms (l : list coin) : bool :=
  match l with
  | a :: (b :: _) as l' => text_lt (c_denom a) (c_denom b) && sorted_denoms l'
  | _ => true
  end.
(** sdk.ValidateDenom with the default expression [a-zA-Z][a-zA-Z0-9/:._-]{2,127}. *)
Definition is_letter (c : N) : bool :=
  ((65 <=? c) && (c <=? 90) || (97 <=? c) && (c <=? 122))%N.
Definition is_denom_char (c : N) : bool :=
  (is_letter c || (47 <=? c) && (c <=? 58) || (c =? 46) || (c =? 95) || (c =? 45))%N.
Definition valid_denom (d : text) : bool :=
  match d with
  | c :: r => is_letter c && forallb is_denom_char r && (2 <=? length r)%nat && (length r <=? 127)%nat
  | [] => false
  end.
Definition coins_valid (l : list coin) : bool :=
  sorted_denoms l && forallb (fun c => valid_denom (c_denom c) && (0 <? c_amt c)) l.

(** keeper.go 301-335, MintCoins; panics fail the transaction like errors. *)
Definition b_mint_coins (B : bank_env) (w : world) (m : text) (amt : list coin) : res :=
  if be_mint_restr B amt then
    match be_modules B !! m with
    | None => (false, w)
    | Some (ma, perms) =>
        if bool_decide (PMinter ∈ perms) then
          if coins_valid amt then k_mint_coins (be_env B) (be_call B) w ma amt else (false, w)
        else (false, w)
    end
  else (false, w).

(** keeper.go 339-364, BurnCoins. *)
Definition b_burn_coins (B : bank_env) (w : world) (m : text) (amt : list coin) : res :=
  match be_modules B !! m with
  | None => (false, w)
  | Some (ma, perms) =>
      if bool_decide (PBurner ∈ perms) then k_burn_coins B w ma amt else (false, w)
  end.

(** send.go 287-297, getSendEnabledOrDefault; 174-188, IsSendEnabledCoins. *)
Definition send_enabled (p : bank_params) (d : text) : bool := default (bp_default p) (bp_entries p !! d).
Definition all_send_enabled (p : bank_params) (l : list coin) : bool :=
  forallb (fun c => send_enabled p (c_denom c)) l.

(** msg_server.go 31-85, MsgSend; [from] and [to] are the decoded addresses
    ([None] when the text does not parse). Coins.IsValid is the same check as
    Validate and already requires positive amounts; IsAllPositive also refuses the
    empty set. *)
Definition msg_send (B : bank_env) (p : bank_params) (w : world)
    (from to : option bytes) (amt : list coin) : res :=
  match from, to with
  | Some from, Some to =>
      if coins_valid amt && negb (bool_decide (amt = [])) && forallb (fun c => 0 <? c_amt c) amt
         && all_send_enabled p amt && negb (e_blocked (be_env B) to)
      then b_send_coins B w from to amt
      else (false, w)
  | _, _ => (false, w)
  end.

(** msg_server.go 108-141, MsgSetSendEnabled; the result is the new parameters,
    [None] an error. *)
Fixpoint no_dup_denoms (seen : list text) (l : list (text * bool)) : bool :=
  match l with
  | [] => true
  | (d, _) :: l' => negb (bool_decide (d ∈ seen)) && valid_denom d && no_dup_denoms (d :: seen) l'
  end.
Definition set_send_enabled (B : bank_env) (p : bank_params) (authority : text)
    (entries : list (text * bool)) (use_default : list text) : option bank_params :=
  if bool_decide (be_authority B = authority) && no_dup_denoms [] entries && forallb valid_denom use_default
  then
    let m1 := foldl (fun m e => <[fst e := snd e]> m) (bp_entries p) entries in
    let m2 := foldl (fun m d => delete d m) m1 use_default in
    Some (BankParams (bp_default p) m2)
  else None.

(** msg_server.go 91-106, MsgUpdateParams with SetParams (send.go 93-106). SDK
    Params.Validate refuses the deprecated SendEnabled list. *)
Definition update_bank_params (B : bank_env) (p : bank_params) (authority : text)
    (default_enabled : bool) (deprecated : list (text * bool)) : option bank_params :=
  if bool_decide (be_authority B = authority) && bool_decide (deprecated = [])
  then Some (BankParams default_enabled (bp_entries p))
  else None.
