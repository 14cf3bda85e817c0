(** Model of the ERC-20 contracts shipped with the chain, of the ERC-20
    registry, of account records and of the address conversion.

    Modelled:
    - x/evm/contracts/erc20/ERC20.sol and x/evm/contracts/initia_erc20/InitiaERC20.sol
      (with Ownable.sol, ERC20ACL.sol, ERC20Registry.sol)
    - x/evm/contracts/erc20_factory/ERC20Factory.sol
    - x/evm/keeper/erc20_stores.go
    - x/evm/keeper/address.go, x/evm/types/auth.go
    - x/evm/keeper/context.go 52-133 (CanTransfer / Transfer)

    Simplifications common to the file: contract storage is a record instead of
    EVM slots; gas is not modelled, so every call is assumed to have enough of it
    (an out-of-gas call is a failed call, and failed calls are covered); events
    are not modelled. Contracts whose source is not in the repository are opaque:
    what they do is given by the adversary steps of [Spec/TokenSpec.v]. *)
From Verif.Base Require Import Prelude Hex.
Open Scope Z_scope.

Definition two256 : Z := 2 ^ 256.

(** x/evm/types/address.go: StdAddress is 0x1, NullAddress is 0x0. *)
Definition chain_addr : bytes := replicate 19 0%N ++ [1%N].
Definition null_addr : bytes := replicate 20 0%N.

(** ** Account records (x/evm/types/auth.go, cosmos-sdk x/auth) *)

(** The kinds of account the code tells apart: BaseAccount, ModuleAccount (with
    its permissions), ContractAccount and ShorthandAccount (with the original
    address). *)
Inductive akind :=
| KBase
| KModule
| KContract
| KShort (origin : bytes).

Record acct := Acct { ac_num : N; ac_seq : N; ac_pub : bool; ac_kind : akind }.

(** x/evm/types/auth.go 66-72, IsEmptyAccount. *)
Definition is_empty_acct (a : acct) : bool :=
  match ac_kind a with
  | KBase => negb (ac_pub a) && (ac_seq a =? 0)%N
  | _ => false
  end.

Notation accounts := (gmap bytes acct).

(** common.BytesToAddress: keep the last 20 bytes, pad with zeroes on the left. *)
Definition bytes_to_address (b : bytes) : bytes := to_fixed 20 b.

(** x/evm/keeper/address.go 16-54, convertToEVMAddress. The account table and the
    next account number are threaded explicitly; [None] is an error. *)
Definition convert_to_evm (m : accounts) (next : N) (addr : bytes) (signer : bool)
  : option (bytes * accounts * N) :=
  if (length addr =? 20)%nat then Some (addr, m, next)
  else
    let sh := bytes_to_address addr in
    let fresh :=
      if signer
      then Some (sh, <[sh := Acct next 0 false (KShort addr)]> m, (next + 1)%N)
      else Some (sh, m, next) in
    match m !! sh with
    | None => fresh
    | Some a =>
        if is_empty_acct a then fresh
        else match ac_kind a with
             | KShort o => if bool_decide (o = addr) then Some (sh, m, next) else None
             | _ => None
             end
    end.

(** ** Tokens *)

(** Which of the two provided contracts is deployed: InitiaERC20 differs from
    ERC20 by registering itself in its constructor and by having no sudoMint and
    sudoBurn (InitiaERC20.sol 37-45 and 119-126). *)
Inductive tkind := KERC20 | KInitia.

(** Storage of ERC20.sol 17-22 and Ownable.sol 10 (name, symbol and decimals are
    never written after the constructor and are left out). *)
Record token := Token {
  t_kind : tkind;
  t_bal : gmap bytes Z;
  t_allow : gmap (bytes * bytes) Z;
  t_supply : Z;
  t_owner : bytes }.

Definition new_token (k : tkind) (owner : bytes) : token := Token k ∅ ∅ 0 owner.

Definition bal (t : token) (a : bytes) : Z := default 0 (t_bal t !! a).
Definition allow (t : token) (owner spender : bytes) : Z :=
  default 0 (t_allow t !! (owner, spender)).

Definition set_bal (t : token) (a : bytes) (v : Z) : token :=
  Token (t_kind t) (<[a := v]> (t_bal t)) (t_allow t) (t_supply t) (t_owner t).
Definition set_allow (t : token) (o s : bytes) (v : Z) : token :=
  Token (t_kind t) (t_bal t) (<[(o, s) := v]> (t_allow t)) (t_supply t) (t_owner t).
Definition set_supply (t : token) (v : Z) : token :=
  Token (t_kind t) (t_bal t) (t_allow t) v (t_owner t).
Definition set_owner (t : token) (o : bytes) : token :=
  Token (t_kind t) (t_bal t) (t_allow t) (t_supply t) o.

(** Checked uint256 arithmetic of Solidity 0.8: [None] is a revert. *)
Definition add256 (a b : Z) : option Z := if a + b <? two256 then Some (a + b) else None.
Definition sub256 (a b : Z) : option Z := if b <=? a then Some (a - b) else None.

(** State-changing external functions, with their decoded arguments. *)
Inductive op :=
| OTransfer (to : bytes) (v : Z)
| OApprove (spender : bytes) (v : Z)
| OTransferFrom (from to : bytes) (v : Z)
| OMint (to : bytes) (v : Z)
| OBurn (v : Z)
| OBurnFrom (from : bytes) (v : Z)
| OSudoTransfer (from to : bytes) (v : Z)
| OSudoMint (to : bytes) (v : Z)
| OSudoBurn (from : bytes) (v : Z)
| OTransferOwnership (o : bytes).

(** ERC20.sol 42-50, body of _transfer after its modifier. *)
Definition tok_transfer (t : token) (s r : bytes) (v : Z) : option token :=
  b ← sub256 (bal t s) v;
  let t1 := set_bal t s b in
  b' ← add256 (bal t1 r) v;
  Some (set_bal t1 r b').

(** ERC20.sol 52-59, body of _mint after its modifier. *)
Definition tok_mint (t : token) (r : bytes) (v : Z) : option token :=
  b ← add256 (bal t r) v;
  let t1 := set_bal t r b in
  s ← add256 (t_supply t1) v;
  Some (set_supply t1 s).

(** ERC20.sol 61-65, _burn. *)
Definition tok_burn (t : token) (f : bytes) (v : Z) : option token :=
  b ← sub256 (bal t f) v;
  let t1 := set_bal t f b in
  s ← sub256 (t_supply t1) v;
  Some (set_supply t1 s).

(** ** World *)

(** Code at an address: one of the provided tokens or unknown code. *)
Inductive code := CTok (t : token) | CCustom.

(** The part of the EVM module parameters the registry reads
    (x/evm/types/params.go); allow-list entries are given by the address they
    parse to (erc20_stores.go 69-73). *)
Record policy := Policy { p_allow_custom : bool; p_allowed : list bytes }.

Record world := World {
  w_code : gmap bytes code;              (* deployed contracts *)
  w_fnonce : N;                          (* nonce of the factory contract *)
  w_reg : gset bytes;                    (* ERC20s *)
  w_stores : gset (bytes * bytes);       (* ERC20Stores: (account, contract) *)
  w_accts : accounts;
  w_nextnum : N;                         (* next account number *)
  w_denom_of : gmap bytes text;      (* ERC20DenomsByContractAddr *)
  w_addr_of : gmap text bytes;       (* ERC20ContractAddrsByDenom *)
  w_policy : policy }.

(** Fixed facts of a chain: factory address, address of the contract the factory
    creates at each nonce, addresses blocked by the bank module. *)
Record env := Env {
  e_factory : bytes;
  e_create : N → bytes;
  e_blocked : bytes → bool }.

Definition upd_code (w : world) (f : gmap bytes code → gmap bytes code) : world :=
  World (f (w_code w)) (w_fnonce w) (w_reg w) (w_stores w) (w_accts w) (w_nextnum w)
        (w_denom_of w) (w_addr_of w) (w_policy w).
Definition upd_reg (w : world) (f : gset bytes → gset bytes) : world :=
  World (w_code w) (w_fnonce w) (f (w_reg w)) (w_stores w) (w_accts w) (w_nextnum w)
        (w_denom_of w) (w_addr_of w) (w_policy w).
Definition upd_stores (w : world) (f : gset (bytes * bytes) → gset (bytes * bytes)) : world :=
  World (w_code w) (w_fnonce w) (w_reg w) (f (w_stores w)) (w_accts w) (w_nextnum w)
        (w_denom_of w) (w_addr_of w) (w_policy w).
Definition upd_accts (w : world) (m : accounts) (n : N) : world :=
  World (w_code w) (w_fnonce w) (w_reg w) (w_stores w) m n
        (w_denom_of w) (w_addr_of w) (w_policy w).
Definition upd_fnonce (w : world) (n : N) : world :=
  World (w_code w) n (w_reg w) (w_stores w) (w_accts w) (w_nextnum w)
        (w_denom_of w) (w_addr_of w) (w_policy w).
Definition upd_denoms (w : world) (d : gmap bytes text) (a : gmap text bytes) : world :=
  World (w_code w) (w_fnonce w) (w_reg w) (w_stores w) (w_accts w) (w_nextnum w)
        d a (w_policy w).
Definition upd_policy (w : world) (p : policy) : world :=
  World (w_code w) (w_fnonce w) (w_reg w) (w_stores w) (w_accts w) (w_nextnum w)
        (w_denom_of w) (w_addr_of w) p.

(** accountKeeper.SetAccount(NewAccountWithAddress(addr)) when there is none. *)
Definition create_acct (w : world) (a : bytes) : world :=
  match w_accts w !! a with
  | Some _ => w
  | None => upd_accts w (<[a := Acct (w_nextnum w) 0 false KBase]> (w_accts w)) (w_nextnum w + 1)%N
  end.

(** ** Registry (x/evm/keeper/erc20_stores.go) *)

(** 34-48, RegisterStore. *)
Definition register_store (w : world) (account contract : bytes) : world :=
  if decide (contract ∈ w_reg w)
  then upd_stores (create_acct w account) (fun s => {[(account, contract)]} ∪ s)
  else w.

(** 51-79, Register; the boolean is false on error. *)
Definition register (w : world) (contract : bytes) : bool * world :=
  if negb (p_allow_custom (w_policy w)) then (false, w)
  else if decide (contract ∈ w_reg w) then (true, w)
  else match p_allowed (w_policy w) with
       | [] => (true, upd_reg w (fun s => {[contract]} ∪ s))
       | l => if decide (contract ∈ l)
              then (true, upd_reg w (fun s => {[contract]} ∪ s))
              else (false, w)
       end.

(** 82-90, RegisterFromFactory. *)
Definition register_from_factory (E : env) (w : world) (caller contract : bytes) : bool * world :=
  if bool_decide (e_factory E = caller)
  then (true, upd_reg w (fun s => {[contract]} ∪ s))
  else (false, w).

(** ERC20Registry.sol 16-22, modifier register_erc20_store, run by contract
    [self] through the registry precompile. *)
Definition store_modifier (w : world) (self account : bytes) : world :=
  if decide ((account, self) ∈ w_stores w) then w else register_store w account self.

(** ** Access control (ERC20ACL.sol) *)

(** x/evm/precompiles/cosmos/contract.go 75-86, originAddress. *)
Definition origin_of (w : world) (a : bytes) : bytes :=
  match w_accts w !! a with
  | Some (Acct _ _ _ (KShort o)) => o
  | _ => a
  end.

(** cosmos/contract.go 117-139, is_blocked_address. *)
Definition is_blocked (E : env) (w : world) (a : bytes) : bool := e_blocked E (origin_of w a).

(** cosmos/contract.go 140-164, is_module_address. *)
Definition is_module (w : world) (a : bytes) : bool :=
  match w_accts w !! origin_of w a with
  | Some (Acct _ _ _ KModule) => true
  | _ => false
  end.

(** Everything a function does before _transfer/_mint/_burn: the modifiers of
    ERC20ACL.sol and Ownable.sol, and the allowance decrease
    (ERC20.sol 66-126). [None] is a revert. *)
Definition guards (E : env) (w : world) (sender : bytes) (o : op) (t : token) : option token :=
  match o with
  | OTransfer to _ => if is_blocked E w to then None else Some t
  | OApprove _ _ => Some t
  | OTransferFrom from to v =>
      if is_blocked E w to then None
      else a ← sub256 (allow t from sender) v; Some (set_allow t from sender a)
  | OMint to _ =>
      if is_blocked E w to then None
      else if bool_decide (sender = t_owner t) then Some t else None
  | OBurn _ => if is_module w sender then None else Some t
  | OBurnFrom from v =>
      if is_module w from then None
      else a ← sub256 (allow t from sender) v; Some (set_allow t from sender a)
  | OSudoTransfer _ _ _ => if bool_decide (sender = chain_addr) then Some t else None
  | OSudoMint _ _ | OSudoBurn _ _ =>
      match t_kind t with
      | KInitia => None
      | KERC20 => if bool_decide (sender = chain_addr) then Some t else None
      end
  | OTransferOwnership n =>
      if bool_decide (sender = t_owner t) && negb (bool_decide (n = null_addr)) then Some t else None
  end.

(** The account the register_erc20_store modifier of _transfer and _mint is given. *)
Definition op_recipient (o : op) : option bytes :=
  match o with
  | OTransfer to _ | OTransferFrom _ to _ | OMint to _
  | OSudoTransfer _ to _ | OSudoMint to _ => Some to
  | _ => None
  end.

(** The effect on the contract's own storage once guards and registration are done. *)
Definition body (sender : bytes) (o : op) (t : token) : option token :=
  match o with
  | OTransfer to v => tok_transfer t sender to v
  | OApprove sp v => Some (set_allow t sender sp v)
  | OTransferFrom from to v => tok_transfer t from to v
  | OMint to v => tok_mint t to v
  | OBurn v => tok_burn t sender v
  | OBurnFrom from v => tok_burn t from v
  | OSudoTransfer from to v => tok_transfer t from to v
  | OSudoMint to v => tok_mint t to v
  | OSudoBurn from v => tok_burn t from v
  | OTransferOwnership n => Some (set_owner t n)
  end.

(** A call of function [o] of the contract at [self] by [sender]. The boolean is
    false when the call reverts. On a revert the contract's storage is restored
    but the registration made by the register_erc20_store modifier is not: the
    registry precompile writes through the context captured when the EVM was
    created, outside the frame's snapshot (x/evm/keeper/precompiles.go 60-67,
    context.go 183-191). A call to an address without code succeeds and does
    nothing (go-ethereum core/vm/evm.go, Call). Unknown code is not executed here:
    see [Spec/TokenSpec.v]. *)
Definition call_tok (E : env) (w : world) (self sender : bytes) (o : op) : bool * world :=
  match w_code w !! self with
  | Some (CTok t) =>
      match guards E w sender o t with
      | None => (false, w)
      | Some t1 =>
          let w1 := match op_recipient o with
                    | Some r => store_modifier w self r
                    | None => w
                    end in
          match body sender o t1 with
          | Some t2 => (true, upd_code w1 (insert self (CTok t2)))
          | None => (false, w1)
          end
      end
  | _ => (true, w)
  end.

(** x/evm/state/statedb.go 271-303, CreateContract, on the account table: only an
    absent or empty account may become a contract ([None] is the panic). *)
Definition contract_acct (w : world) (c : bytes) : option world :=
  match w_accts w !! c with
  | Some a =>
      if is_empty_acct a
      then Some (upd_accts w (<[c := Acct (ac_num a) 0 false KContract]> (w_accts w)) (w_nextnum w))
      else None
  | None =>
      Some (upd_accts w (<[c := Acct (w_nextnum w) 0 false KContract]> (w_accts w)) (w_nextnum w + 1)%N)
  end.

(** Deployment of code at a fresh address (go-ethereum core/vm/evm.go, create: an
    address with code is refused). *)
Definition deploy (w : world) (c : bytes) (x : code) : option world :=
  match w_code w !! c with
  | Some _ => None
  | None => w1 ← contract_acct w c; Some (upd_code w1 (insert c x))
  end.

(** ERC20Factory.sol 9-24, createERC20, called by [sender]: deploy, register, hand
    over the ownership. A failure reverts the whole call. *)
Definition factory_create (E : env) (w : world) (sender : bytes) : option (bytes * world) :=
  let c := e_create E (w_fnonce w) in
  w1 ← deploy (upd_fnonce w (w_fnonce w + 1)%N) c (CTok (new_token KERC20 (e_factory E)));
  let '(_, w2) := register_from_factory E w1 (e_factory E) c in
  let '(ok, w3) := call_tok E w2 c (e_factory E) (OTransferOwnership sender) in
  if ok then Some (c, w3) else None.

(** Deployment of an InitiaERC20 at address [c] by [sender] (InitiaERC20.sol
    37-45): the constructor registers the contract and reverts when refused. *)
Definition deploy_initia (w : world) (c sender : bytes) : option world :=
  w1 ← deploy w c (CTok (new_token KInitia sender));
  let '(ok, w2) := register w1 c in
  if ok then Some w2 else None.

(** ** Native value (x/evm/keeper/context.go 64-113) *)

(** balanceOf on the contract at [c]; [None] when the answer cannot be decoded. *)
Definition balance_of (w : world) (c a : bytes) : option Z :=
  match w_code w !! c with
  | Some (CTok t) => Some (bal t a)
  | _ => None
  end.

(** 64-96, CanTransfer, for a fee contract that is one of the provided tokens or
    has no code. *)
Definition can_transfer (w : world) (fee a : bytes) (v : Z) : bool :=
  if v =? 0 then true
  else if bool_decide (fee = null_addr) then false
  else match balance_of w fee a with
       | Some b => v <=? b
       | None => false
       end.

(** 97-113, Transfer; [None] is the panic that fails the transaction. *)
Definition value_transfer (E : env) (w : world) (fee a1 a2 : bytes) (v : Z) : option world :=
  if v =? 0 then Some w
  else let '(ok, w') := call_tok E w fee a1 (OTransfer a2 v) in
       if ok then Some w' else None.

(** go-ethereum core/vm/evm.go, Call: value moves only if CanTransfer agrees;
    otherwise the frame fails with ErrInsufficientBalance. *)
Definition move_value (E : env) (w : world) (fee a1 a2 : bytes) (v : Z) : option world :=
  if can_transfer w fee a1 v then value_transfer E w fee a1 a2 v else None.
