(** Model of the ERC-721 keeper and of the collection contract it deploys.

    Modelled:
    - x/evm/keeper/erc721.go 49-240 (CreateOrUpdateClass, Transfers, Burns, Mints), 309-359
    - x/evm/types/collection.go
    - x/evm/contracts/ics721_erc721/ICS721ERC721.sol with erc721/ERC721.sol,
      utils/ERC721Utils.sol and ownable/Ownable.sol

    Simplifications: contract storage is a record; events, gas, names and symbols are
    left out; every other contract is unknown code, whose behaviour is a parameter
    ([nenv]) restricted by [Spec/NftSpec.v]; a failed EVM call leaves the state of the
    collections as it was. *)
From Verif.Base Require Import Prelude Hex Dec.
From Verif.Model Require Import Token Bank.
Local Open Scope N_scope.

Definition n256 : N := 2 ^ 256.

(** ** The collection contract *)

(** ERC721.sol 37-44, Ownable.sol 10, ICS721ERC721.sol 11-12. An absent owner or
    approval is the zero address. *)
Record col := Col {
  n_owner : gmap N bytes;             (* _owners *)
  n_bal : gmap bytes N;               (* _balances *)
  n_appr : gmap N bytes;              (* _tokenApprovals *)
  n_oper : gset (bytes * bytes);      (* _operatorApprovals *)
  n_admin : bytes;                    (* Ownable.owner *)
  n_uri : gmap N text;                (* tokenUris *)
  n_orig : gmap N text }.             (* tokenOriginIds *)

Definition new_col (admin : bytes) : col := Col ∅ ∅ ∅ ∅ admin ∅ ∅.

Definition owner_of (c : col) (id : N) : bytes := default null_addr (n_owner c !! id).
Definition appr_of (c : col) (id : N) : bytes := default null_addr (n_appr c !! id).
Definition nbal (c : col) (a : bytes) : N := default 0 (n_bal c !! a).

(** ERC721.sol 200-204, _isAuthorized. *)
Definition authorized (c : col) (owner spender : bytes) (id : N) : bool :=
  negb (bool_decide (spender = null_addr)) &&
  (bool_decide (owner = spender) || bool_decide ((owner, spender) ∈ n_oper c)
   || bool_decide (appr_of c id = spender)).

(** Unchecked uint256 arithmetic. *)
Definition inc (n : N) : N := (n + 1) mod n256.
Definition dec1 (n : N) : N := (n + n256 - 1) mod n256.

Definition set_nbal (m : gmap bytes N) (a : bytes) (f : N → N) : gmap bytes N :=
  <[a := f (default 0 (m !! a))]> m.

(** ERC721.sol 251-281, _update: the previous owner and the new state. *)
Definition nft_update (c : col) (to : bytes) (id : N) (auth : bytes) : option (bytes * col) :=
  let from := owner_of c id in
  if negb (bool_decide (auth = null_addr)) && negb (authorized c from auth id) then None
  else
    let c1 := if bool_decide (from = null_addr) then c
              else Col (n_owner c) (set_nbal (n_bal c) from dec1) (delete id (n_appr c))
                       (n_oper c) (n_admin c) (n_uri c) (n_orig c) in
    let b2 := if bool_decide (to = null_addr) then n_bal c1 else set_nbal (n_bal c1) to inc in
    let o2 := if bool_decide (to = null_addr) then delete id (n_owner c1) else <[id := to]> (n_owner c1) in
    Some (from, Col o2 b2 (n_appr c1) (n_oper c1) (n_admin c1) (n_uri c1) (n_orig c1)).

(** The external functions, without the call into the receiver. [NMint] is the first
    half of mint and [NSetUri] its last two lines. *)
Inductive nop :=
| NApprove (to : bytes) (id : N)
| NSetAll (operator : bytes) (b : bool)
| NTransferFrom (from to : bytes) (id : N)
| NMint (to : bytes) (id : N)
| NSetUri (id : N) (uri orig : text)
| NBurn (id : N)
| NTransferOwnership (o : bytes).

Definition nbody (s : bytes) (op : nop) (c : col) : option col :=
  match op with
  | NApprove to id => (* ERC721.sol 117, 418-434 *)
      let o := owner_of c id in
      if bool_decide (o = null_addr) then None
      else if negb (bool_decide (s = null_addr)) && negb (bool_decide (o = s)) && negb (bool_decide ((o, s) ∈ n_oper c))
      then None
      else Some (Col (n_owner c) (n_bal c) (<[id := to]> (n_appr c)) (n_oper c) (n_admin c) (n_uri c) (n_orig c))
  | NSetAll p b => (* 133, 444-450 *)
      if bool_decide (p = null_addr) then None
      else Some (Col (n_owner c) (n_bal c) (n_appr c)
                     (if b then {[(s, p)]} ∪ n_oper c else n_oper c ∖ {[(s, p)]}) (n_admin c) (n_uri c) (n_orig c))
  | NTransferFrom from to id => (* 147-157 *)
      if bool_decide (to = null_addr) then None
      else '(prev, c') ← nft_update c to id s;
           if bool_decide (prev = from) then Some c' else None
  | NMint to id => (* ICS721ERC721.sol 28-29, ERC721.sol 294-302 *)
      if negb (bool_decide (s = n_admin c)) then None
      else if bool_decide (to = null_addr) then None
      else '(prev, c') ← nft_update c to id null_addr;
           if bool_decide (prev = null_addr) then Some c' else None
  | NSetUri id uri orig => (* ICS721ERC721.sol 30-31, still under onlyOwner *)
      if negb (bool_decide (s = n_admin c)) then None
      else Some (Col (n_owner c) (n_bal c) (n_appr c) (n_oper c) (n_admin c) (<[id := uri]> (n_uri c)) (<[id := orig]> (n_orig c)))
  | NBurn id => (* ICS721ERC721.sol 15-22, ERC721.sol 338-343 *)
      let o := owner_of c id in
      if bool_decide (o = null_addr) then None
      else if negb (authorized c o s id) then None
      else '(prev, c') ← nft_update c null_addr id null_addr;
           if bool_decide (prev = null_addr) then None else Some c'
  | NTransferOwnership o => (* Ownable.sol 34-39 *)
      if bool_decide (s = n_admin c) && negb (bool_decide (o = null_addr))
      then Some (Col (n_owner c) (n_bal c) (n_appr c) (n_oper c) o (n_uri c) (n_orig c))
      else None
  end.

(** ** The chain *)

Inductive ncode := NCol (c : col) | NCustom.

Record nworld := NWorld {
  nw_code : gmap bytes ncode;
  nw_addr_of : gmap text bytes;       (* ERC721ContractAddrsByClassId *)
  nw_id_of : gmap bytes text;         (* ERC721ClassIdsByContractAddr *)
  nw_uris : gmap bytes text;          (* ERC721ClassURIs *)
  nw_nonce : N;                       (* nonce of 0x1 *)
  nw_accts : accounts;
  nw_next : N }.

Definition put_code (w : nworld) (f : gmap bytes ncode → gmap bytes ncode) : nworld :=
  NWorld (f (nw_code w)) (nw_addr_of w) (nw_id_of w) (nw_uris w) (nw_nonce w) (nw_accts w) (nw_next w).
Definition put_accts (w : nworld) (m : accounts) (n : N) : nworld :=
  NWorld (nw_code w) (nw_addr_of w) (nw_id_of w) (nw_uris w) (nw_nonce w) m n.
Definition put_uri (w : nworld) (c : bytes) (u : text) : nworld :=
  NWorld (nw_code w) (nw_addr_of w) (nw_id_of w) (<[c := u]> (nw_uris w)) (nw_nonce w) (nw_accts w) (nw_next w).

Record nenv := NEnv {
  ne_create : N → bytes;                                   (* CreateAddress(0x1, nonce) *)
  ne_ck : bytes → nat → bool;                              (* EIP-55 letter case *)
  ne_sha : text → N;                                       (* sha256 as a number *)
  ne_recv : nworld → bytes → bytes → N → bool * nworld;    (* onERC721Received of unknown code: receiver, collection, id *)
  ne_custom : nworld → bytes → bytes → nworld * bool }.    (* a call of a collection of unknown code by a sender *)

(** One call of a function that does not call out. *)
Definition ncall (w : nworld) (c s : bytes) (op : nop) : bool * nworld :=
  match nw_code w !! c with
  | Some (NCol x) =>
      match nbody s op x with
      | Some x' => (true, put_code w (insert c (NCol x')))
      | None => (false, w)
      end
  | _ => (true, w)
  end.

(** ERC721Utils.sol 22-47, checkOnERC721Received: a collection does not implement it. *)
Definition receive (E : nenv) (w : nworld) (to c : bytes) (id : N) : bool * nworld :=
  match nw_code w !! to with
  | None => (true, w)
  | Some (NCol _) => (false, w)
  | Some NCustom => ne_recv E w to c id
  end.

(** An EVM call of the keeper, with the functions that call the receiver whole.
    On an address without code it succeeds and does nothing. *)
Definition on_col (E : nenv) (w : nworld) (c s : bytes) (f : bool * nworld) : bool * nworld :=
  match nw_code w !! c with
  | None => (true, w)
  | Some NCustom => let '(w', ok) := ne_custom E w c s in (ok, w')
  | Some (NCol _) => let '(ok, w') := f in if ok then (true, w') else (false, w)
  end.
(** safeTransferFrom, ERC721.sol 162-172. *)
Definition safe_transfer (E : nenv) (w : nworld) (c s from to : bytes) (id : N) : bool * nworld :=
  on_col E w c s
    (let '(ok, w1) := ncall w c s (NTransferFrom from to id) in
     if ok then receive E w1 to c id else (false, w)).
(** mint, ICS721ERC721.sol 28-32. *)
Definition safe_mint (E : nenv) (w : nworld) (c s to : bytes) (id : N) (uri orig : text) : bool * nworld :=
  on_col E w c s
    (let '(ok, w1) := ncall w c s (NMint to id) in
     if ok then
       let '(ok2, w2) := receive E w1 to c id in
       (* tokenUris and tokenOriginIds are written after the receiver has run; the
          owner was checked before it *)
       if ok2 then
         match nw_code w2 !! c with
         | Some (NCol x) => ncall w2 c (n_admin x) (NSetUri id uri orig)
         | _ => (false, w2)
         end
       else (false, w2)
     else (false, w)).
(** burn, ICS721ERC721.sol 15-22. *)
Definition do_burn (E : nenv) (w : nworld) (c s : bytes) (id : N) : bool * nworld :=
  on_col E w c s (ncall w c s (NBurn id)).

(** ** Names (x/evm/types/collection.go) *)

(** math/big.Int.SetString, base 10: an optional sign and at least one digit. *)
Definition big_of (t : text) : option Z :=
  match t with
  | 45 :: t' => n ← dec_parse t'; Some (- Z.of_N n)%Z
  | 43 :: t' => Z.of_N <$> dec_parse t'
  | _ => Z.of_N <$> dec_parse t
  end.
Definition ibc_prefix : text := txt "ibc/".

(** 24-31, TokenIdToBigInt, followed by abi.Pack as uint256. *)
Definition token_number (E : nenv) (class id : text) : option N :=
  match cut_prefix ibc_prefix class with
  | Some _ => Some (ne_sha E id mod n256)
  | None => z ← big_of id; Some (Z.to_N (pack256 z))
  end.

(** 33-44, ContractAddressFromClassId. *)
Definition class_contract (w : nworld) (class : text) : option bytes :=
  match cut_prefix denom_prefix class with
  | Some h => if is_hex_address h then Some (hex_to_address h) else None
  | None => bytes_to_address <$> nw_addr_of w !! class
  end.
(** 46-54, ClassIdFromCollectionAddress. *)
Definition contract_class (E : nenv) (w : nworld) (c : bytes) : text :=
  match nw_id_of w !! c with
  | Some k => k
  | None => denom_prefix ++ drop 2 (address_hex (ne_ck E) c)
  end.

(** ** Keeper (x/evm/keeper/erc721.go) *)

(** EVMCreate of a collection by 0x1 (context.go 322-391): refused where code is. The
    account side of it is in Model/Deploy.v. *)
Definition create_col (E : nenv) (w : nworld) : option (bytes * nworld) :=
  let c := ne_create E (nw_nonce w) in
  match nw_code w !! c with
  | Some _ => None
  | None => Some (c, NWorld (<[c := NCol (new_col chain_addr)]> (nw_code w)) (nw_addr_of w) (nw_id_of w)
                            (nw_uris w) (nw_nonce w + 1) (nw_accts w) (nw_next w))
  end.

(** 53-98, CreateOrUpdateClass. *)
Definition create_or_update (E : nenv) (w : nworld) (class uri : text) : bool * nworld :=
  let r := match nw_addr_of w !! class with
           | Some _ => Some w
           | None =>
               '(c, w1) ← create_col E w;
               Some (NWorld (nw_code w1) (<[class := c]> (nw_addr_of w1)) (<[c := class]> (nw_id_of w1))
                            (nw_uris w1) (nw_nonce w1) (nw_accts w1) (nw_next w1))
           end in
  match r with
  | None => (false, w)
  | Some w1 => match class_contract w1 class with
               | None => (false, w1)
               | Some c => (true, put_uri w1 c uri)
               end
  end.

(** 115-130 *)
Fixpoint transfer_loop (E : nenv) (w : nworld) (class : text) (c s r : bytes) (l : list text) : bool * nworld :=
  match l with
  | [] => (true, w)
  | t :: l' =>
      match token_number E class t with
      | None => (false, w)
      | Some id =>
          let '(ok, w1) := safe_transfer E w c s s r id in
          if ok then transfer_loop E w1 class c s r l' else (false, w1)
      end
  end.
(** 100-132, Transfers. *)
Definition k_transfers (E : nenv) (w : nworld) (sender receiver : bytes) (class : text) (l : list text) : bool * nworld :=
  match convert_to_evm (nw_accts w) (nw_next w) sender true with
  | None => (false, w)
  | Some (s, m1, n1) =>
      let w1 := put_accts w m1 n1 in
      match convert_to_evm m1 n1 receiver false with
      | None => (false, w1)
      | Some (r, m2, n2) =>
          match class_contract w1 class with
          | None => (false, w1)
          | Some c => transfer_loop E (put_accts w1 m2 n2) class c s r l
          end
      end
  end.

(** 171-181 *)
Fixpoint nburn_loop (E : nenv) (w : nworld) (class : text) (c s : bytes) (l : list text) : bool * nworld :=
  match l with
  | [] => (true, w)
  | t :: l' =>
      match token_number E class t with
      | None => (false, w)
      | Some id =>
          let '(ok, w1) := do_burn E w c s id in
          if ok then nburn_loop E w1 class c s l' else (false, w1)
      end
  end.
(** 160-184, Burns. *)
Definition k_burns (E : nenv) (w : nworld) (owner : bytes) (class : text) (l : list text) : bool * nworld :=
  match class_contract w class with
  | None => (false, w)
  | Some c =>
      match convert_to_evm (nw_accts w) (nw_next w) owner false with
      | None => (false, w)
      | Some (s, m, n) => nburn_loop E (put_accts w m n) class c s l
      end
  end.

(** 227-237; a missing URI is an index out of range, a panic. *)
Fixpoint nmint_loop (E : nenv) (w : nworld) (class : text) (c r : bytes) (l uris : list text) : bool * nworld :=
  match l with
  | [] => (true, w)
  | t :: l' =>
      match token_number E class t, uris with
      | Some id, u :: uris' =>
          let '(ok, w1) := safe_mint E w c chain_addr r id u t in
          if ok then nmint_loop E w1 class c r l' uris' else (false, w1)
      | _, _ => (false, w)
      end
  end.
(** 213-240, Mints. *)
Definition k_mints (E : nenv) (w : nworld) (receiver : bytes) (class : text) (l uris : list text) : bool * nworld :=
  match class_contract w class with
  | None => (false, w)
  | Some c =>
      match convert_to_evm (nw_accts w) (nw_next w) receiver false with
      | None => (false, w)
      | Some (r, m, n) => nmint_loop E (put_accts w m n) class c r l uris
      end
  end.
