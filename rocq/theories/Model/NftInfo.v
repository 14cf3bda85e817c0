(** What the ERC-721 keeper answers about classes and tokens (x/evm/keeper/erc721.go 242-283,
    308-407); the transfer application asks before it sends tokens to another chain.

    [other_name], [other_uri], [other_owner], [other_balance]: what contracts of unknown code, or
    collections deployed by others, answer to name() and the like; [None]: an error. A call of an
    address without code returns nothing, which does not unpack: an error (405-407 and alike).

    Simplification: a collection made by the chain has its class id as its name (erc721.go 57,
    ERC721.sol 49-52), so the name is not stored again. *)
From Verif.Base Require Import Prelude Hex Dec.
From Verif.Model Require Import Token Bank Nft.
Local Open Scope N_scope.

Record unknown := Unknown {
  other_name : nworld → bytes → option text;
  other_uri : nworld → bytes → N → option text;
  other_owner : nworld → bytes → N → option bytes;
  other_balance : nworld → bytes → bytes → option N }.

(** CreateOrUpdateClass and Mints as they are called, with class data and token data, which are not
    used (53, 213-216). *)
Definition k_class (E : nenv) (w : nworld) (class uri data : text) : bool * nworld := create_or_update E w class uri.
Definition k_mints_data (E : nenv) (w : nworld) (b : bytes) (class : text) (l uris data : list text) : bool * nworld :=
  k_mints E w b class l uris.

(** name(), 363-383 *)
Definition col_name (U : unknown) (w : nworld) (c : bytes) : option text :=
  match nw_code w !! c, nw_id_of w !! c with
  | None, _ => None
  | Some (NCol _), Some k => Some k
  | Some _, _ => other_name U w c
  end.
(** GetClassInfo, 242-263: name, URI, data *)
Definition k_class_info (U : unknown) (w : nworld) (class : text) : option (text * text * text) :=
  c ← class_contract w class;
  n ← col_name U w c;
  Some (n, default [] (nw_uris w !! c), []).
(** tokenURI(), 385-407; ICS721ERC721.sol 34-36 *)
Definition token_uri (U : unknown) (w : nworld) (c : bytes) (id : N) : option text :=
  match nw_code w !! c with
  | None => None
  | Some (NCol x) => Some (default [] (n_uri x !! id))
  | Some NCustom => other_uri U w c id
  end.
(** GetTokenInfos, 265-283: URIs, data *)
Definition k_token_infos (E : nenv) (U : unknown) (w : nworld) (class : text) (l : list text) : option (list text * list text) :=
  c ← class_contract w class;
  uris ← mapM (fun t => id ← token_number E class t; token_uri U w c id) l;
  Some (uris, replicate (length l) []).
(** OwnerOf, 325-359; ERC721.sol 78-80 *)
Definition k_owner_of (E : nenv) (U : unknown) (w : nworld) (class t : text) : option bytes :=
  c ← class_contract w class;
  id ← token_number E class t;
  match nw_code w !! c with
  | None => None
  | Some (NCol x) => if bool_decide (owner_of x id = null_addr) then None else Some (owner_of x id)
  | Some NCustom => other_owner U w c id
  end.
(** BalanceOf, 285-323; ERC721.sol 68-73 *)
Definition k_balance_of (U : unknown) (w : nworld) (a : bytes) (class : text) : option N :=
  c ← class_contract w class;
  '(e, _, _) ← convert_to_evm (nw_accts w) (nw_next w) a false;
  match nw_code w !! c with
  | None => None
  | Some (NCol x) => if bool_decide (e = null_addr) then None else Some (nbal x e)
  | Some NCustom => other_balance U w c e
  end.
