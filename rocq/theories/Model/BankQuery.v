(** The query server of the bank module, x/bank/keeper/grpc_query.go, over the token world of
    Model/Token.v, and the paginated listings behind it (x/evm/keeper/erc20.go 174-218).
    Pagination itself is CollectionPaginate of cosmos-sdk v0.50.10 (types/query, not in /repo):
    the entries of the collection in key order from the key in the request on, or after the
    requested number of entries; a page ends after [limit] entries and names the key of the
    next entry.
    Simplifications: all keys of a listing have the same length (20-byte addresses), so
    "from this key on" is the byte order in both directions. Tokens are the provided
    contracts of Model/Token.v; other code does not answer. *)
From Verif.Base Require Import Prelude Hex.
From Verif.Model Require Import CacheStore Token Bank.
From stdpp Require Import sorting.
Open Scope Z_scope.

(** query.PageRequest; an empty key is no key *)
Record page_req := PageReq { pr_key : bytes; pr_offset : N; pr_limit : N; pr_total : bool; pr_reverse : bool }.
(** query.PageResponse with the entries *)
Record page_res (A : Type) := PageRes { ps_items : list A; ps_next : option bytes; ps_total : N }.
Arguments PageRes {A} _ _ _. Arguments ps_items {A} _. Arguments ps_next {A} _. Arguments ps_total {A} _.

Definition key_order (rev : bool) (x y : bytes) : Prop :=
  if rev then Is_true (bytes_leb y x) else Is_true (bytes_leb x y).
Global Instance key_order_dec rev x y : Decision (key_order rev x y).
Proof. unfold key_order. destruct rev; apply _. Defined.
(** initPageRequestDefaults: no limit means 100 and asks for the total *)
Definition limit_of (r : page_req) : nat := if (pr_limit r =? 0)%N then 100 else N.to_nat (pr_limit r).
Definition wants_total (r : page_req) : bool := (pr_limit r =? 0)%N || pr_total r.
(** CollectionPaginate over the keys [ks]; [None]: error (a key and an offset); an offset beyond
    the end is an empty answer *)
Definition paginate {A} (ks : list bytes) (f : bytes → A) (r : page_req) : option (page_res A) :=
  let l := merge_sort (key_order (pr_reverse r)) ks in
  let n := limit_of r in
  match pr_key r with
  | [] =>
      if (length l <? N.to_nat (pr_offset r))%nat then Some (PageRes [] None 0%N) else
      let l' := drop (N.to_nat (pr_offset r)) l in
      Some (PageRes (map f (take n l')) (l' !! n) (if wants_total r then N.of_nat (length l) else 0%N))
  | key =>
      if (0 <? pr_offset r)%N then None else
      let l' := filter (key_order (pr_reverse r) key) l in
      Some (PageRes (map f (take n l')) (l' !! n) 0%N)
  end.

(** sdk.Coins.Sort: by denomination *)
Definition denom_order (x y : coin) : Prop := Is_true (bytes_leb (c_denom x) (c_denom y)).
Definition sort_coins (l : list coin) : list coin := merge_sort denom_order l.

Section queries.
(** EIP-55 letter case, address codec, sdk.ValidateDenom *)
Variable ck : bytes → nat → bool.
Variable decode : text → option bytes.
Variable valid_denom : text → bool.

(** The entries of ERC20Stores with the account as first part, by contract; all of ERC20s *)
Definition held (w : world) (a : bytes) : list bytes := map snd (filter (fun k => fst k = a) (elements (w_stores w))).
Definition coin_of (w : world) (a c : bytes) : coin := Coin (contract_to_denom ck w c) (default 0 (balance_of w c a)).
Definition supply_coin (w : world) (c : bytes) : coin :=
  Coin (contract_to_denom ck w c) match w_code w !! c with Some (CTok t) => t_supply t | _ => 0 end.
(** GetPaginatedBalances (erc20.go 174-199): zero balances are kept *)
Definition paginated_balances (w : world) (addr : bytes) (r : page_req) : option (page_res coin) :=
  match convert_to_evm (w_accts w) (w_nextnum w) addr false with
  | None => None
  | Some (a, _, _) =>
      match paginate (held w a) (coin_of w a) r with
      | None => None
      | Some p => Some (PageRes (sort_coins (ps_items p)) (ps_next p) (ps_total p))
      end
  end.
(** GetPaginatedSupply (erc20.go 201-218), TotalSupply (grpc_query.go 112-121) *)
Definition q_total_supply (w : world) (r : page_req) : option (page_res coin) :=
  match paginate (elements (w_reg w)) (supply_coin w) r with
  | None => None
  | Some p => Some (PageRes (sort_coins (ps_items p)) (ps_next p) (ps_total p))
  end.
(** Balance (grpc_query.go 20-43); an error of the keeper panics, which the gRPC server turns
    into an error *)
Definition q_balance (w : world) (addr d : text) : option coin :=
  match addr, d with
  | [], _ | _, [] => None
  | _, _ => a ← decode addr; z ← k_balance w a d; Some (Coin d z)
  end.
(** AllBalances and SpendableBalances (46-87): the same answer *)
Definition q_all_balances (w : world) (addr : text) (r : page_req) : option (page_res coin) :=
  match addr with [] => None | _ => a ← decode addr; paginated_balances w a r end.
Definition q_spendable_balances (w : world) (addr : text) (r : page_req) : option (page_res coin) :=
  a ← decode addr; paginated_balances w a r.
(** SpendableBalanceByDenom (91-109), SpendableCoin and LockedCoins (view.go 143-171): nothing
    is ever locked *)
Definition q_spendable_by_denom (w : world) (addr d : text) : option coin :=
  a ← decode addr; if valid_denom d then z ← k_balance w a d; Some (Coin d (z - 0)) else None.
(** SupplyOf (124-137) *)
Definition q_supply_of (w : world) (d : text) : option coin :=
  match d with [] => None | _ => z ← k_supply w d; Some (Coin d z) end.

(** ** Metadata (170-240, erc20.go 118-172) *)
Record denom_meta := DMeta { dm_name : text; dm_symbol : text; dm_base : text; dm_display : text; dm_units : list (text * N) }.
(** name, symbol and decimals of the contract at an address, [None] if one of the calls fails *)
Variable describe : world → bytes → option (text * text * N).
Definition slash : N := 47. Definition letter_u : N := 117. Definition letter_m : N := 109.
(** GetMetadata (erc20.go 118-172) *)
Definition token_metadata (w : world) (d : text) : option denom_meta :=
  c ← denom_to_contract w d; '(name, symbol, decimals) ← describe w c;
  let plain := (decimals =? 0)%N && negb (bool_decide (slash ∈ d)) in
  Some (match d with
        | x :: rest =>
            if plain && (x =? letter_u)%N then DMeta name symbol d rest [(d, 0%N); (rest, 6%N)]
            else if plain && (x =? letter_m)%N then DMeta name symbol d rest [(d, 0%N); (rest, 3%N)]
            else DMeta name symbol d d [(d, 0%N)]
        | [] => DMeta name symbol d d [(d, 0%N)]
        end).
(** DenomMetadata (192-217) and DenomMetadataByQueryString (220-240); [md]: stored metadata *)
Definition q_metadata (md : gmap text denom_meta) (w : world) (d : text) : option denom_meta :=
  if valid_denom d then match md !! d with Some m => Some m | None => token_metadata w d end else None.
Definition q_metadata_by_string (md : gmap text denom_meta) (d : text) : option denom_meta :=
  if valid_denom d then md !! d else None.
(** SetDenomMetadata (custom_msg_server.go 25-37, keeper.go 210-212); [valid]: Metadata.Validate *)
Definition set_metadata (authority : text) (valid : denom_meta → bool) (md : gmap text denom_meta) (from : text) (m : denom_meta)
  : option (gmap text denom_meta) :=
  if bool_decide (authority = from) && valid m then Some (<[dm_base m := m]> md) else None.
End queries.
