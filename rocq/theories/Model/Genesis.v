(** Genesis of the EVM module (x/evm/keeper/genesis.go) and of the bank module
    (x/bank/keeper/genesis.go). *)
From Verif.Base Require Import Prelude Hex.
From Verif.Model Require Import Token Bank Params BlockHash.

(** ** EVM module *)

(** The module's store (x/evm/keeper/keeper.go 120-144), without the transient part. *)
Record evm_state := EvmState {
  s_params : evm_params;
  s_vm : gmap bytes bytes;
  s_erc20s : gset bytes;
  s_stores : gset (bytes * bytes);
  s_addr_of : gmap text bytes;
  s_denom_of : gmap bytes text;
  s_class_addr : gmap text bytes;
  s_class_id : gmap bytes text;
  s_uri : gmap bytes text;
  s_hashes : hashes;
  s_factory : option bytes;
  s_wrapper : option bytes }.

(** proto/minievm/evm/v1/genesis.proto *)
Record genesis := Genesis {
  g_params : evm_params;
  g_kvs : list (bytes * bytes);
  g_erc20s : list bytes;
  g_stores : list (bytes * list bytes);
  g_denoms : list (text * bytes);
  g_classes : list (text * bytes * text);
  g_factory : bytes;
  g_wrapper : bytes;
  g_hashes : list (N * bytes) }.

(** genesis.go 190-208: pairs with the same first component that follow each other
    are collected in one entry. *)
Fixpoint group_stores (l : list (bytes * bytes)) : list (bytes * list bytes) :=
  match l with
  | [] => []
  | (a, c) :: l' =>
      match group_stores l' with
      | (a', cs) :: r => if bool_decide (a' = a) then (a, c :: cs) :: r else (a, [c]) :: (a', cs) :: r
      | [] => [(a, [c])]
      end
  end.

(** genesis.go 165-275, ExportGenesis; [None] is a panic. The order in which the
    walks visit entries is not fixed, except that [walk] gives the visiting order of
    the holder index, on which the grouping depends. *)
Definition export_classes (s : evm_state) : option (list (text * bytes * text)) :=
  mapM (fun p : text * bytes => u ← s_uri s !! snd p; Some (fst p, snd p, u)) (map_to_list (s_class_addr s)).
Definition export_genesis (walk : gset (bytes * bytes) → list (bytes * bytes)) (s : evm_state) : option genesis :=
  cls ← export_classes s;
  f ← s_factory s;
  wr ← s_wrapper s;
  Some (Genesis (s_params s) (map_to_list (s_vm s)) (elements (s_erc20s s)) (group_stores (walk (s_stores s)))
          (map_to_list (s_addr_of s)) cls f wr (map_to_list (s_hashes s))).

(** genesis.go 93-163, InitGenesis, on the store [s0]; [init] is Initialize
    (deployment of the factory, fee token and wrapper). *)
Definition set_params (s : evm_state) (p : evm_params) : evm_state :=
  EvmState p (s_vm s) (s_erc20s s) (s_stores s) (s_addr_of s) (s_denom_of s) (s_class_addr s) (s_class_id s)
    (s_uri s) (s_hashes s) (s_factory s) (s_wrapper s).
Definition set_contracts (s : evm_state) (f w : bytes) : evm_state :=
  EvmState (s_params s) (s_vm s) (s_erc20s s) (s_stores s) (s_addr_of s) (s_denom_of s) (s_class_addr s) (s_class_id s)
    (s_uri s) (s_hashes s) (Some f) (Some w).
Definition import_genesis (init : evm_state → option evm_state) (s0 : evm_state) (g : genesis) : option evm_state :=
  let s1 := set_params s0 (g_params g) in
  s2 ← (if bool_decide (g_kvs g = []) then init s1 else Some (set_contracts s1 (g_factory g) (g_wrapper g)));
  Some (EvmState (s_params s2)
    (foldl (fun m kv => <[fst kv := snd kv]> m) (s_vm s2) (g_kvs g))
    (foldl (fun m c => {[c]} ∪ m) (s_erc20s s2) (g_erc20s g))
    (foldl (fun m e => foldl (fun m c => {[(fst e, c)]} ∪ m) m (snd e)) (s_stores s2) (g_stores g))
    (foldl (fun m e => <[fst e := snd e]> m) (s_addr_of s2) (g_denoms g))
    (foldl (fun m e => <[snd e := fst e]> m) (s_denom_of s2) (g_denoms g))
    (foldl (fun m e => <[fst (fst e) := snd (fst e)]> m) (s_class_addr s2) (g_classes g))
    (foldl (fun m e => <[snd (fst e) := fst (fst e)]> m) (s_class_id s2) (g_classes g))
    (foldl (fun m e => <[snd (fst e) := snd e]> m) (s_uri s2) (g_classes g))
    (foldl (fun m e => <[fst e := snd e]> m) (s_hashes s2) (g_hashes g))
    (s_factory s2) (s_wrapper s2)).

(** The store before InitGenesis. *)
Definition empty_state (p : evm_params) : evm_state :=
  EvmState p ∅ ∅ ∅ ∅ ∅ ∅ ∅ ∅ ∅ None None.

(** ** Bank module *)

(** genesis.go 48-61 with view.go 85-108 and 127-141: the balances of every account
    in the account table ([None] is a panic). *)
Definition bank_export (ck : bytes → nat → bool) (w : world) : option (list (bytes * list coin)) :=
  mapM (fun a => l ← k_account_balances ck w a; Some (a, l)) (elements (dom (w_accts w))).

(** genesis.go 13-45, the balances: every listed balance is minted (send.go 165-167,
    initBalances). The check of the supply is on the genesis file only and is left
    out. Any error is a panic. *)
Fixpoint bank_import (E : env) (f : caller) (w : world) (l : list (bytes * list coin)) : res :=
  match l with
  | [] => (true, w)
  | (a, cs) :: l' =>
      let '(ok, w1) := k_mint_coins E f w a cs in
      if ok then bank_import E f w1 l' else (false, w1)
  end.
