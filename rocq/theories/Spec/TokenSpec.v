(** What may happen to the tokens of a chain, and the vocabulary of the claims. *)
From Verif.Base Require Import Prelude Hex.
From Verif.Model Require Import Token Bank.
From stdpp Require Export relations.
Open Scope Z_scope.

(** ** Vocabulary *)

(** [c] is one of the provided tokens, with storage [t]. *)
Definition is_token (w : world) (c : bytes) (t : token) : Prop := w_code w !! c = Some (CTok t).

(** Balance and supply as observed by balanceOf and totalSupply; 0 for anything
    that is not a provided token. *)
Definition balance (w : world) (c a : bytes) : Z :=
  match w_code w !! c with Some (CTok t) => bal t a | _ => 0 end.
Definition supply (w : world) (c : bytes) : Z :=
  match w_code w !! c with Some (CTok t) => t_supply t | _ => 0 end.
Definition allowance (w : world) (c o s : bytes) : Z :=
  match w_code w !! c with Some (CTok t) => allow t o s | _ => 0 end.

(** Sum of a finite ledger. *)
Definition total (m : gmap bytes Z) : Z := map_fold (fun _ v acc => v + acc) 0 m.

(** Arguments of a call are uint256 values. *)
Definition amount_ok (v : Z) : Prop := 0 <= v < two256.
Definition op_ok (o : op) : Prop :=
  match o with
  | OTransfer _ v | OApprove _ v | OTransferFrom _ _ v | OMint _ v | OBurn v
  | OBurnFrom _ v | OSudoTransfer _ _ v | OSudoMint _ v | OSudoBurn _ v => amount_ok v
  | OTransferOwnership _ => True
  end.

(** Well-formed 20-byte addresses; the factory creates its contracts at such. *)
Definition addr_ok (a : bytes) : Prop := length a = 20%nat ∧ bytes_ok a.
Definition env_ok (E : env) : Prop := ∀ n, addr_ok (e_create E n).

(** ** Steps *)

(** What users and contracts of unknown code can do: anything, as any sender but
    the chain's own address 0x1 (for which no key exists). A failed call is also a
    step, since the registry may keep traces of it. *)
Inductive ext (E : env) : world → world → Prop :=
| ext_call w self sender o :
    sender ≠ chain_addr → op_ok o → ext E w (snd (call_tok E w self sender o))
| ext_factory w sender c w' :
    sender ≠ chain_addr → factory_create E w sender = Some (c, w') → ext E w w'
| ext_deploy_erc20 w c sender w' :
    addr_ok c → deploy w c (CTok (new_token KERC20 sender)) = Some w' → ext E w w'
| ext_deploy_initia w c sender w' :
    addr_ok c → deploy_initia w c sender = Some w' → ext E w w'
| ext_deploy_custom w c w' :
    addr_ok c → deploy w c CCustom = Some w' → ext E w w'
| ext_destroy w c :
    (* a contract of unknown code self-destructs: its code and account go *)
    w_code w !! c = Some CCustom → c ≠ e_factory E →
    ext E w (upd_accts (upd_code w (delete c)) (delete c (w_accts w)) (w_nextnum w))
| ext_register w caller :
    (* only code that is neither a provided token nor the factory calls the
       registry on its own account *)
    addr_ok caller → (∀ t, ¬ is_token w caller t) → caller ≠ e_factory E →
    ext E w (snd (register w caller))
| ext_register_from_factory w caller c :
    caller ≠ e_factory E → ext E w (snd (register_from_factory E w caller c))
| ext_register_store w caller a :
    (∀ t, ¬ is_token w caller t) → ext E w (register_store w a caller)
| ext_account w a x n :
    (* an account appears or changes *)
    ext E w (upd_accts w (<[a := x]> (w_accts w)) n).

(** What the chain can do. A call into unknown code gives control to it. *)
Inductive chain (E : env) : world → world → Prop :=
| chain_call w self o :
    op_ok o → chain E w (snd (call_tok E w self chain_addr o))
| chain_custom w self w' :
    w_code w !! self = Some CCustom → rtc (ext E) w w' → chain E w w'
| chain_create w d :
    (* the denomination is new and not of the form evm/... *)
    w_addr_of w !! d = None → is_erc20_denom d = false →
    chain E w (snd (create_erc20 E w d))
| chain_convert w addr signer a m n :
    convert_to_evm (w_accts w) (w_nextnum w) addr signer = Some (a, m, n) →
    chain E w (upd_accts w m n)
| chain_account w a : chain E w (create_acct w a)
| chain_policy w p :
    (* governance changes the registration policy *)
    chain E w (upd_policy w p).

Definition step (E : env) (w w' : world) : Prop := ext E w w' ∨ chain E w w'.

(** The chain starts without tokens (the factory itself is deployed, as code that
    is not a token). *)
Definition initial (E : env) (w : world) : Prop :=
  (∀ c t, ¬ is_token w c t) ∧ w_reg w = ∅ ∧ w_stores w = ∅ ∧
  w_denom_of w = ∅ ∧ w_addr_of w = ∅.

Definition reachable (E : env) (w : world) : Prop :=
  env_ok E ∧ ∃ w0, initial E w0 ∧ rtc (step E) w0 w.

(** ** Calls made by the keeper *)

(** The keeper's EVM calls: determined by the model on provided tokens and on
    addresses without code; anything the adversary can do on unknown code. *)
Definition chain_calls (E : env) (f : caller) : Prop :=
  ∀ w c o,
    match w_code w !! c with
    | Some CCustom => rtc (ext E) w (snd (f w c o))
    | _ => f w c o = call_tok E w c chain_addr o
    end.

(** ** Coin sets *)

(** What the coins [l] are worth in contract [c]: the sum of the amounts of the
    coins whose denomination resolves to [c]. *)
Fixpoint amount_in (w : world) (c : bytes) (l : list coin) : Z :=
  match l with
  | [] => 0
  | x :: l' => (if bool_decide (denom_to_contract w (c_denom x) = Some c) then c_amt x else 0)
               + amount_in w c l'
  end.

(** Every coin names a provided token, with a non-negative uint256 amount. *)
Definition coins_ok (w : world) (l : list coin) : Prop :=
  ∀ x, x ∈ l → amount_ok (c_amt x) ∧
       ∃ c t, denom_to_contract w (c_denom x) = Some c ∧ is_token w c t.

(** ** Ledger effect of each function, in bookkeeping terms *)

Definition if_eq (a b : bytes) (v : Z) : Z := if bool_decide (a = b) then v else 0.

(** How much the balance of [a] changes when [sender] runs [o] successfully. *)
Definition credit (sender : bytes) (o : op) (a : bytes) : Z :=
  match o with
  | OTransfer to v => if_eq a to v - if_eq a sender v
  | OTransferFrom from to v | OSudoTransfer from to v => if_eq a to v - if_eq a from v
  | OMint to v | OSudoMint to v => if_eq a to v
  | OBurn v => - if_eq a sender v
  | OBurnFrom from v | OSudoBurn from v => - if_eq a from v
  | OApprove _ _ | OTransferOwnership _ => 0
  end.
(** How much the total supply changes. *)
Definition issue (o : op) : Z :=
  match o with
  | OMint _ v | OSudoMint _ v => v
  | OBurn v | OBurnFrom _ v | OSudoBurn _ v => - v
  | _ => 0
  end.

(** Addresses keep the same kind of code. *)
Definition code_kind (w : world) (c : bytes) : option (option tkind) :=
  match w_code w !! c with
  | Some (CTok t) => Some (Some (t_kind t))
  | Some CCustom => Some None
  | None => None
  end.
