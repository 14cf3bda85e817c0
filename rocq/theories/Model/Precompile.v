(** The two stateful precompiles, the queue of Cosmos messages and its dispatch.

    Modelled:
    - x/evm/precompiles/erc20_registry/contract.go 48-155, types.go
    - x/evm/precompiles/cosmos/contract.go 75-334, types.go
    - x/evm/keeper/erc20_stores.go (again, this time access by access with gas)
    - x/evm/keeper/context.go 169-199 (queue and precompile context), 435-463
      (dispatchMessages), 241-318 (their order in EVMCallWithTracer)

    Simplifications: ABI decoding is a parameter; what each store access costs is an
    arbitrary function; a gas amount that overflows 64 bits counts as out of gas (the
    SDK panics with another value, which also fails the transaction); gRPC queries
    and the address codec are parameters and read-only. *)
From Verif.Base Require Import Prelude Hex.
From Verif.Model Require Import Token Bank.

(** ** Gas meter (cosmossdk.io/store/types/gas.go, basicGasMeter) *)
Inductive mres (S A : Type) :=
| MOk (a : A) (used : N) (s : S)
| MErr (used : N) (s : S)          (* the method returns an error *)
| MOog (s : S).                    (* panic(ErrorOutOfGas) *)
Arguments MOk {_ _}. Arguments MErr {_ _}. Arguments MOog {_ _}.
Definition metered (S A : Type) := N → N → S → mres S A.  (* limit, used so far, state *)

Section meter.
Context {S : Type}.
Definition mret {A} (a : A) : metered S A := fun _ u s => MOk a u s.
Definition mfail {A} : metered S A := fun _ u s => MErr u s.
Definition mthen {A B} (x : metered S A) (f : A → metered S B) : metered S B :=
  fun lim u s => match x lim u s with
                 | MOk a u' s' => f a lim u' s'
                 | MErr u' s' => MErr u' s'
                 | MOog s' => MOog s'
                 end.
(** ConsumeGas *)
Definition charge (n : N) : metered S unit :=
  fun lim u s => if (lim <? u + n)%N then MOog s else MOk tt (u + n)%N s.
Definition look {A} (f : S → A) : metered S A := fun _ u s => MOk (f s) u s.
Definition change (f : S → S) : metered S unit := fun _ u s => MOk tt u (f s).
End meter.
Notation "x <~ m ;; k" := (mthen m (fun x => k)) (at level 60, m at level 50, right associativity).
Notation "m ;;; k" := (mthen m (fun _ => k)) (at level 60, right associativity).

(** ** State seen by the precompiles *)

(** [msg] is the type of decoded Cosmos messages. *)
Section pre.
Context {msg : Type}.
Record pstate := PState { ps_w : world; ps_q : list msg }.
Definition on_w (f : world → world) (s : pstate) : pstate := PState (f (ps_w s)) (ps_q s).

(** A store access; the store charges before it acts (cosmossdk.io/store/gaskv). *)
Inductive access :=
| AParams | AFactory | AHasErc20 (c : bytes) | ASetErc20 (c : bytes)
| AHasAcct (a : bytes) | AGetAcct (a : bytes) | ANextNum | ASetAcct (a : bytes)
| AHasStore (a c : bytes) | ASetStore (a c : bytes)
| ADenomOf (c : bytes) | AAddrOf (d : text) | AQuery (path req : text).

Record penv := PEnv {
  pe_env : env;
  pe_cost : access → pstate → N;
  pe_ck : bytes → nat → bool;                     (* keccak checksum bits *)
  pe_to_str : bytes → option text;                (* address codec *)
  pe_of_str : text → option bytes;
  pe_decode_msg : text → option msg;              (* UnmarshalInterfaceJSON *)
  pe_signers : msg → option (list bytes);         (* GetMsgV1Signers *)
  pe_route : text → bool;                         (* a handler is registered *)
  pe_white : text → bool;                         (* query whitelist *)
  pe_query : text → text → pstate → option text } .

Section run.
Context (P : penv).
Notation M := (metered pstate).
Definition acc (a : access) : M unit := fun lim u s => charge (pe_cost P a s) lim u s.

(** erc20_stores.go 51-79, Register. *)
Definition g_register (c : bytes) : M unit :=
  acc AParams ;;;
  pol <~ look (fun s => w_policy (ps_w s)) ;;
  if negb (p_allow_custom pol) then mfail
  else
    acc (AHasErc20 c) ;;;
    found <~ look (fun s => bool_decide (c ∈ w_reg (ps_w s))) ;;
    if (found : bool) then mret tt
    else if bool_decide (p_allowed pol = []) || bool_decide (c ∈ p_allowed pol) then
      acc (ASetErc20 c) ;;; change (on_w (fun w => upd_reg w (fun r => {[c]} ∪ r)))
    else mfail.

(** erc20_stores.go 82-90, RegisterFromFactory. *)
Definition g_register_from_factory (caller c : bytes) : M unit :=
  acc AFactory ;;;
  if bool_decide (e_factory (pe_env P) = caller) then
    acc (ASetErc20 c) ;;; change (on_w (fun w => upd_reg w (fun r => {[c]} ∪ r)))
  else mfail.

(** erc20_stores.go 34-48, RegisterStore. NewAccountWithAddress takes the next
    account number, SetAccount stores the account. *)
Definition g_register_store (a c : bytes) : M unit :=
  acc (AHasErc20 c) ;;;
  found <~ look (fun s => bool_decide (c ∈ w_reg (ps_w s))) ;;
  if negb found then mret tt
  else
    acc (AHasAcct a) ;;;
    has <~ look (fun s => bool_decide (is_Some (w_accts (ps_w s) !! a))) ;;
    (if (has : bool) then mret tt
     else
       acc ANextNum ;;;
       n <~ look (fun s => w_nextnum (ps_w s)) ;;
       change (on_w (fun w => upd_accts w (w_accts w) (n + 1)%N)) ;;;
       acc (ASetAcct a) ;;;
       change (on_w (fun w => upd_accts w (<[a := Acct n 0 false KBase]> (w_accts w)) (w_nextnum w)))) ;;;
    acc (ASetStore a c) ;;; change (on_w (fun w => upd_stores w (fun st => {[(a, c)]} ∪ st))).

(** ** erc20_registry/contract.go *)
Inductive rcall := RRegister | RFromFactory (c : bytes) | RStore (a : bytes) | RIsStore (a : bytes).
Inductive pout := OBool (b : bool) | OText (t : text) | OAddr (a : bytes).

Definition guard_ro {A} (ro : bool) (k : M A) : M A := if ro then mfail else k.

(** 74-151: the body after the input is decoded. *)
Definition r_body (caller : bytes) (len : N) (ro : bool) (c : rcall) : M pout :=
  charge len ;;;                                       (* 75: GAS_PER_BYTE = 1 *)
  charge 200 ;;;                                       (* the four method constants *)
  match c with
  | RRegister => guard_ro ro (g_register caller ;;; mret (OBool true))
  | RFromFactory t => guard_ro ro (g_register_from_factory caller t ;;; mret (OBool true))
  | RStore a => guard_ro ro (g_register_store a caller ;;; mret (OBool true))
  | RIsStore a =>
      acc (AHasStore a caller) ;;;
      b <~ look (fun s => bool_decide ((a, caller) ∈ w_stores (ps_w s))) ;;
      mret (OBool b)
  end.

(** ** cosmos/contract.go *)
Inductive ccall :=
| CIsBlocked (a : bytes) | CIsModule (a : bytes) | CToCosmos (a : bytes) | CToEvm (t : text)
| CExecute (t : text) | CQuery (path req : text) | CToDenom (c : bytes) | CToErc20 (d : text).

(** types.go 51-66 *)
Definition c_gas (c : ccall) : N :=
  match c with
  | CIsBlocked _ | CToDenom _ | CToErc20 _ => 100
  | _ => 200
  end.

(** 75-86, originAddress. *)
Definition g_origin (a : bytes) : M bytes := acc (AGetAcct a) ;;; look (fun s => origin_of (ps_w s) a).

(** 110-330: the body after the input is decoded. *)
Definition c_body (caller : bytes) (len : N) (ro : bool) (c : ccall) : M pout :=
  charge len ;;;
  charge (c_gas c) ;;;
  match c with
  | CIsBlocked a => o <~ g_origin a ;; mret (OBool (e_blocked (pe_env P) o))
  | CIsModule a =>
      o <~ g_origin a ;;
      acc (AGetAcct o) ;;;
      b <~ look (fun s => match w_accts (ps_w s) !! o with Some (Acct _ _ _ KModule) => true | _ => false end) ;;
      mret (OBool b)
  | CToCosmos a => match pe_to_str P a with Some t => mret (OText t) | None => mfail end
  | CToEvm t => match pe_of_str P t with
                | Some a => if (length a =? 20)%nat then mret (OAddr a) else mfail
                | None => mfail
                end
  | CExecute t =>
      guard_ro ro
        (match pe_decode_msg P t with
         | None => mfail
         | Some m =>
             match pe_signers P m with
             | None => mfail
             | Some sg =>
                 o <~ g_origin caller ;;
                 if forallb (fun x => bool_decide (o = x)) sg
                 then change (fun s => PState (ps_w s) (ps_q s ++ [m])) ;;; mret (OBool true)
                 else mfail
             end
         end)
  | CQuery path req =>
      if negb (pe_route P path) then mfail
      else if negb (pe_white P path) then mfail
      else acc (AQuery path req) ;;;
           r <~ look (pe_query P path req) ;;
           match r with Some t => mret (OText t) | None => mfail end
  | CToDenom t => acc (ADenomOf t) ;;; d <~ look (fun s => contract_to_denom (pe_ck P) (ps_w s) t) ;; mret (OText d)
  | CToErc20 d =>
      acc (AAddrOf d) ;;;
      r <~ look (fun s => denom_to_contract (ps_w s) d) ;;
      match r with Some a => mret (OAddr a) | None => mfail end
  end.

(** 49-73 and 88-109: decode (failure costs nothing), run on a fresh meter with the
    supplied gas, turn the out-of-gas panic into supplied + 1 used and no error. *)
Record pres := PRes { pr_out : option pout; pr_used : N; pr_err : bool; pr_state : pstate }.
Definition extended_run {C} (body : bytes → N → bool → C → M pout) (dec : bytes → option C)
    (caller input : bytes) (supplied : N) (ro : bool) (s : pstate) : pres :=
  match dec input with
  | None => PRes None 0 true s
  | Some c =>
      match body caller (N.of_nat (length input)) ro c supplied 0%N s with
      | MOk o u s' => PRes (Some o) u false s'
      | MErr u s' => PRes None u true s'
      | MOog s' => PRes None (u64_add supplied 1) false s'
      end
  end.

(** ** One EVM execution (context.go 241-318) as far as the precompiles see it. *)

(** What a call frame does: calls of one of the two precompiles by some caller with
    some input, gas and read-only flag, and inner frames with their outcome. Calls of
    other contracts are inner frames. *)
Inductive act :=
| PReg (caller input : bytes) (gas : N)
| PCos (caller input : bytes) (gas : N)
| PFrame (static ok : bool) (l : list act).

(** Precompiles run on the context captured by CreateEVM (context.go 183-191,
    precompiles.go 60-67), so nothing is undone when a frame fails. [ro] is set inside
    static calls (go-ethereum interpreter.go). *)
Context (rdec : bytes → option rcall) (cdec : bytes → option ccall).
Fixpoint run_act (ro : bool) (a : act) (s : pstate) {struct a} : pstate :=
  match a with
  | PReg c i g => pr_state (extended_run r_body rdec c i g ro s)
  | PCos c i g => pr_state (extended_run c_body cdec c i g ro s)
  | PFrame st _ l =>
      (fix go (l : list act) (s : pstate) : pstate :=
         match l with [] => s | a :: l' => go l' (run_act (ro || st) a s) end) l s
  end.

(** context.go 435-463, dispatchMessages: [handle] is ValidateBasic, the handler
    lookup and the handler together ([None]: error). *)
Fixpoint dispatch {S} (handle : msg → S → option S) (l : list msg) (s : S) : option S :=
  match l with
  | [] => Some s
  | m :: l' => s' ← handle m s; dispatch handle l' s'
  end.

(** EVMCallWithTracer: run with an empty queue, and on success dispatch the queue.
    [None] is an error: the transaction is undone by baseapp. *)
Definition evm_call (handle : msg → pstate → option pstate) (static ok : bool) (l : list act) (w : world) : option pstate :=
  let s := run_act false (PFrame static ok l) (PState w []) in
  if ok then dispatch handle (ps_q s) s else None.
End run.
End pre.
Arguments pstate : clear implicits.
Arguments penv : clear implicits.
Arguments access : clear implicits.
Arguments pres : clear implicits.
