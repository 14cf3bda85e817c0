(** The rest of the bank keeper: delegation to module accounts, transfers between modules
    (x/bank/keeper/keeper.go 84-145, 234-298) and the SendEnabled query
    (x/bank/keeper/grpc_query.go 238-266).
    Simplifications: panics are failures; events are not modelled. *)
From Verif.Base Require Import Prelude Hex.
From Verif.Model Require Import Token Bank BankQuery.
Open Scope Z_scope.

(** address and permissions of a module account *)
Definition module_of (B : bank_env) (m : text) : option (bytes * list perm) := be_modules B !! m.
(** DelegateCoins (keeper.go 84-112): no send restriction and no check of blocked addresses.
    The module account exists when asked through GetModuleAccount. *)
Definition delegate_coins (B : bank_env) (w : world) (delegator ma : bytes) (amt : list coin) : res :=
  match w_accts w !! ma with
  | None => (false, w)
  | Some _ => if coins_valid amt then k_send_coins (be_call B) w delegator ma amt else (false, w)
  end.
(** UndelegateCoins (119-148) *)
Definition undelegate_coins (B : bank_env) (w : world) (ma delegator : bytes) (amt : list coin) : res :=
  match w_accts w !! ma with
  | None => (false, w)
  | Some _ => if coins_valid amt then k_send_coins (be_call B) w ma delegator amt else (false, w)
  end.
(** GetModuleAccount of the account keeper: created when it does not exist *)
Definition module_account (B : bank_env) (w : world) (m : text) : option (bytes * list perm * world) :=
  match module_of B m with
  | None => None
  | Some (ma, ps) => 
      Some (ma, ps, match w_accts w !! ma with
                    | Some _ => w
                    | None => upd_accts w (<[ma := Acct (w_nextnum w) 0 false KModule]> (w_accts w)) (w_nextnum w + 1)%N
                    end)
  end.
(** DelegateCoinsFromAccountToModule (266-279) *)
Definition b_delegate (B : bank_env) (w : world) (from : bytes) (m : text) (amt : list coin) : res :=
  match module_account B w m with
  | None => (false, w)
  | Some (ma, ps, w1) => if bool_decide (PStaking ∈ ps) then delegate_coins B w1 from ma amt else (false, w1)
  end.
(** UndelegateCoinsFromModuleToAccount (284-298) *)
Definition b_undelegate (B : bank_env) (w : world) (m : text) (to : bytes) (amt : list coin) : res :=
  match module_account B w m with
  | None => (false, w)
  | Some (ma, ps, w1) => if bool_decide (PStaking ∈ ps) then undelegate_coins B w1 ma to amt else (false, w1)
  end.
(** SendCoinsFromModuleToModule (234-249): blocked addresses are not looked at *)
Definition b_module_to_module (B : bank_env) (w : world) (m1 m2 : text) (amt : list coin) : res :=
  match module_of B m1 with
  | None => (false, w)
  | Some (a1, _) =>
      match module_account B w m2 with
      | None => (false, w)
      | Some (a2, _, w1) => b_send_coins B w1 a1 a2 amt
      end
  end.
(** MultiSend (msg_server.go 87-89), InputOutputCoins (send.go 110-112): not supported *)
Definition b_multi_send (w : world) (inputs outputs : list (bytes * list coin)) : res := (false, w).

(** SendEnabled query: the named denominations that have an entry, or a page of all entries *)
Definition q_send_enabled (p : bank_params) (denoms : list text) (r : page_req) : option (page_res (text * bool)) :=
  match denoms with
  | [] => paginate (elements (dom (bp_entries p))) (fun d => (d, default false (bp_entries p !! d))) r
  | _ => Some (PageRes (omap (fun d => match bp_entries p !! d with Some b => Some (d, b) | None => None end) denoms) None 0%N)
  end.
