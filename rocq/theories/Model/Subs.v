(** Websocket subscriptions (jsonrpc/namespaces/eth/filters/subscriptions.go), the event loop
    that feeds them (api.go 118-158), and the mempool wrapper whose Insert waits for that loop
    (indexer/mempool.go 32-54).

    All channels are unbuffered: a send and its receive are one step. Goroutines: one emitter
    per block (indexer.go 142-166), one per mempool insertion, the event loop, one per
    subscription. The polling filters of Filters.v use the same loop; they are left out here.
    api.subscriptions is the set of ids whose phase is from [PStart] to [PLeave]: only the loop
    changes it, when it takes an install or an uninstall request. *)
From Verif.Base Require Import Prelude.
From Verif.Model Require Import EthLog Indexer Filters.
Open Scope nat_scope.

(** [PNotify e]: inside notifier.Notify (subscriptions.go 63-64, 131-136, 182-185), which writes to the
    client's connection and returns when the client has taken the data or the connection is
    given up (go-ethereum's write timeout). [PLeave]: in uninstallSubscription (203-223). [n]: how many events the loop had taken
    when it installed the subscription. *)
Inductive phase :=
| PWait (k : kind)
| PStart (k : kind) (n : nat)
| PListen (k : kind) (n : nat)
| PNotify (k : kind) (n : nat) (e : fevent)
| PLeave (k : kind) (n : nat)
| PGone (k : kind) (n : nat).
Definition installed (p : phase) : option kind :=
  match p with PStart k _ | PListen k _ | PNotify k _ _ | PLeave k _ => Some k | _ => None end.

(** What an emitter still has to send; an insertion then calls the wrapped mempool. *)
Inductive emitter := EBlock (es : list fevent) | EInsert (tx : bytes) (es : list fevent).
Definition em_events (m : emitter) : list fevent := match m with EBlock es | EInsert _ es => es end.
Definition em_rest (m : emitter) (es : list fevent) : emitter :=
  match m with EBlock _ => EBlock es | EInsert t _ => EInsert t es end.

Record wstate := mkW {
  w_emit : list (option emitter);         (* [None]: finished *)
  w_loop : option (fevent * list fid);    (* the loop is handing an event to these *)
  w_ph : gmap fid phase;
  w_taken : list fevent;                  (* events the loop took so far *)
  w_sent : gmap fid (list fitem);         (* notifications the client got *)
  w_pool : list bytes                     (* transactions handed to the wrapped mempool *)
}.
Definition w_init : wstate := mkW [] None ∅ [] ∅ [].
Definition sent (s : wstate) (id : fid) : list fitem := default [] (w_sent s !! id).

(** The steps the server takes by itself; those that wait for a client; and new work. *)
Inductive wwho := Server | Reader | World.
Inductive wstep : wwho → wstate → wstate → Prop :=
  (* a block is committed, or CheckTx inserts a transaction *)
  | W_emit s m :
      wstep World s (mkW (w_emit s ++ [Some m]) (w_loop s) (w_ph s) (w_taken s) (w_sent s) (w_pool s))
  (* the idle loop takes an event; the map is walked in any order (api.go 121-149) *)
  | W_take s i m e es ids : w_loop s = None → w_emit s !! i = Some (Some m) → em_events m = e :: es →
      NoDup ids → (∀ id, id ∈ ids ↔ ∃ p k, w_ph s !! id = Some p ∧ installed p = Some k ∧ wants k e = true) →
      wstep Server s (mkW (<[i := Some (em_rest m es)]> (w_emit s)) (rest e ids) (w_ph s) (w_taken s ++ [e]) (w_sent s) (w_pool s))
  (* all sent: the block emitter ends; Insert goes on to the wrapped mempool (mempool.go 53) *)
  | W_block_done s i : w_emit s !! i = Some (Some (EBlock [])) →
      wstep Server s (mkW (<[i := None]> (w_emit s)) (w_loop s) (w_ph s) (w_taken s) (w_sent s) (w_pool s))
  | W_insert s i t : w_emit s !! i = Some (Some (EInsert t [])) →
      wstep Server s (mkW (<[i := None]> (w_emit s)) (w_loop s) (w_ph s) (w_taken s) (w_sent s) (w_pool s ++ [t]))
  (* the subscription's goroutine receives *)
  | W_deliver s e id r k n : w_loop s = Some (e, id :: r) → w_ph s !! id = Some (PListen k n) →
      wstep Server s (mkW (w_emit s) (rest e r) (<[id := PNotify k n e]> (w_ph s)) (w_taken s) (w_sent s) (w_pool s))
  (* or uninstallSubscription does (subscriptions.go 213-217) *)
  | W_drain s e id r k n : w_loop s = Some (e, id :: r) → w_ph s !! id = Some (PLeave k n) →
      wstep Server s (mkW (w_emit s) (rest e r) (w_ph s) (w_taken s) (w_sent s) (w_pool s))
  (* Notify returns: every selected item went out, in order *)
  | W_notified s id k n e : w_ph s !! id = Some (PNotify k n e) →
      wstep Reader s (mkW (w_emit s) (w_loop s) (<[id := PListen k n]> (w_ph s)) (w_taken s)
        (<[id := sent s id ++ select k e]> (w_sent s)) (w_pool s))
  (* Notify fails: the connection is broken, every later write on it fails as well, and the
     goroutine only drains its channel until rpcSub.Err() fires; of a log batch, the first
     logs may have gone out. Simplification: the phase is [PLeave] from then on. *)
  | W_broken s id k n e pre post : w_ph s !! id = Some (PNotify k n e) → select k e = pre ++ post →
      wstep Reader s (mkW (w_emit s) (w_loop s) (<[id := PLeave k n]> (w_ph s)) (w_taken s)
        (<[id := sent s id ++ pre]> (w_sent s)) (w_pool s))
  (* eth_subscribe: the request reaches installSubscription (198-201) *)
  | W_subscribe s id k : w_ph s !! id = None →
      match k with KLogs c => new_filter_ok c = true | _ => True end →
      wstep World s (mkW (w_emit s) (w_loop s) (<[id := PWait k]> (w_ph s)) (w_taken s) (w_sent s) (w_pool s))
  | W_install s id k : w_loop s = None → w_ph s !! id = Some (PWait k) →
      wstep Server s (mkW (w_emit s) (w_loop s) (<[id := PStart k (length (w_taken s))]> (w_ph s)) (w_taken s) (w_sent s) (w_pool s))
  | W_start s id k n : w_ph s !! id = Some (PStart k n) →
      wstep Server s (mkW (w_emit s) (w_loop s) (<[id := PListen k n]> (w_ph s)) (w_taken s) (w_sent s) (w_pool s))
  (* eth_unsubscribe or a closed connection: rpcSub.Err() fires *)
  | W_leave s id k n : w_ph s !! id = Some (PListen k n) →
      wstep World s (mkW (w_emit s) (w_loop s) (<[id := PLeave k n]> (w_ph s)) (w_taken s) (w_sent s) (w_pool s))
  (* the idle loop takes the uninstall request (api.go 154-156) *)
  | W_uninstall s id k n : w_loop s = None → w_ph s !! id = Some (PLeave k n) →
      wstep Server s (mkW (w_emit s) (w_loop s) (<[id := PGone k n]> (w_ph s)) (w_taken s) (w_sent s) (w_pool s)).

Inductive wreach : wstate → Prop :=
  | WR_init : wreach w_init
  | WR_step w s s' : wreach s → wstep w s s' → wreach s'.
(** Later states, by steps of the allowed kinds. *)
Inductive wsteps (ok : wwho → Prop) : wstate → wstate → Prop :=
  | WS_refl s : wsteps ok s s
  | WS_step w s s' s'' : ok w → wstep w s s' → wsteps ok s' s'' → wsteps ok s s''.

(** ** The mempool wrapper as a function (mempool.go 32-54): [subscribers]: whether
    Subscribe was ever called (JSON-RPC is on); [conversion]: the error flag of
    ConvertCosmosTxToEthereumTx and the hash if the transaction is an Ethereum one; [inner]:
    whether the wrapped mempool accepts. Result: accepted, and the announcement made. *)
Definition mempool_insert (subscribers : bool) (conversion : option (option bytes)) (inner : bool) : bool * list fevent :=
  if subscribers then
    match conversion with
    | None => (false, [])
    | Some (Some h) => (inner, [FTx h])
    | Some None => (inner, [])
    end
  else (inner, []).
