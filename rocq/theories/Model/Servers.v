(** A node's two JSON-RPC endpoints: cmd/minitiad/root.go 171-196 starts the HTTP server and the
    websocket server by two calls of StartJSONRPC (jsonrpc/jsonrpc.go 46-187), each of which makes
    its own backend (jsonrpc.go 66; backend.go 37-65) with its own queue of waiting transactions and
    its own account locks. Submissions at either endpoint are those of Model/TxQueue.v; the node
    behind them, with the account sequences of its check state, is one.

    [n_log]: what was seen at which endpoint, in order. Both endpoints have the same configuration
    (root.go 177, 188), hence the same capacity. *)
From Verif.Base Require Import Prelude Hex.
From Verif.Model Require Import TxQueue.
Open Scope N_scope.

Inductive endpoint := Http | Ws.
Global Instance endpoint_eq_dec : EqDecision endpoint.
Proof. solve_decision. Defined.
Definition other (b : endpoint) : endpoint := match b with Http => Ws | Ws => Http end.
Record node := Node { n_http : qst; n_ws : qst; n_log : list (endpoint * ev) }.
Definition at_end (n : node) (b : endpoint) : qst := match b with Http => n_http n | Ws => n_ws n end.
(** The account sequences are the node's, and seen by both. *)
Definition with_seq (s : qst) (q : gmap bytes N) : qst := mkQ (q_cap s) (q_queue s) (q_call s) q (q_trace s).
Definition new_events (s s' : qst) : list ev := drop (length (q_trace s)) (q_trace s').
Definition put_end (n : node) (b : endpoint) (s : qst) : node :=
  let log := n_log n ++ map (pair b) (new_events (at_end n b) s) in
  match b with
  | Http => Node s (with_seq (n_ws n) (q_seq s)) log
  | Ws => Node (with_seq (n_http n) (q_seq s)) s log
  end.
Definition node_init (cap : nat) (seqs : gmap bytes N) : node := Node (q_init cap seqs) (q_init cap seqs) [].

(** A step of a submission of [a] at an endpoint, or the node changing a sequence by itself. *)
Inductive nstep : option (endpoint * bytes) → node → node → Prop :=
  | N_end n b a s : qstep (Some a) (at_end n b) s → nstep (Some (b, a)) n (put_end n b s)
  | N_env n a v : v < two64 →
      nstep None n (Node (with_seq (n_http n) (<[a := v]> (q_seq (n_http n))))
                         (with_seq (n_ws n) (<[a := v]> (q_seq (n_ws n)))) (n_log n)).
(** Histories all of whose steps are as [P] allows. *)
Inductive nreach (cap : nat) (seqs : gmap bytes N) (P : option (endpoint * bytes) → Prop) : node → Prop :=
  | NR_init : nreach cap seqs P (node_init cap seqs)
  | NR_step n n' l : nreach cap seqs P n → nstep l n n' → P l → nreach cap seqs P n'.
