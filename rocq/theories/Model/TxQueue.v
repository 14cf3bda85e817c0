(** Submission of raw transactions: jsonrpc/backend/tx.go 39-112 (SendTx), with the LRU
    queue b.queuedTxs (backend.go 22, 43: hashicorp/golang-lru/v2, modelled by its
    documented behaviour) and the node's check state.

    Submissions of different senders interleave at every queue operation and broadcast;
    those of one sender run one at a time, because of the account lock (backend.go 67-105,
    proved in LockProps.v, C46). Not modelled here: decoding and conversion of the raw bytes
    (tx.go 40-68; see EthTx.v) - a submission starts with a converted transaction whose
    signature's sequence is its nonce. *)
From stdpp Require Import pretty.
From Coq Require Import Ascii String.
From Verif.Base Require Import Prelude Hex.
Open Scope list_scope.
Open Scope N_scope.

(** A converted transaction: the address of its public key, its sequence, its encoding
    (tx.go 50, 63-67). *)
Record qtx := mkQtx { qt_from : bytes; qt_nonce : N; qt_body : bytes }.
Global Instance qtx_eq_dec : EqDecision qtx.
Proof. solve_decision. Defined.

(** tx.go 87 and 92: fmt.Sprintf("%s-%d", senderHex, seq), senderHex by hexutil.Encode. *)
Definition dec_text (n : N) : text := N_of_ascii <$> list_ascii_of_string (pretty n).
Definition cache_key (a : bytes) (n : N) : text := hexutil_encode a ++ [45] ++ dec_text n.

(** The LRU cache, most recently used first. Add (tx.go 88) moves or inserts at the front
    and evicts the last entry when there are more than [cap]; Get (tx.go 93) moves to the
    front; Remove (tx.go 94). *)
Notation lru := (list (text * qtx)).
Definition lru_del (k : text) (q : lru) : lru := filter (λ e : text * qtx, e.1 ≠ k) q.
Definition lru_find (k : text) (q : lru) : option qtx := snd <$> head (filter (λ e : text * qtx, e.1 = k) q).
Definition lru_add (cap : nat) (k : text) (v : qtx) (q : lru) : lru := take cap ((k, v) :: lru_del k q).
Definition lru_touch (k : text) (v : qtx) (q : lru) : lru := (k, v) :: lru_del k q.

(** Where the sender's current call is. *)
Inductive phase :=
  | PStart (x : qtx)                    (* lock taken, tx.go 80 *)
  | PAdd (x : qtx) (acc : N)            (* tx.go 86-88 *)
  | PGet (acc : N)                      (* tx.go 92-93 *)
  | PRem (acc : N) (y : qtx)            (* tx.go 94 *)
  | PSend (acc : N) (y : qtx).          (* tx.go 97 *)

(** What can be seen from outside, in order. *)
Inductive ev :=
  | EvRead (x : qtx) (s : N)            (* a submission of [x] read account sequence [s] *)
  | EvQueued (x : qtx)
  | EvBroadcast (y : qtx) (ok : bool)
  | EvRefused (x : qtx) (s : N)         (* nonce too low *)
  | EvReturn (a : bytes) (ok : bool).
Global Instance ev_eq_dec : EqDecision ev.
Proof. solve_decision. Defined.
Definition ev_sender (e : ev) : bytes :=
  match e with
  | EvRead x _ | EvQueued x | EvRefused x _ => qt_from x
  | EvBroadcast y _ => qt_from y
  | EvReturn a _ => a
  end.

Record qst := mkQ {
  q_cap : nat;                          (* cfg.QueuedTransactionCap *)
  q_queue : lru;
  q_call : gmap bytes phase;            (* the active call of each sender *)
  q_seq : gmap bytes N;                 (* sequences in the node's check state; absent: no account *)
  q_trace : list ev                     (* oldest first *)
}.
Definition q_init (cap : nat) (seqs : gmap bytes N) : qst := mkQ cap [] ∅ seqs [].
(** tx.go 80-83: a missing account counts as sequence 0. *)
Definition acc_seq (s : qst) (a : bytes) : N := default 0 (q_seq s !! a).

(** One atomic step. The label says whose step it is: [None] for the environment. *)
Inductive qstep : option bytes → qst → qst → Prop :=
  (* tx.go 77 *)
  | Q_start s x : q_call s !! qt_from x = None →
      qstep (Some (qt_from x)) s
        (mkQ (q_cap s) (q_queue s) (<[qt_from x := PStart x]> (q_call s)) (q_seq s) (q_trace s))
  (* tx.go 80-85: too low *)
  | Q_low s a x : q_call s !! a = Some (PStart x) → qt_nonce x < acc_seq s a →
      qstep (Some a) s
        (mkQ (q_cap s) (q_queue s) (delete a (q_call s)) (q_seq s) (q_trace s ++ [EvRefused x (acc_seq s a)]))
  | Q_read s a x : q_call s !! a = Some (PStart x) → acc_seq s a ≤ qt_nonce x →
      qstep (Some a) s
        (mkQ (q_cap s) (q_queue s) (<[a := PAdd x (acc_seq s a)]> (q_call s)) (q_seq s)
             (q_trace s ++ [EvRead x (acc_seq s a)]))
  (* tx.go 87-88 *)
  | Q_add s a x acc : q_call s !! a = Some (PAdd x acc) →
      qstep (Some a) s
        (mkQ (q_cap s) (lru_add (q_cap s) (cache_key a (qt_nonce x)) x (q_queue s))
             (<[a := PGet acc]> (q_call s)) (q_seq s) (q_trace s ++ [EvQueued x]))
  (* tx.go 92-93 *)
  | Q_get s a acc y : q_call s !! a = Some (PGet acc) → lru_find (cache_key a acc) (q_queue s) = Some y →
      qstep (Some a) s
        (mkQ (q_cap s) (lru_touch (cache_key a acc) y (q_queue s))
             (<[a := PRem acc y]> (q_call s)) (q_seq s) (q_trace s))
  (* tx.go 104-105, 111 *)
  | Q_done s a acc : q_call s !! a = Some (PGet acc) → lru_find (cache_key a acc) (q_queue s) = None →
      qstep (Some a) s
        (mkQ (q_cap s) (q_queue s) (delete a (q_call s)) (q_seq s) (q_trace s ++ [EvReturn a true]))
  (* tx.go 94 *)
  | Q_rem s a acc y : q_call s !! a = Some (PRem acc y) →
      qstep (Some a) s
        (mkQ (q_cap s) (lru_del (cache_key a acc) (q_queue s))
             (<[a := PSend acc y]> (q_call s)) (q_seq s) (q_trace s))
  (* tx.go 97, 108: CheckTx accepts; its sequence check wants the account's sequence and
     increments it (uint64) *)
  | Q_ok s a acc y : q_call s !! a = Some (PSend acc y) → qt_nonce y = acc_seq s a →
      qstep (Some a) s
        (mkQ (q_cap s) (q_queue s) (<[a := PGet (u64_add acc 1)]> (q_call s))
             (<[a := u64_add (acc_seq s a) 1]> (q_seq s)) (q_trace s ++ [EvBroadcast y true]))
  (* tx.go 98-103: any other outcome *)
  | Q_err s a acc y : q_call s !! a = Some (PSend acc y) →
      qstep (Some a) s
        (mkQ (q_cap s) (q_queue s) (delete a (q_call s)) (q_seq s)
             (q_trace s ++ [EvBroadcast y false; EvReturn a false]))
  (* the node changes an account's sequence by itself: blocks, rechecks, other clients *)
  | Q_env s a n : n < two64 →
      qstep None s (mkQ (q_cap s) (q_queue s) (q_call s) (<[a := n]> (q_seq s)) (q_trace s)).

(** Reachable states; [env = false]: no sequence changed except by accepted broadcasts. *)
Inductive qreach (cap : nat) (seqs : gmap bytes N) (env : bool) : qst → Prop :=
  | QR_init : qreach cap seqs env (q_init cap seqs)
  | QR_step s s' l : qreach cap seqs env s → qstep l s s' → (env = false → l ≠ None) → qreach cap seqs env s'.

(** The events of one sender. *)
Definition events_of (a : bytes) (tr : list ev) : list ev := filter (λ e, ev_sender e = a) tr.
(** How often [x] was put in the queue, and broadcast. *)
Definition queued_times (x : qtx) (tr : list ev) : nat := length (filter (λ e, e = EvQueued x) tr).
Definition broadcast_times (x : qtx) (tr : list ev) : nat :=
  length (filter (λ e, e = EvBroadcast x true ∨ e = EvBroadcast x false) tr).
(** The nonces of the accepted broadcasts of [a]'s transactions, in order. *)
Definition accepted (a : bytes) (tr : list ev) : list N :=
  omap (λ e, match e with EvBroadcast y true => if decide (qt_from y = a) then Some (qt_nonce y) else None | _ => None end) tr.
