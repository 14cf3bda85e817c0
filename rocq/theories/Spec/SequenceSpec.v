(** Histories of delivered transactions, and counting. *)
From Verif.Base Require Import Prelude.
From Verif.Model Require Import Sequence.
Local Open Scope Z_scope.

(** Number of occurrences. *)
Fixpoint count {A} `{EqDecision A} (x : A) (l : list A) : Z :=
  match l with [] => 0 | y :: l' => (if decide (y = x) then 1 else 0) + count x l' end.
(** How often a list of effects advances an account. *)
Definition eff_addr (x : effect) : bytes := match x with XBump a | XDeploy a => a end.

Section hist.
Variable decode : string -> bytes.
(** Every sender of an EVM message has a 20-byte address. *)
Definition senders20 (t : tx) : Prop :=
  forall m s, m ∈ t_msgs t -> evm_sender m = Some s -> length (decode s) = 20%nat.
(** Within the transaction an address is written in one way only. *)
Definition canonical (t : tx) : Prop :=
  forall s s', s ∈ omap evm_sender (t_msgs t) -> s' ∈ omap evm_sender (t_msgs t) -> decode s = decode s' -> s = s'.
(** A block history: transactions that were delivered (rejected ones leave no trace), all
    satisfying [P]; failed ones keep the post handler's writes. The deployments made are
    collected. *)
Inductive hist (P : tx -> Prop) : seqs -> seqs -> list (bytes * Z) -> Prop :=
| hist_nil st : hist P st st []
| hist_step st t o st1 d1 st2 d2 :
    P t -> outcome_fits t o -> o <> Failed false ->
    deliver decode st t o = Some (st1, d1) -> hist P st1 st2 d2 -> hist P st st2 (d1 ++ d2).
End hist.
