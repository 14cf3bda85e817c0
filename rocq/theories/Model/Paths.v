(** The contexts of an execution, as a path (x/evm/state/statedb.go 560-590, 629-658; snapshot.go
    14-29). The current context is the newest of a chain of cache branches over the store the
    execution started with. Only the newest is written, so of every older one the content it had
    when the next was branched off is all there is to know.

    [pt_up]: the branches from the newest to the oldest, each with whether it is still in the list
    [snaps] and with the content of the context it was branched off. That this is what the
    snapshots over the multistore do is proved in Proofs/PathsP.v. *)
From Verif.Base Require Import Prelude.

Section paths.
Context {A : Type}.
Record path := Path { pt_cur : A; pt_up : list (bool * A) }.
Definition pt_set (p : path) (a : A) : path := Path a (pt_up p).
(** len(s.snaps) *)
Fixpoint pt_live (u : list (bool * A)) : nat :=
  match u with [] => 0 | (b, _) :: u' => (if b then 1 else 0) + pt_live u' end.
(** Snapshot (statedb.go 561-574) *)
Definition pt_snapshot (p : path) : path * Z :=
  (Path (pt_cur p) ((true, pt_cur p) :: pt_up p), (Z.of_nat (pt_live (pt_up p)) - 1)%Z).
(** The content of the store the execution started with. *)
Fixpoint pt_base (cur : A) (u : list (bool * A)) : A :=
  match u with [] => cur | (_, c) :: u' => pt_base c u' end.
(** snaps[i], which is then left out of [snaps] *)
Fixpoint pt_back (i : nat) (cur : A) (u : list (bool * A)) : option path :=
  match u with
  | [] => None
  | (b, c) :: u' => if b && (pt_live u' =? i)%nat then Some (Path cur ((false, c) :: u')) else pt_back i c u'
  end.
(** RevertToSnapshot (statedb.go 577-590); [None]: the index is out of range, a panic. *)
Definition pt_revert (p : path) (i : Z) : option path :=
  if (i =? -1)%Z then Some (Path (pt_base (pt_cur p) (pt_up p)) [])
  else if (i <? 0)%Z then None
  else pt_back (Z.to_nat i) (pt_cur p) (pt_up p).
(** Commit (statedb.go 648-655): each branch in [snaps], newest first, is written to the context
    it was branched off. The content of the store afterwards. *)
Fixpoint pt_flush (cur : A) (u : list (bool * A)) : A :=
  match u with [] => cur | (b, c) :: u' => pt_flush (if b then cur else c) u' end.
Definition pt_commit (p : path) : A := pt_flush (pt_cur p) (pt_up p).
End paths.
Arguments path : clear implicits.
