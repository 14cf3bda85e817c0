(** x/evm/state/statedb.go: snapshot stack of the StateDB.

    [db_store]  the multistore with its branches;
    [db_ctx]    the field [ctx]  (statedb.go:37);
    [db_snaps]  the field [snaps] (statedb.go:56): contexts of the snapshots, oldest first.
    The field [initialCtx] (statedb.go:38) is the context 0. *)
From Verif.Base Require Import Prelude Layers.

Section snapshots.
Context {K V : Type} `{Countable K}.

Record sdb := SDB { db_store : mstore K V; db_ctx : nat; db_snaps : list nat }.

(** NewStateDB (statedb.go:63-119), the part about contexts. *)
Definition new_sdb (m : gmap K V) : sdb := SDB (MStore m []) 0 [].

Definition db_view (s : sdb) : gmap K V := view (db_store s) (db_ctx s).
Definition db_get (s : sdb) (k : K) : option V := read (db_store s) (db_ctx s) k.
Definition db_put (s : sdb) (k : K) (o : option V) : sdb :=
  SDB (write (db_store s) (db_ctx s) k o) (db_ctx s) (db_snaps s).

(** Snapshot (statedb.go:561-574) with NewSnapshot (snapshot.go:14-21). *)
Definition snapshot (s : sdb) : sdb * Z :=
  let sid := (Z.of_nat (length (db_snaps s)) - 1)%Z in
  let '(ms, c) := branch (db_store s) (db_ctx s) in
  (SDB ms c (db_snaps s ++ [c]), sid).

(** RevertToSnapshot (statedb.go:577-590). An index outside the slice makes Go panic:
    [None]. *)
Definition revert_to (s : sdb) (i : Z) : option sdb :=
  if (i =? -1)%Z then Some (SDB (db_store s) 0 [])
  else if (i <? 0)%Z then None
  else match db_snaps s !! Z.to_nat i with
       | None => None
       | Some c => Some (SDB (db_store s) c (take (Z.to_nat i) (db_snaps s)))
       end.

(** The commit loop of Commit (statedb.go:648-655): newest snapshot first, then
    [ctx = initialCtx].  The slice [snaps] itself is kept. *)
Definition flush_all (s : sdb) : sdb :=
  SDB (fold_left flush (rev (db_snaps s)) (db_store s)) 0 (db_snaps s).

(** A repaired RevertToSnapshot, keeping [snaps[:i+1]]: NOT the code in /repo, used to show
    that this is the only defect of the snapshot stack. *)
Definition revert_to_repaired (s : sdb) (i : Z) : option sdb :=
  if (i =? -1)%Z then Some (SDB (db_store s) 0 [])
  else if (i <? 0)%Z then None
  else match db_snaps s !! Z.to_nat i with
       | None => None
       | Some c => Some (SDB (db_store s) c (take (S (Z.to_nat i)) (db_snaps s)))
       end.

(** A contract execution, as seen by the state database: an adaptive program that reads,
    writes, calls other frames (go-ethereum's EVM.Call/Create: snapshot, run the callee,
    revert to the snapshot if it failed, report the outcome to the caller) and finally
    succeeds or fails.  The shape of the tree, the values written and the branching on what
    was read are arbitrary. *)
Inductive prog :=
| Done (ok : bool)
| Write (k : K) (o : option V) (next : prog)
| Read (k : K) (next : option V -> prog)
| Call (child : prog) (next : bool -> prog).

(** EVM.Call of go-ethereum on top of a [StateDB] whose revert operation is [rv]. *)
Fixpoint run (rv : sdb -> Z -> option sdb) (p : prog) (s : sdb) : option (bool * sdb) :=
  match p with
  | Done ok => Some (ok, s)
  | Write k o p' => run rv p' (db_put s k o)
  | Read k f => run rv (f (db_get s k)) s
  | Call c f =>
      let '(s1, sid) := snapshot s in
      match run rv c s1 with
      | None => None
      | Some (true, s2) => run rv (f true) s2
      | Some (false, s2) =>
          match rv s2 sid with
          | None => None
          | Some s3 => run rv (f false) s3
          end
      end
  end.

(** EVMCallWithTracer (x/evm/keeper/context.go:241-318), state effects only: run the
    top-level frame; on failure nothing is committed, on success Commit.  The result is the
    outcome and the content of the store the execution was started with. *)
Definition exec_with (rv : sdb -> Z -> option sdb) (p : prog) (m : gmap K V)
  : option (bool * gmap K V) :=
  match run rv (Call p Done) (new_sdb m) with
  | None => None
  | Some (true, s) => Some (true, m_base (db_store (flush_all s)))
  | Some (false, s) => Some (false, m_base (db_store s))
  end.
Definition exec := exec_with revert_to.
Definition exec_repaired := exec_with revert_to_repaired.

End snapshots.
Arguments sdb K V {_ _} : assert.
Arguments prog : clear implicits.

(** The snapshot API driven by an arbitrary client. *)
Section client.
Context {K V : Type} `{Countable K}.
Inductive dbop :=
| OPut (k : K) (o : option V)
| OSnapshot
| ORevert (i : Z).
Definition db_step (rv : sdb K V -> Z -> option (sdb K V)) (s : sdb K V) (o : dbop) : option (sdb K V) :=
  match o with
  | OPut k o => Some (db_put s k o)
  | OSnapshot => Some (fst (snapshot s))
  | ORevert i => rv s i
  end.
Fixpoint db_run (rv : sdb K V -> Z -> option (sdb K V)) (s : sdb K V) (t : list dbop) : option (sdb K V) :=
  match t with
  | [] => Some s
  | o :: t' => match db_step rv s o with None => None | Some s' => db_run rv s' t' end
  end.
End client.
Arguments dbop : clear implicits.
