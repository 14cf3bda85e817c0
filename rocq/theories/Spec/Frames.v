(** Specification of nested call frames: what a user of the EVM expects.

    A frame that fails has no effect; a frame that succeeds has exactly the effect of its
    own writes and of the successful frames it called. No snapshots, contexts or stacks. *)
From Verif.Base Require Import Prelude.
From Verif.Model Require Import Snapshots.

Section frames.
Context {K V : Type} `{Countable K}.

Fixpoint sem (p : prog K V) (m : gmap K V) : bool * gmap K V :=
  match p with
  | Done ok => (ok, m)
  | Write k (Some v) p' => sem p' (<[k := v]> m)
  | Write k None p' => sem p' (delete k m)
  | Read k f => sem (f (m !! k)) m
  | Call c f =>
      match sem c m with
      | (true, m') => sem (f true) m'
      | (false, _) => sem (f false) m
      end
  end.

(** A whole execution: outcome and resulting persistent state. *)
Definition exec_spec (p : prog K V) (m : gmap K V) : bool * gmap K V :=
  match sem p m with
  | (true, m') => (true, m')
  | (false, _) => (false, m)
  end.

(** "No frame called (at any depth) by [p] fails when [p] is run on [m]". *)
Fixpoint inner_ok (p : prog K V) (m : gmap K V) : bool :=
  match p with
  | Done _ => true
  | Write k (Some v) p' => inner_ok p' (<[k := v]> m)
  | Write k None p' => inner_ok p' (delete k m)
  | Read k f => inner_ok (f (m !! k)) m
  | Call c f =>
      inner_ok c m &&
      match sem c m with
      | (true, m') => inner_ok (f true) m'
      | (false, _) => false
      end
  end.

(** A list of writes in sequence. *)
Definition writes (ws : list (K * V)) (p : prog K V) : prog K V :=
  foldr (fun kv p' => Write (fst kv) (Some (snd kv)) p') p ws.
Definition after_writes (ws : list (K * V)) (m : gmap K V) : gmap K V :=
  fold_left (fun m' kv => <[fst kv := snd kv]> m') ws m.

End frames.

(** Specification of the snapshot API by itself: saved copies of the whole state.
    [Snapshot] returns -1, 0, 1, … (the number of saved copies minus one); reverting to [i]
    restores the copy saved by the call that returned [i] and forgets it and later copies. *)
Section journal.
Context {K V : Type} `{Countable K}.

Record journal := Journal { j_cur : gmap K V; j_saved : list (gmap K V) }.

Definition jstep (j : journal) (o : dbop K V) : option journal :=
  match o with
  | OPut k (Some v) => Some (Journal (<[k := v]> (j_cur j)) (j_saved j))
  | OPut k None => Some (Journal (delete k (j_cur j)) (j_saved j))
  | OSnapshot => Some (Journal (j_cur j) (j_saved j ++ [j_cur j]))
  | ORevert i =>
      if (i <? -1)%Z then None
      else if (i =? -1)%Z then
        (* -1: the state the execution started with; the repository also accepts it when no
           snapshot was taken *)
        Some (Journal (default (j_cur j) (j_saved j !! 0)) [])
      else match j_saved j !! Z.to_nat (i + 1) with
           | None => None
           | Some w => Some (Journal w (take (Z.to_nat (i + 1)) (j_saved j)))
           end
  end.

Fixpoint jrun (j : journal) (t : list (dbop K V)) : option journal :=
  match t with
  | [] => Some j
  | o :: t' => match jstep j o with None => None | Some j' => jrun j' t' end
  end.

(** All reverts of the trace go to the outermost snapshot. *)
Definition only_outer (t : list (dbop K V)) : bool :=
  forallb (fun o => match o with ORevert i => (i =? -1)%Z | _ => true end) t.
End journal.
Arguments journal K V {_ _} : assert.
