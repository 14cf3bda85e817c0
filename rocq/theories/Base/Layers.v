(** The multistore and its cache branches.

    cosmos-sdk (not in /repo): [sdk.Context.CacheContext()] returns a context whose
    store reads through to the parent's store and buffers writes, and a function that
    writes the buffer to the parent (and empties it).  It is used by
    x/evm/state/snapshot.go:14-21 and by every [CacheContext] call site.

    A context is identified by a number: 0 is the store the execution started with,
    [S n] is the n-th branch that was ever created.  Branches are never garbage
    collected in the model, exactly as a Go pointer stays valid while referenced.
    Simplification: cachekv also caches clean reads; that is only observable when a
    parent is written while a child is in use. *)
From Verif.Base Require Import Prelude.

Section layers.
Context {K V : Type} `{Countable K}.

(** [Some v] = buffered write, [None] = buffered deletion. *)
Local Notation delta := (gmap K (option V)).

Record layer := Layer { l_parent : nat; l_delta : delta }.
Record mstore := MStore { m_base : gmap K V; m_layers : list layer }.

Definition apply_delta (d : delta) (m : gmap K V) : gmap K V :=
  merge (fun (dv : option (option V)) (mv : option V) =>
           match dv with Some o => o | None => mv end) d m.

(** The content visible through context [c]. A branch is always created from an older
    context, so [c] steps of fuel suffice ([Layers.view_S] in Proofs/LayersP.v). *)
Fixpoint view_fuel (fuel : nat) (ms : mstore) (c : nat) : gmap K V :=
  match c, fuel with
  | 0, _ => m_base ms
  | S n, 0 => m_base ms
  | S n, S f =>
      match m_layers ms !! n with
      | None => m_base ms
      | Some l => apply_delta (l_delta l) (view_fuel f ms (l_parent l))
      end
  end.
Definition view (ms : mstore) (c : nat) : gmap K V := view_fuel c ms c.

Definition read (ms : mstore) (c : nat) (k : K) : option V := view ms c !! k.

Definition upd_layer (ms : mstore) (n : nat) (f : delta -> delta) : mstore :=
  MStore (m_base ms)
    (alter (fun l => Layer (l_parent l) (f (l_delta l))) n (m_layers ms)).

(** [o = Some v]: Set; [o = None]: Remove. *)
Definition write (ms : mstore) (c : nat) (k : K) (o : option V) : mstore :=
  match c with
  | 0 => MStore (match o with Some v => <[k := v]> (m_base ms) | None => delete k (m_base ms) end)
                (m_layers ms)
  | S n => upd_layer ms n (fun d => <[k := o]> d)
  end.

(** CacheContext: a fresh empty branch on top of [c]. *)
Definition branch (ms : mstore) (c : nat) : mstore * nat :=
  (MStore (m_base ms) (m_layers ms ++ [Layer c ∅]), S (length (m_layers ms))).

(** The write function returned by CacheContext. *)
Definition flush (ms : mstore) (c : nat) : mstore :=
  match c with
  | 0 => ms
  | S n =>
      match m_layers ms !! n with
      | None => ms
      | Some l =>
          let ms1 := match l_parent l with
                     | 0 => MStore (apply_delta (l_delta l) (m_base ms)) (m_layers ms)
                     | S p => upd_layer ms p (fun d => l_delta l ∪ d)
                     end in
          upd_layer ms1 n (fun _ => ∅)
      end
  end.

(** Every branch was created from an older context. *)
Definition wf (ms : mstore) : Prop :=
  forall n l, m_layers ms !! n = Some l -> l_parent l <= n.

End layers.
Arguments layer K V {_ _} : assert.
Arguments mstore K V {_ _} : assert.
