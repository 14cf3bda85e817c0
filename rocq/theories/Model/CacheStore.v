(** The indexer's cached key-value store: indexer/store.go. A write-back buffer
    (cachekv) over the database, with a size-bounded read cache (bigcache) in front. *)
From Verif.Base Require Import Prelude.
From stdpp Require Import sorting.
Open Scope nat_scope.

Notation kvmap := (gmap bytes bytes).

(** store.go 16-19. [cs_db]: the database; [cs_dirty]: the unwritten entries of the
    cachekv store ([None] = deleted); [cs_cache]: the contents of the read cache.
    cachekv's memory of clean reads is not modelled (nobody else writes the database). *)
Record cstore := mkCStore {
  cs_db : kvmap;
  cs_dirty : gmap bytes (option bytes);
  cs_cache : kvmap
}.

(** store.go 21-36, NewCacheStore over the database [db]. *)
Definition new_cache_store (db : kvmap) : cstore := mkCStore db ∅ ∅.

(** cosmossdk.io/store/cachekv Get. *)
Definition kv_get (s : cstore) (k : bytes) : option bytes :=
  match cs_dirty s !! k with Some o => o | None => cs_db s !! k end.

(** bigcache Set: when it succeeds the entry is present, when it fails
    (entry larger than a shard) the previous entry of that key is gone too. *)
Definition cache_set (ok : bool) (c : kvmap) (k v : bytes) : kvmap :=
  if ok then <[k := v]> c else delete k c.

(** Calls of the store and what the environment may do between and during them.
    [cache_ok] says whether the call of bigcache Set inside the operation succeeds.
    [EvEvict D]: bigcache drops the entries [D] at any time, by age or for space.
    [EvCrash]: the process stops and is started again on the same database.
    [EvCrashInWrite D]: it stops while Write is running, having written the keys of [D]. *)
Inductive cop :=
  | CGet (k : bytes) (cache_ok : bool)
  | CHas (k : bytes) (cache_ok : bool)
  | CSet (k v : bytes) (cache_ok : bool)
  | CDelete (k : bytes)
  | CIterate (start stop : option bytes) (reverse : bool)
  | CWrite
  | EvEvict (D : gset bytes)
  | EvCrash
  | EvCrashInWrite (D : gset bytes).

Inductive cres :=
  | RVal (v : option bytes)              (* Get; [None] is Go's nil *)
  | RBool (b : bool)
  | ROk
  | RErr
  | RList (l : list (bytes * bytes))     (* what the iterator yields until exhausted *)
  | RNone.

(** store.go 39-56 *)
Definition cs_get (s : cstore) (k : bytes) (ok : bool) : cres * cstore :=
  match cs_cache s !! k with
  | Some v => (RVal (Some v), s)
  | None =>
      match kv_get s k with
      | None => (RVal None, s)
      | Some v => (RVal (Some v), mkCStore (cs_db s) (cs_dirty s) (cache_set ok (cs_cache s) k v))
      end
  end.

(** store.go 59-74 *)
Definition cs_has (s : cstore) (k : bytes) (ok : bool) : cres * cstore :=
  match cs_cache s !! k with
  | Some _ => (RBool true, s)
  | None =>
      match kv_get s k with
      | None => (RBool false, s)
      | Some v => (RBool true, mkCStore (cs_db s) (cs_dirty s) (cache_set ok (cs_cache s) k v))
      end
  end.

(** store.go 77-88 *)
Definition cs_set (s : cstore) (k v : bytes) (ok : bool) : cres * cstore :=
  let c := cache_set ok (cs_cache s) k v in
  if ok then (ROk, mkCStore (cs_db s) (<[k := Some v]> (cs_dirty s)) c)
  else (RErr, mkCStore (cs_db s) (cs_dirty s) c).

(** store.go 91-101. bigcache Delete reports ErrEntryNotFound exactly when the key is
    not cached, and that is the error on which line 95 returns. *)
Definition cs_delete (s : cstore) (k : bytes) : cres * cstore :=
  match cs_cache s !! k with
  | None => (RErr, s)
  | Some _ => (ROk, mkCStore (cs_db s) (<[k := None]> (cs_dirty s)) (delete k (cs_cache s)))
  end.

(** bytes.Compare a b <= 0 *)
Fixpoint bytes_leb (a b : bytes) : bool :=
  match a, b with
  | [], _ => true
  | _ :: _, [] => false
  | x :: a', y :: b' => if (x <? y)%N then true else if (y <? x)%N then false else bytes_leb a' b'
  end.

(** What the cachekv store holds over the database: its keys and values. *)
Definition kv_all (s : cstore) : kvmap :=
  merge (fun (d : option (option bytes)) (b : option bytes) =>
           match d with Some o => o | None => b end) (cs_dirty s) (cs_db s).

(** store.go 109-121: Iterator and ReverseIterator of the cachekv store, over
    start <= key < stop in key order. *)
Definition in_range (start stop : option bytes) (k : bytes) : bool :=
  match start with None => true | Some a => bytes_leb a k end &&
  match stop with None => true | Some b => negb (bytes_leb b k) end.
Definition kv_iter (s : cstore) (start stop : option bytes) (rv : bool) : list (bytes * bytes) :=
  let l := merge_sort (fun x y => Is_true (bytes_leb x.1 y.1))
             (filter (fun kv => Is_true (in_range start stop kv.1)) (map_to_list (kv_all s))) in
  if rv then reverse l else l.

(** store.go 123-125; cachekv Write puts every dirty entry into the database. *)
Definition cs_write (s : cstore) : cstore := mkCStore (kv_all s) ∅ (cs_cache s).

(** The database when Write was interrupted after the keys of [D]. *)
Definition partial_db (D : gset bytes) (s : cstore) : kvmap :=
  merge (fun (d : option (option bytes)) (b : option bytes) =>
           match d with Some o => o | None => b end)
        (filter (fun kv => kv.1 ∈ D) (cs_dirty s)) (cs_db s).

Definition cstep (s : cstore) (o : cop) : cres * cstore :=
  match o with
  | CGet k ok => cs_get s k ok
  | CHas k ok => cs_has s k ok
  | CSet k v ok => cs_set s k v ok
  | CDelete k => cs_delete s k
  | CIterate a b r => (RList (kv_iter s a b r), s)
  | CWrite => (RNone, cs_write s)
  | EvEvict D => (RNone, mkCStore (cs_db s) (cs_dirty s) (filter (fun kv => kv.1 ∉ D) (cs_cache s)))
  | EvCrash => (RNone, new_cache_store (cs_db s))
  | EvCrashInWrite D => (RNone, new_cache_store (partial_db D s))
  end.

(** A history: the events in the order they happened and what each returned. *)
Fixpoint crun (s : cstore) (l : list cop) : list (cop * cres) * cstore :=
  match l with
  | [] => ([], s)
  | o :: l' =>
      let '(r, s1) := cstep s o in
      let '(h, s2) := crun s1 l' in
      ((o, r) :: h, s2)
  end.
