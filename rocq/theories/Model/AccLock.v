(** Per-account submission locks: jsonrpc/backend/backend.go 67-105. Any number of request
    threads run acquireAccMut, the critical section and releaseAccMut; each constructor of
    [pc] is a point between two steps another thread can interleave with. *)
From Verif.Base Require Import Prelude.
Open Scope nat_scope.

Definition tid := nat.      (* a request *)
Definition acct := bytes.   (* senderHex *)
Definition mid := nat.      (* an AccMut object *)

(** backend.go 67-70. [am_held]: the thread holding [mut]. *)
Record accmut := mkAM { am_rc : Z; am_held : option tid }.

(** Where a request is. The [mid] in [InCS] and [RelRead] is the object it has locked;
    the code does not keep it: releaseAccMut looks it up again (line 92). *)
Inductive pc :=
  | AcqLock (a : acct)               (* line 76: about to take b.mut *)
  | AcqLook (a : acct)               (* line 77-81, holding b.mut *)
  | AcqUnlock (a : acct) (m : mid)   (* line 82-83: rc incremented, holding b.mut *)
  | AcqWait (a : acct) (m : mid)     (* line 86: about to take the account's mutex *)
  | InCS (a : acct) (m : mid)        (* the caller's critical section *)
  | RelRead (a : acct) (m : mid)     (* line 92: about to read the map, not holding b.mut *)
  | RelUnlock (a : acct) (m : mid)   (* line 93: about to release the object found *)
  | RelLock (a : acct) (m : mid)     (* line 96: about to take b.mut *)
  | RelDec (a : acct) (m : mid)      (* line 97-100, holding b.mut *)
  | RelDone (a : acct).              (* line 101, holding b.mut *)

Record lockst := mkL {
  l_global : option tid;             (* holder of b.mut *)
  l_map : gmap acct mid;             (* b.accMuts *)
  l_objs : gmap mid accmut;          (* every AccMut ever created *)
  l_pc : gmap tid pc;                (* the active requests *)
  l_panic : bool                     (* a nil dereference or an unlock of an unlocked mutex *)
}.
Definition l_init : lockst := mkL None ∅ ∅ ∅ false.

Definition goto (s : lockst) (t : tid) (p : pc) : lockst :=
  mkL (l_global s) (l_map s) (l_objs s) (<[t := p]> (l_pc s)) (l_panic s).

(** One step of one thread. *)
Inductive lstep : lockst → lockst → Prop :=
  (* SendTx calls acquireAccMut (tx.go 77) *)
  | L_start s t a : l_pc s !! t = None → lstep s (goto s t (AcqLock a))
  (* backend.go 76 *)
  | L_acq_lock s t a : l_pc s !! t = Some (AcqLock a) → l_global s = None →
      lstep s (mkL (Some t) (l_map s) (l_objs s) (<[t := AcqLook a]> (l_pc s)) (l_panic s))
  (* backend.go 77-82: found, or created *)
  | L_found s t a m o : l_pc s !! t = Some (AcqLook a) → l_map s !! a = Some m → l_objs s !! m = Some o →
      lstep s (mkL (l_global s) (l_map s) (<[m := mkAM (am_rc o + 1) (am_held o)]> (l_objs s))
                   (<[t := AcqUnlock a m]> (l_pc s)) (l_panic s))
  | L_create s t a m : l_pc s !! t = Some (AcqLook a) → l_map s !! a = None → l_objs s !! m = None →
      lstep s (mkL (l_global s) (<[a := m]> (l_map s)) (<[m := mkAM 1 None]> (l_objs s))
                   (<[t := AcqUnlock a m]> (l_pc s)) (l_panic s))
  (* backend.go 83 *)
  | L_acq_unlock s t a m : l_pc s !! t = Some (AcqUnlock a m) →
      lstep s (mkL None (l_map s) (l_objs s) (<[t := AcqWait a m]> (l_pc s)) (l_panic s))
  (* backend.go 86 *)
  | L_enter s t a m o : l_pc s !! t = Some (AcqWait a m) → l_objs s !! m = Some o → am_held o = None →
      lstep s (mkL (l_global s) (l_map s) (<[m := mkAM (am_rc o) (Some t)]> (l_objs s))
                   (<[t := InCS a m]> (l_pc s)) (l_panic s))
  (* the deferred releaseAccMut starts (tx.go 78) *)
  | L_leave s t a m : l_pc s !! t = Some (InCS a m) → lstep s (goto s t (RelRead a m))
  (* backend.go 92: whatever the map now holds; nil is dereferenced at 93 *)
  | L_rel_read s t a m m' : l_pc s !! t = Some (RelRead a m) → l_map s !! a = Some m' →
      lstep s (goto s t (RelUnlock a m'))
  | L_rel_nil s t a m : l_pc s !! t = Some (RelRead a m) → l_map s !! a = None →
      lstep s (mkL (l_global s) (l_map s) (l_objs s) (l_pc s) true)
  (* backend.go 93: sync.Mutex is not owned by a thread; unlocking an unlocked one is fatal *)
  | L_rel_unlock s t a m o : l_pc s !! t = Some (RelUnlock a m) → l_objs s !! m = Some o → am_held o ≠ None →
      lstep s (mkL (l_global s) (l_map s) (<[m := mkAM (am_rc o) None]> (l_objs s))
                   (<[t := RelLock a m]> (l_pc s)) (l_panic s))
  | L_rel_unlocked s t a m o : l_pc s !! t = Some (RelUnlock a m) → l_objs s !! m = Some o → am_held o = None →
      lstep s (mkL (l_global s) (l_map s) (l_objs s) (l_pc s) true)
  (* backend.go 96 *)
  | L_rel_lock s t a m : l_pc s !! t = Some (RelLock a m) → l_global s = None →
      lstep s (mkL (Some t) (l_map s) (l_objs s) (<[t := RelDec a m]> (l_pc s)) (l_panic s))
  (* backend.go 97-100 *)
  | L_rel_dec s t a m o : l_pc s !! t = Some (RelDec a m) → l_objs s !! m = Some o →
      lstep s (mkL (l_global s) (if (am_rc o - 1 =? 0)%Z then delete a (l_map s) else l_map s)
                   (<[m := mkAM (am_rc o - 1) (am_held o)]> (l_objs s))
                   (<[t := RelDone a]> (l_pc s)) (l_panic s))
  (* backend.go 101 and return *)
  | L_rel_done s t a : l_pc s !! t = Some (RelDone a) →
      lstep s (mkL None (l_map s) (l_objs s) (delete t (l_pc s)) (l_panic s)).

Inductive lreach : lockst → Prop :=
  | LR_init : lreach l_init
  | LR_step s s' : lreach s → lstep s s' → lreach s'.

(** A thread about to touch the map while another is about to write it: in Go, an
    unsynchronised map access, which the runtime may turn into a fatal error. *)
Definition reads_map (p : pc) : Prop := ∃ a m, p = RelRead a m.
Definition writes_map (s : lockst) (p : pc) : Prop :=
  (∃ a, p = AcqLook a ∧ l_map s !! a = None) ∨
  (∃ a m o, p = RelDec a m ∧ l_objs s !! m = Some o ∧ am_rc o = 1%Z).
Definition map_race (s : lockst) : Prop :=
  ∃ t1 t2 p1 p2, t1 ≠ t2 ∧ l_pc s !! t1 = Some p1 ∧ l_pc s !! t2 = Some p2 ∧ reads_map p1 ∧ writes_map s p2.
