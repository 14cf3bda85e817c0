(** What a key-value store means: two maps, the current contents and the contents that
    survive a crash, and what a caller must see. Only the calls and their answers occur
    here. *)
From Verif.Base Require Import Prelude.
From Verif.Model Require Import CacheStore.

Record kvspec := mkKV { now : kvmap; durable : kvmap }.

(** The contents after an event. A refused call changes nothing. *)
Definition spec_step (s : kvspec) (e : cop * cres) : kvspec :=
  match e with
  | (CSet k v _, ROk) => mkKV (<[k := v]> (now s)) (durable s)
  | (CDelete k, ROk) => mkKV (delete k (now s)) (durable s)
  | (CWrite, _) => mkKV (now s) (now s)
  | (EvCrash, _) => mkKV (durable s) (durable s)
  | (EvCrashInWrite D, _) =>
      (* each key of D has its new contents, every other key its old ones *)
      let m := map_union (filter (fun kv => kv.1 ∈ D) (now s))
                         (filter (fun kv => kv.1 ∉ D) (durable s)) in
      mkKV m m
  | _ => s
  end.
Definition spec_after (db : kvmap) (h : list (cop * cres)) : kvspec :=
  fold_left spec_step h (mkKV db db).

(** A key-sorted list of exactly the entries of [m] between the bounds. *)
Definition lists_range (m : kvmap) (a b : option bytes) (r : bool) (l : list (bytes * bytes)) : Prop :=
  NoDup l ∧
  (∀ k v, (k, v) ∈ l ↔ m !! k = Some v ∧
      (∀ x, a = Some x → bytes_leb x k = true) ∧ (∀ x, b = Some x → bytes_leb x k = false)) ∧
  (∀ i j x y, i < j → l !! i = Some x → l !! j = Some y →
      x.1 ≠ y.1 ∧ bytes_leb (if r then y.1 else x.1) (if r then x.1 else y.1) = true).

(** The answer a call must give when the current contents are [m]. *)
Definition answer_ok (m : kvmap) (e : cop * cres) : Prop :=
  match e with
  | (CGet k _, r) => r = RVal (m !! k)
  | (CHas k _, r) => r = RBool (bool_decide (is_Some (m !! k)))
  | (CIterate a b rv, r) => ∃ l, r = RList l ∧ lists_range m a b rv l
  | _ => True
  end.
