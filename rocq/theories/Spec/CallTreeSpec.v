(** What a contract developer expects of calls with value: a plain ledger, where a payment that
    cannot be made, or a frame that fails, fails that frame and nothing else. *)
From Verif.Base Require Import Prelude Hex.
From Verif.Model Require Import Token CallTree.
Open Scope Z_scope.

Record ledger := Ledger { l_bal : bytes → Z; l_sto : gmap (bytes * Z) Z; l_ev : list event }.
Definition pay (l : ledger) (a b : bytes) (v : Z) : ledger :=
  Ledger (fun x => l_bal l x - (if bool_decide (x = a) then v else 0) + (if bool_decide (x = b) then v else 0))
         (l_sto l) (l_ev l).
Definition note (l : ledger) (e : list event) : ledger := Ledger (l_bal l) (l_sto l) (l_ev l ++ e).

(** What the ledger can tell of a run: all of it, or that it comes to a call with value to an
    address that cannot be paid, or that it comes to a call that fails while its caller goes on. *)
Inductive outcome := Told | PaysBlocked | CatchesFailure.
Definition result : Type := outcome * bool * ledger.
(** After a call that failed: a caller that fails at once too is no different from one that was
    never called. *)
Definition after_failure (p : prog) (l : ledger) : result :=
  match p with PRevert => (Told, false, l) | _ => (CatchesFailure, false, l) end.

(** What a read-only run of [p] as [self] answers: it only looks; whatever would change
    something fails. *)
Fixpoint peek (p : prog) (self : bytes) (l : ledger) : result :=
  match p with
  | PStop => (Told, true, l)
  | PRevert | PStore _ _ _ | PLog _ _ | PDestruct _ => (Told, false, l)
  | PLoad x k => peek (k (default 0 (l_sto l !! (self, x)))) self l
  | PBalance a k => peek (k (l_bal l a)) self l
  | PSend _ _ k => after_failure (k false) l
  | PCall to v body k =>
      if decide (v = 0) then
        match peek body to l with
        | (Told, true, _) => peek (k true) self l
        | (Told, false, _) => after_failure (k false) l
        | r => r
        end
      else (Told, false, l)
  | PDelegate body k =>
      match peek body self l with
      | (Told, true, _) => peek (k true) self l
      | (Told, false, _) => after_failure (k false) l
      | r => r
      end
  | PStatic to body k =>
      match peek body to l with
      | (Told, true, _) => peek (k true) self l
      | (Told, false, _) => after_failure (k false) l
      | r => r
      end
  end.

(** The run of [p] as [self]: whether the frame succeeded, and the ledger. [blk]: the addresses
    that cannot be paid. *)
Fixpoint eth (blk : bytes → bool) (p : prog) (self : bytes) (l : ledger) : result :=
  match p with
  | PStop => (Told, true, l)
  | PRevert => (Told, false, l)
  | PStore x v k => eth blk k self (Ledger (l_bal l) (<[(self, x) := v]> (l_sto l)) (l_ev l))
  | PLoad x k => eth blk (k (default 0 (l_sto l !! (self, x)))) self l
  | PLog n k => eth blk k self (note l [EUser self n])
  | PBalance a k => eth blk (k (l_bal l a)) self l
  | PSend to v k =>
      if decide (v <= l_bal l self) then
        if blk to then after_failure (k false) l
        else eth blk (k true) self (note (pay l self to v) [EMoved self to v])
      else after_failure (k false) l
  | PCall to v body k =>
      if decide (v ≠ 0 ∧ l_bal l self < v) then eth blk (k false) self l     (* not even called *)
      else if decide (v ≠ 0 ∧ blk to = true) then (PaysBlocked, false, l)
      else
        match eth blk body to (if decide (v = 0) then l else note (pay l self to v) [EMoved self to v]) with
        | (Told, true, l1) => eth blk (k true) self l1
        | (Told, false, _) => after_failure (k false) l
        | r => r
        end
  | PDelegate body k =>
      match eth blk body self l with
      | (Told, true, l1) => eth blk (k true) self l1
      | (Told, false, _) => after_failure (k false) l
      | r => r
      end
  | PStatic to body k =>
      match peek body to l with
      | (Told, true, _) => eth blk (k true) self l
      | (Told, false, _) => after_failure (k false) l
      | r => r
      end
  | PDestruct heir =>
      let v := l_bal l self in
      (Told, true, if decide (v = 0) then l
                   else note (pay l self heir v) [EMoved self null_addr v; EMoved null_addr heir v])
  end.

(** Code that never catches: whenever a call of it fails, it fails at once. *)
Fixpoint never_catches (p : prog) : Prop :=
  match p with
  | PStop | PRevert | PDestruct _ => True
  | PStore _ _ k | PLog _ k => never_catches k
  | PLoad _ k | PBalance _ k => ∀ x, never_catches (k x)
  | PSend _ _ k => never_catches (k true) ∧ k false = PRevert
  | PCall _ _ body k | PDelegate body k | PStatic _ body k =>
      never_catches body ∧ never_catches (k true) ∧ k false = PRevert
  end.
