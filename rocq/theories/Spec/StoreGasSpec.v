(** Ethereum's rules for storage gas and refunds (EIP-2200, 2929, 3529), and what the programs of
    Model/StoreGas.v do under them: the committed value is the one of the beginning, a failed call
    leaves nothing, refunds are plain numbers. *)
From Verif.Base Require Import Prelude.
From Verif.Model Require Import StoreGas.
Local Open Scope N_scope.

Record est := Est { e_slots : gmap slot N; e_refund : Z }.

(** SSTORE of [v] over [c], [o] at the beginning of the transaction *)
Definition eip_gas (o c v : N) : N :=
  if bool_decide (c = v) then 100
  else if bool_decide (c = o) then (if bool_decide (o = 0) then 20000 else 2900)
  else 100.
Definition eip_refund (o c v : N) : Z :=
  if bool_decide (c = v) then 0%Z
  else Z.add (Z.add (if bool_decide (o ≠ 0 ∧ c = 0) then (-4800)%Z else 0%Z) (if bool_decide (o ≠ 0 ∧ c ≠ 0 ∧ v = 0) then 4800%Z else 0%Z))
             (Z.add (if bool_decide (v = o ∧ o = 0) then 19900%Z else 0%Z) (if bool_decide (v = o ∧ o ≠ 0) then 2800%Z else 0%Z)).

(** Outcome, gas left, state, and whether any call failed on the way. *)
Fixpoint eth (orig : gmap slot N) (p : code) (g : N) (s : est) : bool * N * est * bool :=
  match p with
  | Stop => (true, g, s, false)
  | Revert => (false, g, s, false)
  | Fail => (false, 0, s, false)
  | Gas k => eth orig (k g) g s
  | Burn n k => if bool_decide (g < n) then (false, 0, s, false) else eth orig k (g - n) s
  | Load x k => eth orig (k (default 0 (e_slots s !! x))) g s
  | Store x v cold k =>
      let o := default 0 (orig !! x) in let c := default 0 (e_slots s !! x) in
      let cost := eip_gas o c v + (if cold then 2100 else 0) in
      if bool_decide (g <= 2300 ∨ g < cost) then (false, 0, s, false)
      else eth orig k (g - cost) (Est (<[x := v]> (e_slots s)) (Z.add (e_refund s) (eip_refund o c v)))
  | Enter a body k =>
      let g1 := N.min a g in
      let '(ok, r, s1, f) := eth orig body g1 s in
      let '(ok2, r2, s2, f2) := eth orig (k ok r) (g - g1 + r) (if ok then s1 else s) in
      (ok2, r2, s2, f || negb ok || f2)
  | Token n body k =>
      if bool_decide (g < n) then (false, 0, s, false)
      else let '(ok, _, s1, f) := eth orig body token_gas s in
           if ok then let '(ok2, r2, s2, f2) := eth orig k (g - n) s1 in (ok2, r2, s2, f || f2)
           else (false, 0, s, true)
  end.
Definition eth_execution (pre : option code) (p : code) (g : N) (slots : gmap slot N) : bool * N * est * bool :=
  let s := Est slots 0 in
  match pre with
  | None => eth slots p g s
  | Some b => let '(ok, _, s1, f) := eth slots b token_gas s in
              if ok then let '(ok2, r2, s2, f2) := eth slots p g s1 in (ok2, r2, s2, f || f2) else (false, 0, s, true)
  end.

(** What is asked of programs: the fee token does not itself pay in the fee token, and a call of it
    that writes costs the frame at least 1500 gas (CALL with value 6700, CREATE 32000, SELFDESTRUCT
    5000; BALANCE and the check before a payment only read). *)
Fixpoint no_token (p : code) : Prop :=
  match p with
  | Stop | Revert | Fail => True
  | Gas k | Load _ k => ∀ v, no_token (k v)
  | Burn _ k | Store _ _ _ k => no_token k
  | Enter _ body k => no_token body ∧ ∀ ok r, no_token (k ok r)
  | Token _ _ _ => False
  end.
Fixpoint no_store (p : code) : Prop :=
  match p with
  | Stop | Revert | Fail => True
  | Gas k | Load _ k => ∀ v, no_store (k v)
  | Burn _ k => no_store k
  | Store _ _ _ _ => False
  | Enter _ body k => no_store body ∧ ∀ ok r, no_store (k ok r)
  | Token _ body k => no_store body ∧ no_store k
  end.
Fixpoint fair (p : code) : Prop :=
  match p with
  | Stop | Revert | Fail => True
  | Gas k | Load _ k => ∀ v, fair (k v)
  | Burn _ k | Store _ _ _ k => fair k
  | Enter _ body k => fair body ∧ ∀ ok r, fair (k ok r)
  | Token n body k => no_token body ∧ (1500 <= n ∨ no_store body) ∧ fair k
  end.
