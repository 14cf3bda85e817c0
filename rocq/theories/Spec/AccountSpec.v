(** What may happen to the account table. *)
From Verif.Base Require Import Prelude Hex.
From Verif.Model Require Import Token.

Definition recorded (m : accounts) (e origin : bytes) : Prop :=
  ∃ a, m !! e = Some a ∧ ac_kind a = KShort origin.

(** An address in use by somebody: an account that has signed, or a module, contract
    or shorthand account. *)
Definition in_use (m : accounts) (a : bytes) : Prop :=
  ∃ x, m !! a = Some x ∧ (ac_pub x = true ∨ (ac_seq x > 0)%N ∨ ac_kind x ≠ KBase).

Inductive acct_step : accounts → accounts → Prop :=
| as_signs m a x pub seq :
    (* a transaction is signed: key recorded, sequence changed *)
    m !! a = Some x → (ac_pub x = true → pub = true) →
    acct_step m (<[a := Acct (ac_num x) seq pub (ac_kind x)]> m)
| as_new m a n :
    (* a plain or a module account appears where there was none *)
    m !! a = None → acct_step m (<[a := Acct n 0 false KBase]> m)
| as_module m a n :
    m !! a = None → acct_step m (<[a := Acct n 0 false KModule]> m)
| as_contract m a w w' :
    (* a contract is created (model of CreateContract) *)
    w_accts w = m → contract_acct w a = Some w' → acct_step m (w_accts w')
| as_destroyed m a x :
    (* a contract self-destructs *)
    m !! a = Some x → ac_kind x = KContract → acct_step m (delete a m)
| as_converted m n addr signer e m' n' :
    (* an address is converted *)
    convert_to_evm m n addr signer = Some (e, m', n') → acct_step m m'.
