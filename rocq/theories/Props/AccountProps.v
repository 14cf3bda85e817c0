(** Long addresses: C33. *)
From Verif.Base Require Import Prelude Hex.
From Verif.Model Require Import Token Bank.
From Verif.Spec Require Import TokenSpec AccountSpec.
From Verif.Proofs Require Import HexP TokenP BankP BankMore TokenMore.
Open Scope Z_scope.

(** * C33: long addresses *)

(** A 20-byte address is its own EVM address and nothing is written. *)
Theorem C33_short_maps_to_itself m n addr signer :
  length addr = 20%nat → convert_to_evm m n addr signer = Some (addr, m, n).
Proof. apply convert_20. Qed.

Lemma convert_shape m n addr signer e m' n' : length addr ≠ 20%nat →
  convert_to_evm m n addr signer = Some (e, m', n') →
  e = bytes_to_address addr ∧
  ((m' = m ∧ recorded m e addr) ∨
   ((∀ x, m !! e = Some x → is_empty_acct x = true) ∧
    m' = if signer then <[e := Acct n 0 false (KShort addr)]> m else m)).
Proof.
  intros Hl. unfold convert_to_evm. rewrite (proj2 (Nat.eqb_neq _ _) Hl).
  destruct (m !! bytes_to_address addr) as [x|] eqn:Hx.
  - destruct (is_empty_acct x) eqn:He.
    + destruct signer; intros [= <- <- <-]; split; try done; right; (split; [|done]); intros y; rewrite Hx; by intros [= <-].
    + destruct (ac_kind x) as [| | |o] eqn:Hk; try done. case_bool_decide as Ho; [|done].
      intros [= <- <- <-]. subst o. split; [done|]. left. split; [done|]. by exists x.
  - destruct signer; intros [= <- <- <-]; split; try done; right; (split; [|done]); intros y; by rewrite Hx.
Qed.

(** When a long address acts as a signer, it gets the last 20 bytes of its address,
    recorded with the whole address. *)
Theorem C33_long_signer_recorded m n addr e m' n' :
  length addr ≠ 20%nat → convert_to_evm m n addr true = Some (e, m', n') →
  e = bytes_to_address addr ∧ length e = 20%nat ∧ recorded m' e addr.
Proof.
  intros Hl Hc. destruct (convert_shape m n addr true e m' n' Hl Hc) as [-> [[-> Hr]|[_ ->]]].
  - split; [done|]. split; [apply to_fixed_length|done].
  - split; [done|]. split; [apply to_fixed_length|]. eexists. by rewrite lookup_insert.
Qed.

Lemma empty_not_short x o : is_empty_acct x = true → ac_kind x = KShort o → False.
Proof. unfold is_empty_acct. intros H Hk. by rewrite Hk in H. Qed.

(** The record is permanent: whatever happens to the accounts afterwards, it stays. *)
Theorem C33_record_is_permanent m m' e o :
  rtc acct_step m m' → recorded m e o → recorded m' e o.
Proof.
  intros H. induction H as [|m1 m2 m3 Hs _ IH]; [done|]. intros (x & Hx & Hk). apply IH. clear IH.
  destruct Hs as [m a y pub seq Ha Hp|m a n Ha|m a n Ha|m a w w' Hw Hc|m a y Ha Hy|m n addr s e' m' n' Hc].
  - destruct (decide (a = e)) as [->|].
    + eexists. rewrite lookup_insert. split; [done|]. simpl. by simplify_eq.
    + exists x. by rewrite lookup_insert_ne.
  - exists x. rewrite lookup_insert_ne; [done|]. congruence.
  - exists x. rewrite lookup_insert_ne; [done|]. congruence.
  - subst m. unfold contract_acct in Hc. destruct (w_accts w !! a) as [y|] eqn:Ha.
    + destruct (is_empty_acct y) eqn:He; [|done]. injection Hc as <-. simpl.
      exists x. rewrite lookup_insert_ne; [done|]. intros ->. rewrite Ha in Hx. injection Hx as ->. by eapply empty_not_short.
    + injection Hc as <-. simpl. exists x. rewrite lookup_insert_ne; [done|]. congruence.
  - exists x. rewrite lookup_delete_ne; [done|]. intros ->. congruence.
  - destruct (decide (length addr = 20%nat)) as [Hl|Hl].
    + rewrite convert_20 in Hc by done. injection Hc as <- <- <-. by exists x.
    + destruct (convert_shape _ _ _ _ _ _ _ Hl Hc) as [-> [[-> _]|[He ->]]]; [by exists x|].
      destruct s; [|by exists x]. exists x. rewrite lookup_insert_ne; [done|]. intros Heq. subst e.
      eapply empty_not_short; [by apply He|done].
Qed.

(** Two different long addresses never act from the same EVM address: once one has
    acted, the other is refused for ever, while the first keeps its address. *)
Theorem C33_long_addresses_do_not_share m n L1 e m1 n1 m2 n2 L2 :
  length L1 ≠ 20%nat → length L2 ≠ 20%nat →
  convert_to_evm m n L1 true = Some (e, m1, n1) → rtc acct_step m1 m2 →
  convert_to_evm m2 n2 L1 true = Some (e, m2, n2) ∧
  (L2 ≠ L1 → bytes_to_address L2 = e → ∀ signer, convert_to_evm m2 n2 L2 signer = None).
Proof.
  intros H1 H2 Hc Hs. destruct (C33_long_signer_recorded _ _ _ _ _ _ H1 Hc) as (-> & _ & Hr).
  destruct (C33_record_is_permanent _ _ _ _ Hs Hr) as (x & Hx & Hk).
  assert (is_empty_acct x = false) as He by (unfold is_empty_acct; by rewrite Hk).
  split.
  - unfold convert_to_evm. rewrite (proj2 (Nat.eqb_neq _ _) H1), Hx, He, Hk. by rewrite bool_decide_eq_true_2.
  - intros Hne Hb signer. unfold convert_to_evm. rewrite (proj2 (Nat.eqb_neq _ _) H2), Hb, Hx, He, Hk.
    by rewrite bool_decide_eq_false_2.
Qed.

(** An address in use by somebody else is never taken: the long address is refused. *)
Theorem C33_used_address_not_taken m n L a signer :
  length L ≠ 20%nat → bytes_to_address L = a → in_use m a → ¬ recorded m a L →
  convert_to_evm m n L signer = None.
Proof.
  intros Hl Hb (x & Hx & Hu) Hn. unfold convert_to_evm. rewrite (proj2 (Nat.eqb_neq _ _) Hl), Hb, Hx.
  assert (is_empty_acct x = false) as He.
  { unfold is_empty_acct. destruct (ac_kind x) eqn:Hk; try done. destruct Hu as [->|[Hs|?]]; [done| |done].
    apply andb_false_iff. right. apply N.eqb_neq. lia. }
  rewrite He. destruct (ac_kind x) as [| | |o] eqn:Hk; try done.
  case_bool_decide as Ho; [|done]. subst o. destruct Hn. by exists x.
Qed.

(** Looking an address up without signing writes nothing. *)
Theorem C33_lookup_writes_nothing m n L e m' n' :
  convert_to_evm m n L false = Some (e, m', n') → m' = m ∧ n' = n.
Proof.
  unfold convert_to_evm. destruct (length L =? 20)%nat; [by intros [= <- <- <-]|].
  repeat case_match; intros; simplify_eq; done.
Qed.

(** Not for every pair of signers: a 20-byte address is taken as it is even when it
    is the recorded shorthand of a long address, and the address of an account that
    has received coins but never signed can be taken by a long address, which then
    spends its coins. Both need a long address ending in the 20 bytes (a 160-bit
    hash collision for derived addresses). *)
Definition x_long : bytes := replicate 12 9%N ++ x_alice.
Theorem C65_twenty_byte_refuted : ∃ m n m' n' L a,
  length L ≠ 20%nat ∧ length a = 20%nat ∧
  convert_to_evm m n L true = Some (a, m', n') ∧ convert_to_evm m' n' a true = Some (a, m', n').
Proof.
  exists ∅, 5%N. do 2 eexists. exists x_long, x_alice. split; [done|]. split; [done|].
  split; vm_compute; reflexivity.
Qed.
Theorem C65_unused_account_refuted : ∃ w w',
  reachable x_env w ∧ k_balance w x_alice x_stake = Some 60 ∧
  b_send_coins (x_bank None) w x_long x_bob [Coin x_stake 60] = (true, w') ∧
  k_balance w' x_alice x_stake = Some 0.
Proof.
  set (r := b_send_coins (x_bank None) x_w2 x_long x_bob [Coin x_stake 60]).
  exists x_w2, (snd r). split; [apply x_reachable, x_w2_steps|]. split; [vm_compute; reflexivity|].
  assert (fst r = true) as Hok by (vm_compute; reflexivity).
  split; [exact (ok_pair r Hok)|]. vm_compute. reflexivity.
Qed.

Example C33_example :
  let L1 := replicate 32 7%N in let L2 := 8%N :: replicate 31 7%N in
  ∃ m n, convert_to_evm ∅ 5 L1 true = Some (replicate 20 7%N, m, n) ∧
    convert_to_evm m n L2 true = None ∧ convert_to_evm m n L1 false = Some (replicate 20 7%N, m, n).
Proof. do 2 eexists. split; [vm_compute; reflexivity|]. split; vm_compute; reflexivity. Qed.
