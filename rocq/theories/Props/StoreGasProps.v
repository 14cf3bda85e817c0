(** C132, C133: gas and refunds of storage writes (Model/StoreGas.v). *)
From Verif.Base Require Import Prelude.
From Verif.Model Require Import Paths StoreGas.
From Verif.Spec Require Import StoreGasSpec.
From Verif.Proofs Require Import StoreGasP.
Local Open Scope N_scope.

(** Whatever contracts do, and whatever fails and is caught on the way, the refund counter never
    goes below zero: SubRefund never panics. *)
Theorem C132_no_refund_panic pre p g slots : (∀ b, pre = Some b → no_token b) → fair p → g < 2 ^ 50 →
  execution 2300 pre p g slots ≠ BadRefund.
Proof. intros H1 H2 H3 E. pose proof (execution_good pre p g slots H1 H2 H3) as H. by rewrite E in H. Qed.
(** No more gas is left than there was, and the counter stays far below 2^64: it never wraps. *)
Theorem C132_no_wrap pre p g slots ok r m : (∀ b, pre = Some b → no_token b) → fair p → g < 2 ^ 50 →
  execution 2300 pre p g slots = Ended ok r m → r <= g ∧ c_refund (pt_cur m) <= 19900000 + 13267 * (g - r).
Proof.
  intros H1 H2 H3 E. pose proof (execution_good pre p g slots H1 H2 H3) as H. rewrite E in H. destruct H as [Hr [[_ H] _]]. done.
Qed.
(** As long as no call fails, outcome, gas, slots and refund are Ethereum's; an execution that fails
    leaves the slots as they were. *)
Theorem C132_as_ethereum_partial pre p g slots ok r s : (∀ b, pre = Some b → no_token b) → fair p → g < 2 ^ 50 →
  eth_execution pre p g slots = (ok, r, s, false) →
  ∃ m, execution 2300 pre p g slots = Ended ok r m ∧
    (ok = true → c_slots (pt_commit m) = e_slots s ∧ Z.of_N (c_refund (pt_commit m)) = e_refund s) ∧
    (ok = false → pt_commit m = Cell slots 0).
Proof.
  intros Hpre Hp Hg He. set (b := Cell slots 0). set (m0 := Path b [(true, b)]).
  assert (HR : rel b m0 (Est slots 0)) by (split; [done..| |done]; by apply Forall_cons; split; [|apply Forall_nil]).
  assert (HI : ∀ B, inv B m0).
  { intros B. apply (inv_snapshot B (Path b [])). split; [|by apply Forall_nil]. unfold base, fine, need. simpl pt_base. simpl pt_cur. rewrite count_self. simpl c_refund. lia. }
  change (2 ^ 50) with 1125899906842624 in Hg.
  assert (HA : agrees b (ok, r, s, false) (after_pre 2300 pre (go 2300 p g) m0)).
  { unfold eth_execution in He. destruct pre as [q|]; simpl after_pre.
    - destruct (eth slots q token_gas (Est slots 0)) as [[[okq rq] sq] fq] eqn:Eq. destruct okq; [|by injection He].
      destruct (eth slots p g sq) as [[[ok2 r2] s2] f2] eqn:Ep. injection He as -> -> -> Hff. destruct fq; [done|]. simpl in Hff. subst f2.
      assert (Hq : good 199 0 token_gas (in_frame (go 2300 q token_gas) m0)).
      { apply good_frame; [apply HI|]. intros m2 H2. eapply go_good; [reflexivity|by apply costs_plain; [apply Hpre|]|done|done]. }
      assert (Hqa : agrees b (true, rq, sq, false) (in_frame (go 2300 q token_gas) m0)).
      { unfold in_frame. pose proof (rel_snapshot _ _ _ HR) as HR1. pose proof (inv_snapshot _ _ (HI 0)) as HI1. destruct (pt_snapshot m0) as [m1 id].
        pose proof (go_eth _ b q 199 token_gas 0 m1 (Est slots 0) eq_refl (costs_plain _ 199 (Hpre _ eq_refl) ltac:(done)) HI1 ltac:(done) HR1) as G.
        change (c_slots b) with slots in G. rewrite Eq in G. specialize (G eq_refl). simpl in *.
        destruct (go 2300 q token_gas m1) as [ok' r' m2| | |]; try done. destruct G as (-> & ?). done. }
      destruct (in_frame (go 2300 q token_gas) m0) as [ok' r' m'| | |]; try done. destruct Hqa as (-> & -> & _ & HR'). destruct Hq as [Hr Hi].
      pose proof (go_eth _ b p 13267 g _ m' sq eq_refl (costs_fair _ Hp) Hi) as G.
      change (c_slots b) with slots in G. rewrite Ep in G. apply G; [|by apply HR'|done].
      change (2 ^ 64) with 18446744073709551616. unfold token_gas in *. lia.
    - pose proof (go_eth _ b p 13267 g 0 m0 (Est slots 0) eq_refl (costs_fair _ Hp) (HI 0)) as G.
      change (c_slots b) with slots in G. rewrite He in G. apply G; [|done|done]. change (2 ^ 64) with 18446744073709551616. lia. }
  unfold execution, in_frame. cbn [pt_snapshot pt_cur pt_up]. fold b. fold m0.
  destruct (after_pre 2300 pre (go 2300 p g) m0) as [ok' r' m'| | |]; try done. destruct HA as (-> & -> & Hb & Hr). destruct ok.
  - eexists. split; [done|]. split; [|done]. intros _. destruct (Hr eq_refl) as [R1 R2 _ R4 _]. unfold pt_commit. by rewrite (flush_live _ R4).
  - simpl. unfold pt_revert. simpl. eexists. split; [done|]. split; [done|]. intros _. exact Hb.
Qed.

(** ** C133: storage gas is Ethereum's (refuted) *)
(** A slot holding 5 is cleared and set again, [n] times, after two failed calls that were caught. *)
Fixpoint toggles (x : slot) (n : nat) : code :=
  match n with O => Stop | S n' => Store x 0 false (Store x 5 false (toggles x n')) end.
Definition caught (p : code) : code := Enter 0 Revert (fun _ _ => Enter 0 Revert (fun _ _ => p)).
Lemma toggles_go x n : ∀ g c, 22900 * N.of_nat n <= g → value_in c x = 5 → c_refund c + 4800 * N.of_nat n < 2 ^ 64 →
  ∃ c', go 2300 (toggles x n) g (Path c []) = Ended true (g - 22900 * N.of_nat n) (Path c' []) ∧ c_refund c' = c_refund c + 4800 * N.of_nat n.
Proof.
  induction n as [|n IH]; intros g c Hg Hv Hw.
  - exists c. simpl. split; [f_equal; lia|lia].
  - cbn [toggles go]. destruct (N.leb_spec g 2300); [lia|]. unfold committed, current. cbn [pt_base pt_cur pt_up]. rewrite Hv.
    cbn [store_gas]. change (store_gas 5 5 0) with (2900, [Add 4800]). cbn [apply_changes]. destruct (N.ltb_spec g 2900); [lia|].
    destruct (N.leb_spec (g - 2900) 2300); [lia|].
    set (m1 := write_slot (add_refund (Path c []) 4800) x 0).
    assert (J1 : committed m1 x = 0) by (unfold committed, value_in, m1; simpl; by rewrite lookup_insert).
    assert (J2 : current m1 x = 0) by (unfold current, value_in, m1; simpl; by rewrite lookup_insert).
    unfold committed, current in J1, J2. rewrite J1, J2. change (store_gas 0 0 5) with (20000, @nil change). cbn [apply_changes].
    destruct (N.ltb_spec (g - 2900) 20000); [lia|].
    set (c1 := Cell (<[x := 5]> (<[x := 0]> (c_slots c))) (c_refund c + 4800)).
    assert (E : write_slot m1 x 5 = Path c1 []).
    { unfold write_slot, m1, add_refund, pt_set, c1. cbn [pt_cur pt_up c_slots c_refund]. rewrite N.mod_small; [done|]. lia. }
    rewrite E. destruct (IH (g - 2900 - 20000) c1) as (c' & G1 & G2).
    + lia.
    + unfold value_in, c1. cbn [c_slots]. by rewrite lookup_insert.
    + unfold c1. cbn [c_refund]. lia.
    + exists c'. rewrite G1. split; [f_equal; lia|]. rewrite G2. unfold c1. cbn [c_refund]. lia.
Qed.
Lemma toggles_eth x n : ∀ g orig s, 22900 * N.of_nat n <= g → default 0 (orig !! x) = 5 → default 0 (e_slots s !! x) = 5 →
  ∃ s', eth orig (toggles x n) g s = (true, g - 3000 * N.of_nat n, s', false) ∧ e_refund s' = (e_refund s + 2800 * Z.of_nat n)%Z.
Proof.
  induction n as [|n IH]; intros g orig s Hg Ho Hs.
  - exists s. simpl. split; [do 3 f_equal; lia|lia].
  - cbn [toggles eth]. rewrite Ho, Hs. change (eip_gas 5 5 0) with 2900. change (eip_refund 5 5 0) with 4800%Z.
    rewrite bool_decide_eq_false_2 by lia. cbn [e_slots e_refund]. rewrite lookup_insert. cbn [default from_option]. unfold id.
    change (eip_gas 5 0 5) with 100. change (eip_refund 5 0 5) with (-2000)%Z. rewrite bool_decide_eq_false_2 by lia.
    destruct (IH (g - (2900 + 0) - (100 + 0)) orig (Est (<[x := 5]> (<[x := 0]> (e_slots s))) (e_refund s + 4800 + -2000))) as (s' & G1 & G2); [lia|done| |].
    + cbn [e_slots]. by rewrite lookup_insert.
    + exists s'. rewrite G1. cbn [e_refund] in G2. split; [do 3 f_equal; lia|]. rewrite G2. lia.
Qed.
(** Ethereum takes 3000 gas for each round and credits 2800; here it is 22900 and 4800. *)
Theorem C133_storage_gas_refuted x slots n g : default 0 (slots !! x) = 5 → 22900 * N.of_nat n <= g → g < 2 ^ 50 →
  (∃ m, execution 2300 None (caught (toggles x n)) g slots = Ended true (g - 22900 * N.of_nat n) m ∧ c_refund (pt_commit m) = 4800 * N.of_nat n) ∧
  (∃ s f, eth_execution None (caught (toggles x n)) g slots = (true, g - 3000 * N.of_nat n, s, f) ∧ e_refund s = (2800 * Z.of_nat n)%Z).
Proof.
  intros Hx Hg Hg2. change (2 ^ 50) with 1125899906842624 in Hg2. split.
  - destruct (toggles_go x n g (Cell slots 0)) as (c' & G1 & G2); [done|done| |].
    { cbn [c_refund]. change (2 ^ 64) with 18446744073709551616. lia. }
    exists (Path c' []). split; [|exact G2].
    assert (E0 : go 2300 (caught (toggles x n)) g (Path (Cell slots 0) [(true, Cell slots 0)]) = go 2300 (toggles x n) g (Path (Cell slots 0) [])).
    { assert (S1 : ∀ m k, go 2300 (Enter 0 Revert k) g m = match in_frame (fun m1 => Ended false 0 m1) m with Ended ok r m' => go 2300 (k ok r) (g + r) m' | o => o end).
      { intros m k. cbn [go]. rewrite N.min_0_l. by destruct (in_frame _ m) as [??| | |]; [rewrite N.sub_0_r| | |]. }
      unfold caught. rewrite S1.
      change (in_frame _ _) with (Ended false 0 (Path (Cell slots 0) [(false, Cell slots 0)])). cbv iota beta. rewrite N.add_0_r, S1.
      change (in_frame _ _) with (Ended false 0 (Path (Cell slots 0) [])). cbv iota beta. by rewrite N.add_0_r. }
    unfold execution, after_pre, in_frame. cbn [pt_snapshot pt_cur pt_up]. by rewrite E0, G1.
  - destruct (toggles_eth x n g slots (Est slots 0)) as (s & G1 & G2); [done..|]. exists s, true. split; [|exact G2].
    unfold eth_execution, caught. cbn [eth]. rewrite N.min_0_l. replace (g - 0 + 0) with g by lia. rewrite N.min_0_l. replace (g - 0 + 0) with g by lia. rewrite G1. done.
Qed.

(** ** Examples *)
Definition s_at : bytes := replicate 20 7.
Definition s_x : slot := (s_at, 1).
Definition s_y : slot := (s_at, 2).
(** What the counter owes to the 2300: with no such floor, a frame that catches failures can take
    the refund back, run out of gas before the write, and be seen although it failed; the next
    write then finds the counter below zero. *)
Definition s_trap : code :=
  Store s_x 0 false (Enter 50
    (Enter 0 Revert (fun _ _ => Enter 0 Revert (fun _ _ => Enter 0 Stop (fun _ _ => Store s_x 7 false Stop))))
    (fun _ _ => Store s_x 7 false Stop)).
Example C132_floor_needed : execution 0 None s_trap 100000 {[s_x := 5]} = BadRefund ∧ fair s_trap.
Proof. split; [vm_compute; reflexivity|]. simpl. done. Qed.
(** A program with a payment, stores in a called frame, and what it costs. *)
Definition s_pay : code := Load s_y (fun v => Store s_y (v + 1) true Stop).
Definition s_prog : code :=
  Burn 21 (Store s_x 0 true (Token 6700 s_pay (Enter 40000 (Store s_y 9 false (Store s_x 3 false Stop)) (fun ok r => if ok then Gas (fun g => Burn (g / 2) Stop) else Revert)))).
Example C132_example :
  fair s_prog ∧ (∀ b, Some s_pay = Some b → no_token b) ∧
  match execution 2300 (Some s_pay) s_prog 100000 {[s_x := 5]} with
  | Ended ok r m => (ok, r, value_in (pt_commit m) s_x, value_in (pt_commit m) s_y, c_refund (pt_commit m)) = (true, 44040, 3, 9, 0)
  | _ => False
  end ∧ (eth_execution (Some s_pay) s_prog 100000 {[s_x := 5]}).2 = false.
Proof.
  split; [simpl; split_and!; try done; [by left|by intros [] ?]|]. split; [by intros b [= <-]|].
  split; [vm_compute; reflexivity|vm_compute; reflexivity].
Qed.
