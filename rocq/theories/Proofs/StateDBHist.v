From Verif.Base Require Import Prelude Layers.
From Verif.Model Require Import Snapshots StateDB.
From Verif.Spec Require Import StateDBSpec.
From Verif.Proofs Require Import BytesP LayersP SnapshotsP StateDBP.

Ltac notouch := cbn; intros Htouch;
  repeat match goal with
  | H : _ \/ _ |- _ => destruct H
  | H : exists _, _ |- _ => destruct H
  end; solve [exact Htouch | discriminate | congruence | contradiction].

Lemma app_inj_len {A} (a a' b b' : list A) : length a = length a' -> a ++ b = a' ++ b' -> a = a' /\ b = b'.
Proof. intros Hl He. apply app_inj_1; done. Qed.

Lemma state_key_inj a s a' s' : length a = length a' -> state_key a s = state_key a' s' -> a = a' /\ s = s'.
Proof.
  unfold state_key. intros Hl He. apply app_inj_len in He as [-> He]; [|done].
  apply app_inj_len in He as [_ ->]; done.
Qed.
Lemma state_code_ne a s a' h : length a = length a' -> state_key a s <> code_key a' h.
Proof.
  unfold state_key, code_key. intros Hl He. apply app_inj_len in He as [_ He]; [|done]. discriminate He.
Qed.
Lemma state_codesize_ne a s a' h : length a = length a' -> state_key a s <> codesize_key a' h.
Proof.
  unfold state_key, codesize_key. intros Hl He. apply app_inj_len in He as [_ He]; [|done]. discriminate He.
Qed.
Lemma code_key_inj a h a' h' : length a = length a' -> code_key a h = code_key a' h' -> a = a' /\ h = h'.
Proof.
  unfold code_key. intros Hl He. apply app_inj_len in He as [-> He]; [|done].
  apply app_inj_len in He as [_ ->]; done.
Qed.
Lemma codesize_key_inj a h a' h' : length a = length a' -> codesize_key a h = codesize_key a' h' -> a = a' /\ h = h'.
Proof.
  unfold codesize_key. intros Hl He. apply app_inj_len in He as [-> He]; [|done].
  apply app_inj_len in He as [_ ->]; done.
Qed.
(** Code hashes are empty or 32 bytes. *)
Lemma code_codesize_ne a h a' h' : length a = length a' ->
  (length h = 0 \/ length h = 32) -> (length h' = 0 \/ length h' = 32) ->
  code_key a h <> codesize_key a' h'.
Proof.
  unfold code_key, codesize_key. intros Hl H1 H2 He. apply app_inj_len in He as [_ He]; [|done].
  apply (f_equal length) in He. rewrite !app_length in He. cbn in He. lia.
Qed.

Lemma pad_hash_32 v : length v = 32 -> pad_hash v = v.
Proof. intros Hv. unfold pad_hash. rewrite decide_True by lia. rewrite Hv. reflexivity. Qed.

Lemma get_acc_lookup w w' a : w !! KAcc a = w' !! KAcc a -> get_acc w a = get_acc w' a.
Proof. unfold get_acc. intros ->. done. Qed.
Lemma get_vm_lookup w w' a : w !! KVm a = w' !! KVm a -> get_vm w a = get_vm w' a.
Proof. unfold get_vm. intros ->. done. Qed.
Lemma get_num_lookup w w' k : w !! k = w' !! k -> get_num w k = get_num w' k.
Proof. unfold get_num. intros ->. done. Qed.

Section hist.
Variable fee_log : bytes -> bytes -> N -> log.
Variable keccak : bytes -> bytes.
Notation step := (step fee_log keccak).
Notation steps := (steps fee_log keccak).
Notation touches := (touches keccak).

Lemma steps_DB e s l s' : DB s -> steps e s l = Some s' -> DB s'.
Proof.
  revert s. induction l as [|o l IH]; intros s HD; cbn; [intros [= <-]; done|].
  destruct (step e s o) as [s1|] eqn:E; [|done]. apply IH. eapply step_DB_frame; eauto.
Qed.

Lemma reach_DB m s : reach fee_log keccak m s -> DB s.
Proof.
  induction 1 as [|e s o s' _ IH Hs|s i s' _ IH Hr].
  - apply DB_new.
  - eapply step_DB_frame; eauto.
  - eapply DB_revert; eauto.
Qed.

Lemma reach_steps m e s l s' : reach fee_log keccak m s -> steps e s l = Some s' -> reach fee_log keccak m s'.
Proof.
  revert s. induction l as [|o l IH]; intros s HR; cbn; [intros [= <-]; done|].
  destruct (step e s o) as [s1|] eqn:E; [|done]. apply IH. econstructor 2; eauto.
Qed.

(** ** Storage *)
Definition raw_state (s : db) a slot : option bytes := get_vm (vw s) (state_key a slot).

Lemma op_ok_addr_len (a : bytes) : Nat.eqb (length a) 20 = true -> length a = 20.
Proof. apply Nat.eqb_eq. Qed.
Ltac ok := repeat match goal with
  | H : (_ && _) = true |- _ => apply andb_true_iff in H as [? ?]
  | H : Nat.eqb _ _ = true |- _ => apply Nat.eqb_eq in H
  end.

Lemma raw_state_step e s o s' a slot : DB s -> op_ok o = true -> length a = 20 ->
  step e s o = Some s' ->
  raw_state s' a slot = match o with
     | OpSetState a' slot' v => if decide (a' = a /\ slot' = slot) then Some v else raw_state s a slot
     | _ => raw_state s a slot end.
Proof.
  intros HD Hok Ha Hs. pose proof (step_DB_frame _ _ _ _ _ _ HD Hs) as [_ Hf].
  assert (Hgen : ~ touches e o (KVm (state_key a slot)) -> raw_state s' a slot = raw_state s a slot).
  { intros Hn. unfold raw_state. apply get_vm_lookup, Hf, Hn. }
  destruct o; try (apply Hgen; notouch).
  - cbn in Hs. injection Hs as <-. cbn in Hok. ok. unfold raw_state, set_state.
    rewrite vw_put by done. unfold get_vm. case_decide as Hd.
    + destruct Hd as [-> ->]. rewrite lookup_insert. done.
    + rewrite lookup_insert_ne; [done|]. intros [= He]. apply state_key_inj in He; [|lia]. tauto.
  - apply Hgen. cbn in Hok. ok. cbn. intros [He|[He|[He|He]]]; try discriminate; injection He as He.
    + eapply state_code_ne; [|exact He]. lia.
    + eapply state_codesize_ne; [|exact He]. lia.
Qed.

Lemma raw_state_steps e l a slot : length a = 20 -> forall s s', DB s -> forallb op_ok l = true ->
  steps e s l = Some s' ->
  raw_state s' a slot = match last_store a slot l with Some v => Some v | None => raw_state s a slot end.
Proof.
  intros Ha. induction l as [|o l IH]; intros s s' HD Hok; cbn [StateDB.steps last_store forallb] in *.
  - intros [= <-]. done.
  - apply andb_true_iff in Hok as [Ho Hl]. destruct (step e s o) as [s1|] eqn:E; [|done].
    intros Hs. pose proof (step_DB_frame _ _ _ _ _ _ HD E) as [HD1 _].
    rewrite (IH s1 s' HD1 Hl Hs). destruct (last_store a slot l); [done|].
    rewrite (raw_state_step e s o s1 a slot) by done. destruct o; try done. case_decide; done.
Qed.

Lemma last_store_ok a slot l v : forallb op_ok l = true -> last_store a slot l = Some v -> length v = 32.
Proof.
  induction l as [|o l IH]; cbn; [done|]. intros Hok. apply andb_true_iff in Hok as [Ho Hl].
  destruct (last_store a slot l) as [v'|]; [intros [= ->]; auto|].
  destruct o; try done. cbn in Ho. ok. case_decide; [intros [= <-]; done|done].
Qed.

Lemma storage_history m e s l s' a slot :
  reach fee_log keccak m s -> is_addr a -> forallb op_ok l = true ->
  steps e s l = Some s' -> exist s a = true -> exist s' a = true ->
  get_state s' a slot = match last_store a slot l with Some v => v | None => get_state s a slot end.
Proof.
  intros HR Ha Hok Hs He He'. apply reach_DB in HR as HD.
  pose proof (raw_state_steps e l a slot Ha s s' HD Hok Hs) as Hr.
  unfold get_state, get_state_w. unfold exist in He, He'.
  destruct (get_acc (vw s) a); [|done]. destruct (get_acc (vw s') a); [|done].
  unfold raw_state in Hr. rewrite Hr. destruct (last_store a slot l) eqn:E; [|done].
  apply pad_hash_32. eapply last_store_ok; eauto.
Qed.

(** ** Code *)
Lemma get_code_frame e s o s' a : DB s -> op_ok o = true -> length a = 20 ->
  (forall x, length (keccak x) = 32) ->
  (forall h n q p, get_acc (vw s) a = Some (Account (AContract h) n q p) -> length h = 0 \/ length h = 32) ->
  resets_code a o = false -> step e s o = Some s' ->
  match get_acc (vw s) a, get_acc (vw s') a with
  | Some (Account (AContract h) _ _ _), Some (Account (AContract h') _ _ _) =>
      h = h' /\ get_vm (vw s) (code_key a h) = get_vm (vw s') (code_key a h)
             /\ get_vm (vw s) (codesize_key a h) = get_vm (vw s') (codesize_key a h)
  | Some (Account (AContract _) _ _ _), _ => False
  | _, _ => True
  end.
Proof.
  intros HD Hok Ha Hk Hh Hr Hs. pose proof (step_DB_frame _ _ _ _ _ _ HD Hs) as [_ Hf].
  destruct (get_acc (vw s) a) as [[[|h| |] n q p]|] eqn:Ea; try done.
  specialize (Hh _ _ _ _ eq_refl).
  assert (Hvm : get_vm (vw s) (code_key a h) = get_vm (vw s') (code_key a h)
             /\ get_vm (vw s) (codesize_key a h) = get_vm (vw s') (codesize_key a h)).
  { split; apply get_vm_lookup; symmetry; apply Hf; destruct o; cbn in Hok; ok; try notouch; cbn.
    - intros [= He]. symmetry in He. eapply state_code_ne; [|exact He]. lia.
    - cbn in Hr. apply bool_decide_eq_false in Hr.
      intros [He|[He|[He|He]]]; try discriminate; injection He as He.
      + apply code_key_inj in He; [|lia]. naive_solver.
      + eapply code_codesize_ne; [| | |exact He]; [lia|done|right; apply Hk].
    - intros [= He]. symmetry in He. eapply state_codesize_ne; [|exact He]. lia.
    - cbn in Hr. apply bool_decide_eq_false in Hr.
      intros [He|[He|[He|He]]]; try discriminate; injection He as He.
      + symmetry in He. eapply code_codesize_ne; [| | |exact He]; [lia|right; apply Hk|done].
      + apply codesize_key_inj in He; [|lia]. naive_solver. }
  assert (Hacc : exists n' q' p', get_acc (vw s') a = Some (Account (AContract h) n' q' p')).
  { assert (Hgen : ~ touches e o (KAcc a) -> exists n' q' p', get_acc (vw s') a = Some (Account (AContract h) n' q' p')).
    { intros Hn. exists n, q, p. rewrite <- Ea. apply get_acc_lookup, Hf, Hn. }
    destruct o; try (apply Hgen; notouch).
    - rename a0 into b. destruct (decide (b = a)) as [->|Hne]; [|apply Hgen; notouch].
      cbn in Hs. injection Hs as <-. unfold set_nonce, get_or_new. rewrite Ea.
      unfold set_account. rewrite vw_put by done. unfold get_acc. rewrite lookup_insert. cbn. eauto.
    - cbn in Hr. apply bool_decide_eq_false in Hr. apply Hgen. notouch.
    - cbn in Hr. apply bool_decide_eq_false in Hr. apply Hgen. notouch.
    - cbn in Hr. apply bool_decide_eq_false in Hr. apply Hgen. notouch. }
  destruct Hacc as (n' & q' & p' & ->). tauto.
Qed.

Lemma code_after_set (e : N) s a code s1 : DB s -> length (keccak code) = 32 -> set_code keccak s a code = Some s1 ->
  DB s1 /\ (exists n q p, get_acc (vw s1) a = Some (Account (AContract (keccak code)) n q p)) /\
  get_vm (vw s1) (code_key a (keccak code)) = Some code /\
  get_vm (vw s1) (codesize_key a (keccak code)) = Some (be64 (u64 (N.of_nat (length code)))).
Proof.
  intros HD Hk Hs. pose proof (step_DB_frame fee_log keccak e s (OpSetCode a code) s1 HD Hs) as [HD1 _].
  split; [done|]. unfold set_code in Hs. pose proof (get_or_new_facts s a HD) as Hg.
  destruct (get_or_new s a) as [s0 x]. destruct Hg as [HD0 _].
  destruct (ac_kind _) eqn:Ek; try done. injection Hs as <-. unfold set_account.
  rewrite !vw_put by dbstep. split; [|split].
  - unfold get_acc. rewrite !lookup_insert_ne by done. rewrite lookup_insert. eauto.
  - unfold get_vm. rewrite lookup_insert_ne.
    + rewrite lookup_insert. done.
    + intros [= He]. symmetry in He. eapply code_codesize_ne; [| | |exact He]; auto.
  - unfold get_vm. rewrite lookup_insert. done.
Qed.

Lemma code_stable e l a : length a = 20 -> (forall x, length (keccak x) = 32) ->
  forall s s' h n q p, DB s -> forallb op_ok l = true ->
  forallb (fun o => negb (resets_code a o)) l = true -> length h = 32 ->
  get_acc (vw s) a = Some (Account (AContract h) n q p) -> steps e s l = Some s' ->
  (exists n' q' p', get_acc (vw s') a = Some (Account (AContract h) n' q' p')) /\
  get_vm (vw s') (code_key a h) = get_vm (vw s) (code_key a h) /\
  get_vm (vw s') (codesize_key a h) = get_vm (vw s) (codesize_key a h).
Proof.
  intros Ha Hk. induction l as [|o l IH]; intros s s' h n q p HD Hok Hrs Hh Ea; cbn [StateDB.steps forallb] in *.
  - intros [= <-]. eauto 10.
  - apply andb_true_iff in Hok as [Ho Hl]. apply andb_true_iff in Hrs as [Hr Hrl].
    apply negb_true_iff in Hr.
    destruct (step e s o) as [s1|] eqn:E; [|done]. intros Hs.
    pose proof (step_DB_frame _ _ _ _ _ _ HD E) as [HD1 _].
    pose proof (get_code_frame e s o s1 a HD Ho Ha Hk) as Hf. rewrite Ea in Hf.
    specialize (Hf ltac:(intros ???? [= <- _ _ _]; right; done) Hr E).
    destruct (get_acc (vw s1) a) as [[[|h1| |] n1 q1 p1]|] eqn:Ea1; try done.
    destruct Hf as (<- & Hc & Hz).
    destruct (IH s1 s' h n1 q1 p1) as (A & B & C); try done.
    split; [done|]. rewrite B, C. split; congruence.
Qed.

Lemma code_history ech e s a code s1 l s' m :
  (forall x, length (keccak x) = 32) ->
  reach fee_log keccak m s -> is_addr a -> (N.of_nat (length code) < 2 ^ 64)%N ->
  forallb op_ok l = true -> forallb (fun o => negb (resets_code a o)) l = true ->
  set_code keccak s a code = Some s1 -> steps e s1 l = Some s' ->
  get_code s' a = code /\ get_code_hash ech s' a = keccak code /\
  get_code_size s' a = N.of_nat (length code).
Proof.
  intros Hk HR Ha Hlen Hok Hrs Hset Hs. apply reach_DB in HR as HD.
  destruct (code_after_set e s a code s1 HD (Hk code) Hset) as (HD1 & (n & q & p & Ea) & Hc & Hz).
  destruct (code_stable e l a Ha Hk s1 s' _ _ _ _ HD1 Hok Hrs (Hk code) Ea Hs) as ((n' & q' & p' & Ea') & Hc' & Hz').
  unfold get_code, get_code_hash, get_code_size. rewrite Ea', Hc', Hz', Hc, Hz.
  split; [done|]. split; [apply pad_hash_32, Hk|].
  unfold of_be64, be64. unfold u64. rewrite N.mod_small by exact Hlen.
  apply of_be_be_small. exact Hlen.
Qed.

(** ** Transient storage *)
Lemma transient_step e s o s' a k : DB s -> op_ok o = true -> step e s o = Some s' ->
  (forall a' k' v, o = OpSetTransient a' k' v -> a' = a) ->
  get_transient e s' a k = match o with
     | OpSetTransient a' k' v => if decide (a' = a /\ k' = k) then v else get_transient e s a k
     | _ => get_transient e s a k end.
Proof.
  intros HD Hok Hs Ho. pose proof (step_DB_frame _ _ _ _ _ _ HD Hs) as [_ Hf].
  assert (Hgen : ~ touches e o (KTVm e k) -> get_transient e s' a k = get_transient e s a k).
  { intros Hn. unfold get_transient. rewrite Hf; done. }
  destruct o; try (apply Hgen; notouch).
  rename a0 into b. specialize (Ho b k0 v eq_refl). subst b.
  cbn in Hs. injection Hs as <-. cbn in Hok. ok.
  unfold set_transient. case_decide as Hd.
  - subst v. case_decide as Hd; [destruct Hd as [_ ->]; done|done].
  - unfold get_transient. rewrite vw_put by done. case_decide as Hd2.
    + destruct Hd2 as [_ ->]. rewrite lookup_insert. apply pad_hash_32. done.
    + rewrite lookup_insert_ne; [done|]. intros [= ->]. tauto.
Qed.

Lemma transient_history_one e l a k : forall s s', DB s -> forallb op_ok l = true ->
  (forall a' k' v, OpSetTransient a' k' v ∈ l -> a' = a) ->
  steps e s l = Some s' ->
  get_transient e s' a k = match last_tstore a k l with Some v => v | None => get_transient e s a k end.
Proof.
  induction l as [|o l IH]; intros s s' HD Hok Hin; cbn [StateDB.steps last_tstore forallb] in *.
  - intros [= <-]. done.
  - apply andb_true_iff in Hok as [Ho Hl]. destruct (step e s o) as [s1|] eqn:E; [|done].
    intros Hs. pose proof (step_DB_frame _ _ _ _ _ _ HD E) as [HD1 _].
    rewrite (IH s1 s' HD1 Hl ltac:(intros; eapply Hin; right; eauto) Hs).
    destruct (last_tstore a k l); [done|].
    rewrite (transient_step e s o s1 a k) by (done || (intros; subst; eapply Hin; left; done)).
    destruct o; try done. case_decide; done.
Qed.

Lemma transient_other_exec e e' l : e <> e' -> forall s s' a k, DB s -> steps e s l = Some s' ->
  get_transient e' s' a k = get_transient e' s a k.
Proof.
  intros Hne. induction l as [|o l IH]; intros s s' a k HD; cbn [StateDB.steps].
  - intros [= <-]. done.
  - destruct (step e s o) as [s1|] eqn:E; [|done]. intros Hs.
    pose proof (step_DB_frame _ _ _ _ _ _ HD E) as [HD1 Hf].
    rewrite (IH s1 s' a k HD1 Hs). unfold get_transient. rewrite Hf; [done|].
    destruct o; notouch.
Qed.

(** ** Refunds *)
Lemma refund_history e l : forall s r, DB s -> get_refund e s = Some r -> (r < two64)%N -> forallb op_ok l = true ->
  match steps e s l with
  | Some s' => exists r', refund_after r l = Some r' /\ get_refund e s' = Some r' /\ (r' < two64)%N
  | None => True
  end /\ (refund_after r l = None -> steps e s l = None).
Proof.
  induction l as [|o l IH]; intros s r HD Hr Hb Hok; cbn [StateDB.steps forallb refund_after] in *.
  - split; [eauto|done].
  - apply andb_true_iff in Hok as [Ho Hl].
    assert (Hother : forall s1, step e s o = Some s1 -> ~ touches e o (KRefund e) -> get_refund e s1 = Some r).
    { intros s1 E Hn. rewrite <- Hr. unfold get_refund. apply get_num_lookup.
      eapply step_DB_frame; eauto. }
    destruct (step e s o) as [s1|] eqn:E.
    + pose proof (step_DB_frame _ _ _ _ _ _ HD E) as [HD1 _].
      destruct o; try (apply (IH s1 r HD1); [apply Hother; [done|notouch]|done|done]).
      * cbn in E. unfold add_refund in E. unfold get_refund in Hr. rewrite Hr in E. injection E as <-.
        change ((r + g) mod 2 ^ 64)%N with (u64_add r g).
        apply IH; [done| |apply N.mod_lt; done|done].
        unfold get_refund. rewrite vw_put by done. apply get_num_insert.
      * cbn in E. unfold sub_refund in E. unfold get_refund in Hr. rewrite Hr in E.
        destruct (N.ltb_spec r g); [done|]. injection E as <-.
        apply IH; [done| |lia|done].
        unfold get_refund. rewrite vw_put by done. apply get_num_insert.
    + split; [done|]. intros _. done.
Qed.

Lemma refund_exact l : forall r r', (r + refund_added l < 2 ^ 64)%N -> refund_after r l = Some r' ->
  (r' + refund_subtracted l = r + refund_added l)%N.
Proof.
  induction l as [|o l IH]; intros r r' Hb; cbn [refund_after refund_added refund_subtracted] in *.
  - intros [= <-]. lia.
  - destruct o; try (apply IH; done).
    + intros Hr. rewrite N.mod_small in Hr by lia. apply IH in Hr; lia.
    + destruct (N.ltb_spec r g); [done|]. intros Hr. apply IH in Hr; lia.
Qed.

Lemma init_exec_facts e s : DB s -> DB (init_exec e s) /\ get_refund e (init_exec e s) = Some 0%N /\
  get_num (vw (init_exec e s)) (KLogSize e) = Some 0%N /\
  (forall k, k <> KLogSize e -> k <> KRefund e -> vw (init_exec e s) !! k = vw s !! k).
Proof.
  intros HD. unfold init_exec. split; [dbstep|]. unfold get_refund. rewrite !vw_put by dbstep.
  split; [apply get_num_insert|]. split.
  - rewrite get_num_insert_ne by done. apply get_num_insert.
  - intros k H1 H2. rewrite !lookup_insert_ne by done. done.
Qed.

(** ** Access list *)
Definition warm_addr_ops (a : bytes) (l : list op) : Prop :=
  OpAddAddr a ∈ l \/ exists slot, OpAddSlot a slot ∈ l.

Lemma al_step_addr e s o s' a : DB s -> op_ok o = true -> length a = 20 -> step e s o = Some s' ->
  has_key (vw s') (KAccess e a) = true <->
  (has_key (vw s) (KAccess e a) = true \/ o = OpAddAddr a \/ exists slot, o = OpAddSlot a slot).
Proof.
  intros HD Hok Ha Hs. pose proof (step_DB_frame _ _ _ _ _ _ HD Hs) as [_ Hf].
  assert (Hgen : ~ touches e o (KAccess e a) -> has_key (vw s') (KAccess e a) = has_key (vw s) (KAccess e a)).
  { intros Hn. unfold has_key. rewrite Hf; done. }
  destruct o; try (rewrite Hgen by notouch; naive_solver).
  - rename a0 into b. cbn in Hs. injection Hs as <-. unfold add_address_al. rewrite vw_put by done.
    unfold has_key. destruct (decide (b = a)) as [->|Hne].
    + rewrite lookup_insert. naive_solver.
    + rewrite lookup_insert_ne by congruence. naive_solver.
  - rename a0 into b. cbn in Hok. ok. cbn in Hs. injection Hs as <-.
    unfold add_slot_al, address_in_al, add_address_al.
    assert (Hlen : b ++ slot <> a).
    { intros He. apply (f_equal length) in He. rewrite app_length in He. lia. }
    destruct (decide (b = a)) as [->|Hne].
    + split; [naive_solver|]. intros _. destruct (has_key (vw s) (KAccess e a)) eqn:Eh.
      * rewrite vw_put by done. unfold has_key in *. rewrite lookup_insert_ne by congruence. done.
      * rewrite !vw_put by dbstep. unfold has_key in *. rewrite lookup_insert_ne by congruence.
        rewrite lookup_insert. done.
    + destruct (has_key (vw s) (KAccess e b)) eqn:Eh.
      * rewrite vw_put by done. unfold has_key in *. rewrite lookup_insert_ne by congruence. naive_solver.
      * rewrite !vw_put by dbstep. unfold has_key in *. rewrite !lookup_insert_ne by congruence. naive_solver.
Qed.

Lemma al_step_slot e s o s' a sl : DB s -> op_ok o = true -> length a = 20 -> length sl = 32 -> step e s o = Some s' ->
  has_key (vw s') (KAccess e (a ++ sl)) = true <->
  (has_key (vw s) (KAccess e (a ++ sl)) = true \/ o = OpAddSlot a sl).
Proof.
  intros HD Hok Ha Hsl Hs. pose proof (step_DB_frame _ _ _ _ _ _ HD Hs) as [_ Hf].
  assert (Hgen : ~ touches e o (KAccess e (a ++ sl)) -> has_key (vw s') (KAccess e (a ++ sl)) = has_key (vw s) (KAccess e (a ++ sl))).
  { intros Hn. unfold has_key. rewrite Hf; done. }
  destruct o; try (rewrite Hgen by notouch; naive_solver).
  - rename a0 into b. rewrite Hgen; [naive_solver|]. cbn in Hok. ok. cbn. intros [= He].
    apply (f_equal length) in He. rewrite app_length in He. lia.
  - rename a0 into b. cbn in Hok. ok.
    destruct (decide (b = a /\ slot = sl)) as [[-> ->]|Hne].
    + split; [naive_solver|]. intros _. cbn in Hs. injection Hs as <-. unfold add_slot_al.
      assert (HDx : DB (if address_in_al e s a then s else add_address_al e s a)).
      { destruct (address_in_al e s a); unfold add_address_al; dbstep. }
      rewrite vw_put by done. unfold has_key. rewrite lookup_insert. done.
    + rewrite Hgen; [naive_solver|]. cbn. intros [He|He]; injection He as He.
      * apply (f_equal length) in He. rewrite app_length in He. lia.
      * apply app_inj_len in He; [|lia]. naive_solver.
Qed.

Lemma al_iff_addr (P : Prop) (o : op) (l : list op) a :
  ((P \/ o = OpAddAddr a \/ exists sl, o = OpAddSlot a sl) \/ (OpAddAddr a ∈ l \/ exists sl, OpAddSlot a sl ∈ l)) <->
  (P \/ (OpAddAddr a ∈ o :: l \/ exists sl, OpAddSlot a sl ∈ o :: l)).
Proof.
  setoid_rewrite elem_of_cons. split.
  - intros [[HP|[E|[sl E]]]|[Hl|[sl Hl]]]; try subst o; eauto 10.
  - intros [HP|[[E|Hl]|[sl [E|Hl]]]]; try subst o; eauto 10.
Qed.
Lemma al_iff_slot (P : Prop) (o : op) (l : list op) x : ((P \/ o = x) \/ x ∈ l) <-> (P \/ x ∈ o :: l).
Proof. rewrite elem_of_cons. split; [intros [[HP|E]|Hl]|intros [HP|[E|Hl]]]; try subst; auto. Qed.

Lemma al_history e l a : length a = 20 -> forall s s', DB s -> forallb op_ok l = true -> steps e s l = Some s' ->
  (address_in_al e s' a = true <-> (address_in_al e s a = true \/ warm_addr_ops a l)) /\
  (forall sl, length sl = 32 ->
     (has_key (vw s') (KAccess e (a ++ sl)) = true <->
       (has_key (vw s) (KAccess e (a ++ sl)) = true \/ OpAddSlot a sl ∈ l))).
Proof.
  intros Ha. unfold address_in_al, warm_addr_ops.
  induction l as [|o l IH]; intros s s' HD Hok; cbn [StateDB.steps forallb] in *.
  - intros [= <-]. split; [|intros sl _]; (split; [auto|]).
    + intros [HP|[Hl|[sl Hl]]]; [done|inversion Hl..].
    + intros [HP|Hl]; [done|inversion Hl].
  - apply andb_true_iff in Hok as [Ho Hl]. destruct (step e s o) as [s1|] eqn:E; [|done]. intros Hs.
    pose proof (step_DB_frame _ _ _ _ _ _ HD E) as [HD1 _].
    destruct (IH s1 s' HD1 Hl Hs) as [IH1 IH2]. split.
    + rewrite IH1, (al_step_addr e s o s1 a) by done. apply al_iff_addr.
    + intros sl Hsl. rewrite IH2, (al_step_slot e s o s1 a sl) by done. apply al_iff_slot.
Qed.

(** ** Logs *)
Definition nlogs (e : N) (s : db) : option N := get_num (vw s) (KLogSize e).

Lemma logs_as_list e s ls : logs e s = Some ls -> nlogs e s = Some (N.of_nat (length ls)).
Proof.
  unfold logs, nlogs. destruct (get_num (vw s) (KLogSize e)) as [n|]; [|done]. intros [= <-].
  rewrite map_length, seq_length, N2Nat.id. done.
Qed.

Lemma logs_append e s s' ls l (w' : world) : logs e s = Some ls ->
  (N.of_nat (length ls) < two64 - 1)%N ->
  vw s' = <[KLog e (N.of_nat (length ls)) := VLog l]> (<[KLogSize e := VNum (u64_add (N.of_nat (length ls)) 1)]> w') ->
  (forall i, w' !! KLog e i = vw s !! KLog e i) ->
  logs e s' = Some (ls ++ [l]).
Proof.
  intros Hls Hb Hv Hw. pose proof (logs_as_list _ _ _ Hls) as Hn. unfold nlogs in Hn.
  unfold logs in *. rewrite Hn in Hls. rewrite Hv.
  rewrite get_num_insert_ne by done. rewrite get_num_insert.
  assert (Hu : u64_add (N.of_nat (length ls)) 1 = N.of_nat (length (ls ++ [l]))).
  { unfold u64_add, u64. rewrite app_length. cbn [length]. rewrite N.mod_small by (unfold two64 in *; lia). lia. }
  rewrite Hu, Nat2N.id. rewrite app_length. cbn [length]. rewrite seq_app, map_app. f_equal. cbn [seq map].
  f_equal.
  - injection Hls as Hls. rewrite Nat2N.id in Hls. rewrite <- Hls at 2. apply map_ext_in. intros i Hi.
    apply in_seq in Hi. f_equal. unfold get_log. rewrite lookup_insert_ne by (intros [= He]; lia).
    rewrite lookup_insert_ne by done. rewrite Hw. done.
  - f_equal. unfold get_log. cbn. rewrite lookup_insert. done.
Qed.

Lemma logs_same e s s' : (vw s' !! KLogSize e = vw s !! KLogSize e) ->
  (forall i, vw s' !! KLog e i = vw s !! KLog e i) -> logs e s' = logs e s.
Proof.
  intros H1 H2. unfold logs. rewrite (get_num_lookup _ _ _ H1). destruct (get_num _ _); [|done]. f_equal.
  apply map_ext. intros i. unfold get_log. rewrite H2. done.
Qed.

Lemma logs_step e s o s' ls : DB s -> step e s o = Some s' -> logs e s = Some ls ->
  (N.of_nat (length ls) < two64 - 1)%N ->
  logs e s' = Some (ls ++ emits fee_log e (vw s) o).
Proof.
  intros HD Hs Hls Hb. pose proof (step_DB_frame _ _ _ _ _ _ HD Hs) as [_ Hf].
  assert (Hgen : ~ touches e o (KLogSize e) -> (forall i, ~ touches e o (KLog e i)) ->
     logs e s' = Some (ls ++ [])).
  { intros H1 H2. rewrite app_nil_r, <- Hls. apply logs_same; [apply Hf, H1|intros; apply Hf, H2]. }
  pose proof (logs_as_list _ _ _ Hls) as Hn. unfold nlogs in Hn.
  assert (Hsd : forall a, self_destruct fee_log e s a = Some s' ->
     logs e s' = Some (ls ++ match get_acc (vw s) a with None => [] | Some _ =>
         if (bal (vw s) a =? 0)%N then [] else [fee_log a addr0 (bal (vw s) a)] end)).
  { intros a Hd. apply self_destruct_facts in Hd; [|done].
    destruct Hd as [[-> ->]|(Hacc & _ & Hd)]; [rewrite app_nil_r; done|].
    destruct (get_acc (vw s) a); [|done].
    destruct Hd as [[-> Hv]|(Hz & _ & n & Hn' & Hv)].
    - cbn. rewrite app_nil_r, <- Hls. apply logs_same; [|intros i]; rewrite Hv, lookup_insert_ne by done; done.
    - destruct (N.eqb_spec (bal (vw s) a) 0); [done|]. rewrite Hn in Hn'. injection Hn' as <-.
      eapply logs_append; [exact Hls|exact Hb|exact Hv|]. intros i. rewrite !lookup_insert_ne by done. done. }
  destruct o; cbn [emits]; try (apply Hgen; [notouch|intros ?; notouch]).
  - apply add_log_facts in Hs as (n & Hn' & _ & Hv); [|done]. rewrite Hn in Hn'. injection Hn' as <-.
    eapply logs_append; [exact Hls|exact Hb|exact Hv|done].
  - apply add_balance_facts in Hs; [|done].
    destruct Hs as [[-> ->]|(Hz & _ & _ & k & Hn' & _ & Hv)]; [rewrite app_nil_r; done|].
    destruct (N.eqb_spec n 0); [done|]. rewrite Hn in Hn'. injection Hn' as <-.
    eapply logs_append; [exact Hls|exact Hb|exact Hv|]. intros i. rewrite !lookup_insert_ne by done. done.
  - apply sub_balance_facts in Hs; [|done].
    destruct Hs as [[-> ->]|(Hz & _ & _ & k & Hn' & _ & Hv)]; [rewrite app_nil_r; done|].
    destruct (N.eqb_spec n 0); [done|]. rewrite Hn in Hn'. injection Hn' as <-.
    eapply logs_append; [exact Hls|exact Hb|exact Hv|]. intros i. rewrite !lookup_insert_ne by done. done.
  - apply Hsd. done.
  - cbn [StateDB.step] in Hs. unfold self_destruct6780 in Hs.
    destruct (get_acc (vw s) a) as [x|] eqn:Ea; [|injection Hs as <-; rewrite app_nil_r; done].
    destruct (has_key (vw s) (KCreated e a)); [|injection Hs as <-; rewrite app_nil_r; done].
    apply Hsd in Hs. rewrite Ea in Hs. done.
Qed.

Lemma emits_len e w o : length (emits fee_log e w o) <= 1.
Proof.
  destruct o; cbn; repeat first [case_match | progress cbn]; lia.
Qed.

Lemma logs_history e l : forall s s' ls, DB s -> steps e s l = Some s' -> logs e s = Some ls ->
  (N.of_nat (length ls + length l) < two64)%N ->
  logs e s' = Some (ls ++ emitted fee_log keccak e s l).
Proof.
  induction l as [|o l IH]; intros s s' ls HD; cbn [StateDB.steps emitted].
  - intros [= <-] -> _. rewrite app_nil_r. done.
  - destruct (step e s o) as [s1|] eqn:E; [|done]. intros Hs Hls Hb. cbn [length] in Hb.
    pose proof (step_DB_frame _ _ _ _ _ _ HD E) as [HD1 _].
    pose proof (logs_step e s o s1 ls HD E Hls ltac:(lia)) as H1.
    pose proof (emits_len e (vw s) o).
    rewrite (IH s1 s' _ HD1 Hs H1); [rewrite app_assoc; done|]. rewrite app_length. lia.
Qed.

Lemma logs_other_exec e e' l : e <> e' -> forall s s', DB s -> steps e s l = Some s' ->
  logs e' s' = logs e' s.
Proof.
  intros Hne. induction l as [|o l IH]; intros s s' HD; cbn [StateDB.steps].
  - intros [= <-]. done.
  - destruct (step e s o) as [s1|] eqn:E; [|done]. intros Hs.
    pose proof (step_DB_frame _ _ _ _ _ _ HD E) as [HD1 Hf].
    rewrite (IH s1 s' HD1 Hs). apply logs_same; [|intros i]; apply Hf; destruct o; notouch.
Qed.

(** ** Committed state *)
Definition high (s : db) : Prop := db_ctx s <> 0 /\ Forall (fun c => c <> 0) (db_snaps s).

Lemma db_put_high s k o : high s -> high (db_put s k o) /\ m_base (db_store (db_put s k o)) = m_base (db_store s).
Proof.
  intros [H1 H2]. split; [done|]. unfold db_put, write. cbn. destruct (db_ctx s); [done|]. reflexivity.
Qed.
Lemma snapshot_high s : Forall (fun c => c <> 0) (db_snaps s) ->
  high (fst (snapshot s)) /\ m_base (db_store (fst (snapshot s))) = m_base (db_store s).
Proof.
  intros H2. split; [|done]. split; cbn; [lia|]. apply Forall_app; split; [done|]. constructor; [lia|constructor].
Qed.

(** Any predicate closed under store writes and snapshots is preserved by every command. *)
Definition closed (P : db -> Prop) : Prop :=
  (forall s k o, P s -> P (db_put s k o)) /\ (forall s, P s -> P (fst (snapshot s))).

Section closed.
Variable P : db -> Prop.
Hypothesis HP : closed P.
Lemma cl_put s k v : P s -> P (put s k v). Proof. apply HP. Qed.
Lemma cl_del s k : P s -> P (del s k). Proof. apply HP. Qed.
Lemma cl_snap s : P s -> P (fst (snapshot s)). Proof. apply HP. Qed.
Lemma cl_add_log e s l s' : P s -> add_log e s l = Some s' -> P s'.
Proof. unfold add_log. destruct (get_num _ _); [|done]. intros H [= <-]. do 2 apply cl_put. done. Qed.
Lemma cl_get_or_new s a : P s -> P (fst (get_or_new s a)).
Proof. intros H. unfold get_or_new. destruct (get_acc _ _); [done|]. cbn. apply cl_put. done. Qed.
Lemma cl_sub_balance e s a n s' : P s -> sub_balance fee_log e s a n = Some s' -> P s'.
Proof.
  unfold sub_balance. destruct (n =? 0)%N; [intros H [= <-]; done|]. destruct (_ || _); [done|].
  intros H. apply cl_add_log. do 2 apply cl_put. apply cl_snap. done.
Qed.
Lemma cl_add_balance e s a n s' : P s -> add_balance fee_log e s a n = Some s' -> P s'.
Proof.
  unfold add_balance. destruct (n =? 0)%N; [intros H [= <-]; done|]. destruct (_ || _); [done|].
  intros H. apply cl_add_log. do 2 apply cl_put. apply cl_snap. done.
Qed.
Lemma cl_self_destruct e s a s' : P s -> self_destruct fee_log e s a = Some s' -> P s'.
Proof.
  unfold self_destruct. destruct (get_acc _ _); [|intros H [= <-]; done]. unfold get_balance.
  intros H. apply cl_sub_balance. apply cl_snap, cl_put. done.
Qed.

Lemma cl_step e s o s' : P s -> step e s o = Some s' -> P s'.
Proof.
  intros H. destruct o; cbn [StateDB.step]; unfold set_state, set_transient, set_nonce, set_code, add_refund, sub_refund,
    add_address_al, add_slot_al, create_account, create_contract, set_account, new_account.
  - intros [= <-]. apply cl_put, H.
  - case_decide; intros [= <-]; [apply H|apply cl_put, H].
  - pose proof (cl_get_or_new s a H). destruct (get_or_new s a) as [s1 x]. intros [= <-]. apply cl_put. done.
  - pose proof (cl_get_or_new s a H). destruct (get_or_new s a) as [s1 x].
    destruct (ac_kind _); try done. intros [= <-]. do 3 apply cl_put. done.
  - destruct (get_num _ _); [|done]. intros [= <-]. apply cl_put, H.
  - destruct (get_num _ _); [|done]. destruct (_ <? _)%N; [done|]. intros [= <-]. apply cl_put, H.
  - apply cl_add_log, H.
  - intros [= <-]. apply cl_put, H.
  - intros [= <-]. destruct (address_in_al _ _ _); repeat apply cl_put; apply H.
  - cbn. intros [= <-]. repeat apply cl_put. apply H.
  - destruct (get_acc _ _) as [x|].
    + destruct (is_empty_account x); [|done]. intros [= <-]. repeat apply cl_put. apply H.
    + cbn. intros [= <-]. repeat apply cl_put. apply H.
  - apply cl_add_balance, H.
  - apply cl_sub_balance, H.
  - apply cl_self_destruct, H.
  - unfold self_destruct6780. destruct (get_acc _ _); [|intros [= <-]; apply H].
    destruct (has_key _ _); [|intros [= <-]; apply H]. apply cl_self_destruct, H.
  - intros [= <-]. apply cl_snap, H.
  - intros [= <-]. apply cl_snap, H.
Qed.
Lemma cl_steps e l : forall s s', P s -> steps e s l = Some s' -> P s'.
Proof.
  induction l as [|o l IH]; intros s s' H; cbn; [intros [= <-]; done|].
  destruct (step e s o) as [s1|] eqn:E; [|done]. apply IH. eapply cl_step; eauto.
Qed.
Lemma cl_clear_prefix s p : P s -> P (clear_prefix s p).
Proof.
  unfold clear_prefix. generalize (omap (λ kv : key * val, match kv.1 with KVm k => if has_prefix p k then Some k else None | _ => None end) (map_to_list (vw s))).
  intros L. revert s. induction L as [|k L IH]; intros s H; cbn; [done|]. apply IH, cl_del, H.
Qed.
Lemma cl_destroy_one e s a s' : P s -> destroy_one fee_log e s a = Some s' -> P s'.
Proof.
  intros H. unfold destroy_one, get_balance.
  destruct (if (_ =? 0)%N then _ else _) as [s2|] eqn:E; [|done].
  assert (H2 : P s2).
  { destruct (_ =? 0)%N in E; [injection E as <-; apply cl_snap, H|]. eapply cl_sub_balance; [|exact E]. apply cl_snap, H. }
  destruct (get_acc _ a); [|done]. intros [= <-]. apply cl_del, cl_clear_prefix, H2.
Qed.
Lemma cl_destroy_all e l : forall s s', P s -> destroy_all fee_log e s l = Some s' -> P s'.
Proof.
  induction l as [|a l IH]; intros s s' H; cbn [destroy_all]; [intros [= <-]; done|].
  destruct (destroy_one fee_log e s a) as [s1|] eqn:E; [|done]. apply IH. eapply cl_destroy_one; eauto.
Qed.
End closed.

Definition hb (s s' : db) : Prop := high s -> high s' /\ m_base (db_store s') = m_base (db_store s).
Lemma hb_refl s : hb s s. Proof. done. Qed.
Lemma hb_closed s0 : closed (hb s0).
Proof.
  split.
  - intros s k o Hh H. destruct (Hh H) as [H1 H2]. destruct (db_put_high s k o H1) as [Ha Hb].
    split; [exact Ha|]. etrans; [exact Hb|exact H2].
  - intros s Hh H. destruct (Hh H) as [[H1 H1'] H2]. destruct (snapshot_high s H1') as [Ha Hb].
    split; [exact Ha|]. etrans; [exact Hb|exact H2].
Qed.
Lemma hb_step e s o s' : step e s o = Some s' -> hb s s'.
Proof. apply (cl_step _ (hb_closed s)). apply hb_refl. Qed.

Lemma hb_inner_trace s s' : inner_trace fee_log keccak s s' -> hb s s'.
Proof.
  induction 1 as [|e s o s1 s2 Hs _ IH|s i s1 s2 Hi Hr _ IH].
  - apply hb_refl.
  - intros Hh. destruct (hb_step _ _ _ _ Hs Hh) as [H1 E1]. destruct (IH H1) as [H2 E2]. split; [done|congruence].
  - intros Hh. assert (high s1 /\ m_base (db_store s1) = m_base (db_store s)) as [H1 E1].
    { unfold revert_to in Hr. destruct (Z.eqb_spec i (-1)); [done|]. destruct (i <? 0)%Z; [done|].
      destruct (db_snaps s !! Z.to_nat i) as [c|] eqn:E; [|done]. injection Hr as <-.
      split; [|done]. destruct Hh as [_ Hh]. split; cbn.
      - eapply (Forall_lookup_1 _ _ _ _ Hh E).
      - apply Forall_take. done. }
    destruct (IH H1) as [H2 E2]. split; [done|congruence].
Qed.

Lemma committed_const s0 s' a slot : Forall (fun c => c <> 0) (db_snaps s0) ->
  inner_trace fee_log keccak (fst (snapshot s0)) s' ->
  get_committed_state s' a slot = get_state_w (m_base (db_store s0)) a slot.
Proof.
  intros Hz Hi. destruct (snapshot_high s0 Hz) as [Hh Hb]. destruct (hb_inner_trace _ _ Hi Hh) as [_ E].
  unfold get_committed_state. rewrite view_0. congruence.
Qed.

(** ** Intact stacks: reverts and commits see the right state *)
Definition above (s0 : db) (s : db) : Prop :=
  Inv 0 s /\ db_ctx s0 <= db_ctx s /\ grows s0 s.

Lemma above_refl s : Inv 0 s -> above s s.
Proof. intros. split; [done|]. split; [lia|apply grows_refl]. Qed.

Lemma above_closed s0 : Inv 0 s0 -> closed (above s0).
Proof.
  intros HI0. split.
  - intros s k o (HI & Hc & Hl & He & Hp & Hv). split; [by apply Inv_put|]. split; [done|].
    split; [cbn; rewrite length_write; done|]. split; [exact He|]. split.
    + intros c q Hcq. cbn. rewrite parent_of_write. auto.
    + intros c Hlt. cbn. rewrite view_write_lt; [auto|apply HI|lia].
  - intros s (HI & Hc & Hl & He & Hp & Hv). pose proof (Inv_ctx _ _ HI) as Hb.
    split; [by apply Inv_snapshot|]. split; [cbn; lia|].
    split; [cbn; rewrite app_length; lia|]. split.
    + destruct He as [ex He]. eexists. change (db_snaps (fst (snapshot s))) with (db_snaps s ++ [S (length (m_layers (db_store s)))]).
      rewrite He, <- app_assoc. reflexivity.
    + split.
      * intros c q Hcq. apply Hp in Hcq. pose proof (parent_bound _ _ _ Hcq).
        etrans; [exact (parent_of_branch (db_store s) (db_ctx s) c H)|exact Hcq].
      * intros c Hlt. etrans; [exact (view_snapshot_old 0 s c HI ltac:(lia))|auto].
Qed.

Lemma Inv_closed p0 : closed (Inv p0).
Proof. split; [intros; by apply Inv_put|intros; by apply Inv_snapshot]. Qed.

Lemma reach_outer_Inv m s : reach_outer fee_log keccak m s -> Inv 0 s.
Proof.
  induction 1 as [|e s o s' _ IH Hs|s s' _ IH Hr].
  - apply Inv_new.
  - eapply (cl_step _ (Inv_closed 0)); eauto.
  - unfold revert_to in Hr. cbn in Hr. injection Hr as <-. destruct IH as (A & B & _). done.
Qed.

Lemma Inv_DB s : Inv 0 s -> DB s.
Proof.
  intros HI. split; [apply HI|]. split; [eapply Inv_ctx; eauto|].
  destruct HI as (_ & _ & Hs & _). revert Hs. generalize 0.
  induction (db_snaps s) as [|c l IH]; intros p Hs; constructor.
  - eapply parent_bound. apply Hs.
  - eapply IH. apply Hs.
Qed.

Lemma revert_view_back s s2 s3 : Inv 0 s -> above (fst (snapshot s)) s2 ->
  revert_to s2 (snd (snapshot s)) = Some s3 -> db_view s3 = db_view s.
Proof.
  intros HI (HI2 & Hc2 & HG) Hr. pose proof (Inv_ctx _ _ HI) as Hb.
  assert (Hlow : view (db_store s2) (db_ctx s) = view (db_store s) (db_ctx s)).
  { destruct HG as (_ & _ & _ & Hv). rewrite Hv by (cbn; lia). exact (view_snapshot_old 0 s _ HI Hb). }
  destruct HG as (_ & (ex & He) & _ & _).
  change (snd (snapshot s)) with (Z.of_nat (length (db_snaps s)) - 1)%Z in Hr.
  change (db_snaps (fst (snapshot s))) with (db_snaps s ++ [S (length (m_layers (db_store s)))]) in He.
  unfold revert_to in Hr. destruct HI as (Hwf & _ & Hs & Hc).
  destruct (db_snaps s) as [|c l _] using rev_ind.
  - cbn in Hr. injection Hr as <-. unfold db_view. cbn. rewrite <- Hlow, Hc. done.
  - rewrite app_length in Hr. cbn [length] in Hr.
    replace (Z.of_nat (length l + 1) - 1)%Z with (Z.of_nat (length l)) in Hr by lia.
    destruct (Z.eqb_spec (Z.of_nat (length l)) (-1)); [lia|].
    destruct (Z.ltb_spec (Z.of_nat (length l)) 0); [lia|].
    rewrite Nat2Z.id, He in Hr. rewrite <- !app_assoc in Hr. rewrite lookup_app_r in Hr by lia.
    rewrite Nat.sub_diag in Hr. cbn in Hr. injection Hr as <-. unfold db_view. cbn.
    rewrite <- Hlow, Hc, top_app. done.
Qed.

(** A frame (any commands, including further snapshots) followed by a revert. *)
Lemma frame_revert m s e l s2 s3 : reach_outer fee_log keccak m s ->
  steps e (fst (snapshot s)) l = Some s2 -> revert_to s2 (snd (snapshot s)) = Some s3 -> vw s3 = vw s.
Proof.
  intros HR Hs Hr. apply reach_outer_Inv in HR as HI.
  assert (HI1 : Inv 0 (fst (snapshot s))) by (by apply Inv_snapshot).
  pose proof (cl_steps _ (above_closed _ HI1) e l _ _ (above_refl _ HI1) Hs) as HA.
  eapply revert_view_back; eauto.
Qed.

(** ** Commit *)
Lemma fold_del_lookup (L : list bytes) : forall s, DB s ->
  DB (fold_left (fun s k => del s (KVm k)) L s) /\
  forall k, vw (fold_left (fun s k => del s (KVm k)) L s) !! k =
    match k with KVm b => if decide (b ∈ L) then None else vw s !! k | _ => vw s !! k end.
Proof.
  induction L as [|b L IH]; intros s HD; cbn [fold_left].
  - split; [done|]. intros k. destruct k; done.
  - destruct (IH (del s (KVm b)) ltac:(dbstep)) as [H1 H2]. split; [done|]. intros k. rewrite H2.
    rewrite vw_del by done. destruct k; try (rewrite lookup_delete_ne by done; done).
    destruct (decide (k ∈ L)) as [Hi|Hi].
    + rewrite decide_True by (right; done). done.
    + destruct (decide (k = b)) as [->|Hne].
      * rewrite lookup_delete. rewrite decide_True by left. done.
      * rewrite lookup_delete_ne by congruence. rewrite decide_False; [done|].
        intros Hx. apply elem_of_cons in Hx as [?|?]; done.
Qed.

Lemma clear_prefix_facts s p : DB s ->
  DB (clear_prefix s p) /\
  forall k, vw (clear_prefix s p) !! k =
    match k with KVm b => if has_prefix p b then None else vw s !! k | _ => vw s !! k end.
Proof.
  intros HD. unfold clear_prefix.
  set (L := omap _ _). destruct (fold_del_lookup L s HD) as [H1 H2]. split; [done|].
  intros k. rewrite H2. destruct k; try done. destruct (has_prefix p k) eqn:Ep.
  - destruct (decide (k ∈ L)) as [|Hn]; [done|]. destruct (vw s !! KVm k) as [v|] eqn:Ev; [|done].
    exfalso. apply Hn. unfold L. apply elem_of_list_omap. exists (KVm k, v). cbn. rewrite Ep.
    split; [|done]. apply elem_of_map_to_list. done.
  - rewrite decide_False; [done|]. unfold L. intros Hi. apply elem_of_list_omap in Hi as ([k' v] & _ & Hi).
    cbn in Hi. destruct k'; try done. destruct (has_prefix p k0) eqn:E0; [|done]. congruence.
Qed.

Lemma has_prefix_addr a b : has_prefix a b = true <-> take (length a) b = a.
Proof. unfold has_prefix. rewrite bool_decide_eq_true. done. Qed.

(** Effect of destroying one account on everything except logs and total supply. *)
Lemma destroy_one_facts e s a s' : DB s -> destroy_one fee_log e s a = Some s' ->
  DB s' /\ get_acc (vw s) a <> None /\
  bal (vw s') a = 0%N /\
  (forall k, (forall i, k <> KLog e i) -> k <> KLogSize e -> k <> KSupply -> k <> KBal a ->
     vw s' !! k = match k with
                  | KVm b => if has_prefix a b then None else vw s !! k
                  | KAcc a' => if decide (a' = a) then None else vw s !! k
                  | _ => vw s !! k end).
Proof.
  intros HD. unfold destroy_one, get_balance.
  destruct (if (_ =? 0)%N then _ else _) as [s2|] eqn:E; [|done].
  rewrite vw_snapshot in E by done.
  assert (H2 : DB s2 /\ bal (vw s2) a = 0%N /\
     (forall k, (forall i, k <> KLog e i) -> k <> KLogSize e -> k <> KSupply -> k <> KBal a -> vw s2 !! k = vw s !! k)).
  { destruct (N.eqb_spec (bal (vw s) a) 0) as [Hz|Hz].
    - assert (Hs2 : s2 = fst (snapshot s)) by congruence. clear E. rewrite Hs2.
      rewrite (vw_snapshot s HD). split; [exact (DB_snapshot s HD)|]. done.
    - apply sub_balance_facts in E; [|exact (DB_snapshot s HD)].
      rewrite vw_snapshot in E by done.
      destruct E as [[? _]|(_ & _ & _ & n & _ & HD2 & Hv)]; [done|].
      split; [done|]. split.
      + rewrite Hv. unfold bal at 1. rewrite !get_num_insert_ne by done. rewrite get_num_insert. cbn. lia.
      + intros k A B C D. rewrite Hv. rewrite !lookup_insert_ne by congruence. done. }
  destruct H2 as (HD2 & Hb2 & Hf2). destruct (clear_prefix_facts s2 a HD2) as [HD3 Hv3].
  destruct (get_acc (vw (clear_prefix s2 a)) a) as [x|] eqn:Ea; [|done].
  intros [= <-]. split; [dbstep|]. split.
  { unfold get_acc in Ea. rewrite Hv3, Hf2 in Ea by done. unfold get_acc. destruct (vw s !! KAcc a) as [[]|]; done. }
  split.
  - unfold bal, get_num. rewrite vw_del by done. rewrite lookup_delete_ne by done. rewrite Hv3. exact Hb2.
  - intros k A B C D. rewrite vw_del by done. destruct k; try (rewrite lookup_delete_ne by done; rewrite Hv3, Hf2 by done; done).
    + case_decide as Hd; [subst; rewrite lookup_delete; done|].
      rewrite lookup_delete_ne by congruence. rewrite Hv3, Hf2 by done. done.
Qed.

Lemma destroy_all_facts e l : forall s s', DB s -> destroy_all fee_log e s l = Some s' ->
  DB s' /\
  (forall a, bal (vw s') a = 0%N \/ a ∉ l) /\
  (forall a, a ∉ l -> bal (vw s') a = bal (vw s) a) /\
  (forall k, (forall i, k <> KLog e i) -> k <> KLogSize e -> k <> KSupply -> (forall a, k <> KBal a) ->
     vw s' !! k = match k with
                  | KVm b => if existsb (fun a => has_prefix a b) l then None else vw s !! k
                  | KAcc a' => if decide (a' ∈ l) then None else vw s !! k
                  | _ => vw s !! k end).
Proof.
  induction l as [|a l IH]; intros s s' HD; cbn [destroy_all].
  - intros [= <-]. split; [done|]. split; [right; apply not_elem_of_nil|]. split; [done|].
    intros k _ _ _ _. destruct k; done.
  - destruct (destroy_one fee_log e s a) as [s1|] eqn:E; [|done]. intros Hs.
    destruct (destroy_one_facts e s a s1 HD E) as (HD1 & _ & Hb1 & Hf1).
    destruct (IH s1 s' HD1 Hs) as (HD' & Hb0 & Hbk & Hf).
    assert (Hbal : forall b, b <> a -> bal (vw s1) b = bal (vw s) b).
    { intros b Hne. unfold bal. f_equal. apply get_num_lookup. rewrite Hf1 by congruence. done. }
    split; [done|]. split; [|split].
    + intros b. destruct (decide (b ∈ l)) as [Hi|Hi].
      * left. destruct (Hb0 b); done.
      * destruct (decide (b = a)) as [->|Hne].
        -- left. rewrite Hbk by done. done.
        -- right. intros Hx. apply elem_of_cons in Hx as [?|?]; done.
    + intros b Hb. rewrite not_elem_of_cons in Hb. destruct Hb as [Hb1' Hb2']. rewrite Hbk by done. apply Hbal. done.
    + intros k A B C D. rewrite Hf by done. destruct k; try (rewrite Hf1 by done; done); try done.
      * destruct (decide (a0 ∈ l)) as [Hi|Hi].
        -- rewrite decide_True by (right; done). done.
        -- rewrite Hf1 by done. case_decide as Hd.
           ++ subst. rewrite decide_True by left. done.
           ++ rewrite decide_False; [done|]. intros Hx. apply elem_of_cons in Hx as [?|?]; done.
      * cbn [existsb]. destruct (existsb (λ a0 : bytes, has_prefix a0 k) l) eqn:Ex; [rewrite orb_true_r; done|].
        rewrite orb_false_r. rewrite Hf1 by done. done.
Qed.

Lemma destructed_spec e w a : a ∈ destructed e w <-> has_key w (KDestruct e a) = true.
Proof.
  unfold destructed. rewrite elem_of_list_omap. unfold has_key. split.
  - intros ([k v] & Hin & Hk). cbn in Hk. destruct k; try done. case_decide; [|done]. subst. injection Hk as ->.
    apply elem_of_map_to_list in Hin. rewrite Hin. done.
  - destruct (w !! KDestruct e a) as [v|] eqn:E; [|done]. intros _. exists (KDestruct e a, v).
    split; [apply elem_of_map_to_list; done|]. cbn. rewrite decide_True; done.
Qed.

Lemma existsb_prefix_iff (l : list bytes) a rest : length a = 20 -> (forall x, x ∈ l -> length x = 20) ->
  existsb (fun x => has_prefix x (a ++ rest)) l = true <-> a ∈ l.
Proof.
  intros Ha Hl. rewrite existsb_exists. split.
  - intros (x & Hx & Hp). apply elem_of_list_In in Hx. apply has_prefix_addr in Hp. rewrite (Hl x Hx) in Hp.
    rewrite <- Ha, take_app in Hp. rewrite Hp. exact Hx.
  - intros Hin. exists a. split; [apply elem_of_list_In; done|]. apply has_prefix_addr, take_app.
Qed.

Lemma commit_facts m e s s' : reach_outer fee_log keccak m s ->
  (forall a, has_key (vw s) (KDestruct e a) = true -> length a = 20) ->
  commit fee_log e s = Some s' ->
  let w := vw s in let w' := m_base (db_store s') in
  (forall a, length a = 20 -> has_key w (KDestruct e a) = true ->
     get_acc w' a = None /\ (forall rest, get_vm w' (a ++ rest) = None) /\ bal w' a = 0%N) /\
  (forall a, length a = 20 -> has_key w (KDestruct e a) = false ->
     get_acc w' a = get_acc w a /\ (forall rest, get_vm w' (a ++ rest) = get_vm w (a ++ rest)) /\ bal w' a = bal w a).
Proof.
  intros HR Hlen Hc w w'. apply reach_outer_Inv in HR as HI. unfold commit in Hc.
  destruct (destroy_all fee_log e s (destructed e (vw s))) as [s1|] eqn:E; [|done]. injection Hc as <-.
  assert (HI1 : Inv 0 s1) by (eapply (cl_destroy_all _ (Inv_closed 0)); eauto).
  assert (Hw' : w' = vw s1) by (apply flush_all_base; done). rewrite Hw'.
  destruct (destroy_all_facts _ _ _ _ (Inv_DB _ HI) E) as (_ & Hb0 & Hbk & Hf).
  assert (Hl20 : forall x, x ∈ destructed e (vw s) -> length x = 20).
  { intros x Hx. apply destructed_spec in Hx. auto. }
  split.
  - intros a Ha Hd. pose proof (proj2 (destructed_spec e (vw s) a) Hd) as Hin. split; [|split].
    + unfold get_acc. rewrite Hf by done. rewrite decide_True by done. done.
    + intros rest. unfold get_vm. rewrite Hf by done.
      rewrite (proj2 (existsb_prefix_iff _ a rest Ha Hl20) Hin). done.
    + destruct (Hb0 a); done.
  - intros a Ha Hd. assert (Hin : a ∉ destructed e (vw s)).
    { intros Hx. apply destructed_spec in Hx. unfold w in Hd. congruence. }
    split; [|split].
    + apply get_acc_lookup. rewrite Hf by done. rewrite decide_False by done. done.
    + intros rest. apply get_vm_lookup. rewrite Hf by done.
      destruct (existsb _ _) eqn:Ex; [|done]. apply existsb_prefix_iff in Ex; done.
    + apply Hbk. done.
Qed.

(** Marks: with EIP-6780 only contracts created in this execution are destroyed. *)
Lemma created_history e l a : forall s s', DB s -> steps e s l = Some s' ->
  has_key (vw s') (KCreated e a) = true ->
  has_key (vw s) (KCreated e a) = true \/ OpCreateContract a ∈ l.
Proof.
  induction l as [|o l IH]; intros s s' HD; cbn [StateDB.steps]; [intros [= <-]; auto|].
  destruct (step e s o) as [s1|] eqn:E; [|done]. intros Hs Hk.
  pose proof (step_DB_frame _ _ _ _ _ _ HD E) as [HD1 Hf].
  destruct (IH s1 s' HD1 Hs Hk) as [H1|H1]; [|right; right; done].
  destruct (decide (o = OpCreateContract a)) as [->|Hne]; [right; left|].
  left. rewrite <- H1. unfold has_key. rewrite Hf; [done|]. destruct o; notouch.
Qed.

Lemma steps_snoc e l o : forall s s', steps e s (l ++ [o]) = Some s' ->
  exists s1, steps e s l = Some s1 /\ step e s1 o = Some s'.
Proof.
  induction l as [|x l IH]; intros s s'; cbn [app StateDB.steps].
  - destruct (step e s o) as [s1|] eqn:E; [|done]. intros [= <-]. exists s. done.
  - destruct (step e s x) as [s1|]; [|done]. apply IH.
Qed.

Lemma destruct_history e l a : (forall b, OpSelfDestruct b ∉ l) -> forall s s', DB s -> steps e s l = Some s' ->
  has_key (vw s') (KDestruct e a) = true ->
  has_key (vw s) (KDestruct e a) = true \/
  (OpSelfDestruct6780 a ∈ l /\ (has_key (vw s) (KCreated e a) = true \/ OpCreateContract a ∈ l)).
Proof.
  intros Hno. induction l as [|o l IH] using rev_ind; intros s s' HD Hs Hk.
  - injection Hs as <-. auto.
  - assert (exists s1, steps e s l = Some s1 /\ step e s1 o = Some s') as (s1 & Hs1 & Ho).
    { exact (steps_snoc e l o s s' Hs). }
    pose proof (steps_DB e s l s1 HD Hs1) as HD1.
    pose proof (step_DB_frame _ _ _ _ _ _ HD1 Ho) as [HD' Hf].
    assert (Hno' : forall b, OpSelfDestruct b ∉ l).
    { intros b Hb. apply (Hno b). apply elem_of_app. auto. }
    destruct (has_key (vw s1) (KDestruct e a)) eqn:Ed.
    + destruct (IH Hno' s s1 HD Hs1 Ed) as [H1|[H1 H2]]; [auto|]. right.
      split; [apply elem_of_app; auto|]. destruct H2; [auto|right; apply elem_of_app; auto].
    + assert (Ho6 : o = OpSelfDestruct6780 a).
      { destruct (decide (o = OpSelfDestruct6780 a)) as [->|Hne]; [done|]. exfalso.
        assert (Hx : has_key (vw s') (KDestruct e a) = has_key (vw s1) (KDestruct e a)); [|congruence].
        unfold has_key. rewrite Hf; [done|]. destruct o; try notouch.
        exfalso. apply (Hno a0). apply elem_of_app. right. left. }
      subst o. right. split; [apply elem_of_app; right; left|].
      cbn in Ho. unfold self_destruct6780 in Ho. destruct (get_acc (vw s1) a) eqn:Ea; [|congruence].
      destruct (has_key (vw s1) (KCreated e a)) eqn:Ec; [|congruence].
      destruct (created_history e l a s s1 HD Hs1 Ec); [auto|right; apply elem_of_app; auto].
Qed.

End hist.
