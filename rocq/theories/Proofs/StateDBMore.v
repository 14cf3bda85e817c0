(** More facts about StateDB histories: account persistence, marks, creation, isolation. *)
From Verif.Base Require Import Prelude Layers.
From Verif.Model Require Import Snapshots StateDB.
From Verif.Spec Require Import Frames StateDBSpec.
From Verif.Proofs Require Import LayersP SnapshotsP StateDBP StateDBHist.

Section more.
Variable fee_log : bytes -> bytes -> N -> log.
Variable keccak : bytes -> bytes.
Notation step := (step fee_log keccak).
Notation steps := (steps fee_log keccak).

Lemma get_acc_insert (w : world) a x : get_acc (<[KAcc a := VAcc x]> w) a = Some x.
Proof. unfold get_acc. rewrite lookup_insert. done. Qed.
Lemma get_acc_insert_ne (w : world) k v a : k <> KAcc a -> get_acc (<[k := v]> w) a = get_acc w a.
Proof. intros. unfold get_acc. rewrite lookup_insert_ne; done. Qed.

(** Once an account record exists it exists until Commit. *)
Lemma acc_step e s o s' a : DB s -> step e s o = Some s' -> get_acc (vw s) a <> None -> get_acc (vw s') a <> None.
Proof.
  intros HD Hs Ha. pose proof (step_DB_frame fee_log keccak e s o s' HD Hs) as [_ Hf].
  assert (Hgen : ~ touches keccak e o (KAcc a) -> get_acc (vw s') a <> None).
  { intros Hn. rewrite (get_acc_lookup _ _ _ (Hf _ Hn)). done. }
  destruct o; try (apply Hgen; notouch).
  - (* SetNonce *) cbn in Hs. unfold set_nonce in Hs. pose proof (get_or_new_facts s a0 HD) as Hg.
    destruct (get_or_new s a0) as [s1 x]. destruct Hg as [HD1 Hg]. injection Hs as <-.
    unfold set_account. rewrite vw_put by done.
    destruct (decide (a0 = a)) as [->|Hne]; [rewrite get_acc_insert; done|].
    rewrite get_acc_insert_ne by congruence.
    destruct Hg as [[_ ->]|(_ & _ & ->)]; [done|]. rewrite get_acc_insert_ne; done.
  - (* SetCode *) destruct (decide (a0 = a)) as [->|Hne]; [|apply Hgen; notouch].
    cbn in Hs. unfold set_code in Hs. pose proof (get_or_new_facts s a HD) as Hg.
    destruct (get_or_new s a) as [s1 x]. destruct Hg as [HD1 Hg].
    destruct (ac_kind _); try done. injection Hs as <-. unfold set_account.
    rewrite !vw_put by dbstep. rewrite !get_acc_insert_ne by done. rewrite get_acc_insert. done.
  - (* CreateAccount *) destruct (decide (a0 = a)) as [->|Hne]; [|apply Hgen; notouch].
    cbn in Hs. injection Hs as <-. unfold set_account. rewrite vw_put by dbstep. rewrite get_acc_insert. done.
  - (* CreateContract *) destruct (decide (a0 = a)) as [->|Hne]; [|apply Hgen; notouch].
    cbn [StateDB.step] in Hs. unfold create_contract in Hs.
    destruct (get_acc (vw (put s (KCreated e a) VUnit)) a) as [x|].
    + destruct (is_empty_account x); [|done]. injection Hs as <-. unfold set_account.
      rewrite vw_put by dbstep. rewrite get_acc_insert. done.
    + cbn in Hs. injection Hs as <-. unfold set_account. rewrite vw_put by dbstep. rewrite get_acc_insert. done.
Qed.

Lemma created_step e s o s' a : DB s -> step e s o = Some s' ->
  has_key (vw s') (KCreated e a) = true <-> has_key (vw s) (KCreated e a) = true \/ o = OpCreateContract a.
Proof.
  intros HD Hs. pose proof (step_DB_frame fee_log keccak e s o s' HD Hs) as [_ Hf].
  assert (Hgen : ~ touches keccak e o (KCreated e a) -> has_key (vw s') (KCreated e a) = has_key (vw s) (KCreated e a)).
  { intros Hn. unfold has_key. rewrite Hf; done. }
  destruct (decide (o = OpCreateContract a)) as [->|Hne].
  - split; [auto|]. intros _. cbn [StateDB.step] in Hs. unfold create_contract in Hs.
    destruct (get_acc (vw (put s (KCreated e a) VUnit)) a) as [x|].
    + destruct (is_empty_account x); [|done]. injection Hs as <-. unfold set_account, has_key.
      rewrite !vw_put by dbstep. rewrite lookup_insert_ne by done. rewrite lookup_insert. done.
    + cbn in Hs. injection Hs as <-. unfold set_account, has_key.
      rewrite !vw_put by dbstep. rewrite !lookup_insert_ne by done. rewrite lookup_insert. done.
  - rewrite Hgen; [naive_solver|]. destruct o; notouch.
Qed.

Lemma created_acc e s a s' : DB s -> step e s (OpCreateContract a) = Some s' -> get_acc (vw s') a <> None.
Proof.
  intros HD Hs. cbn [StateDB.step] in Hs. unfold create_contract in Hs.
  destruct (get_acc (vw (put s (KCreated e a) VUnit)) a) as [x|].
  - destruct (is_empty_account x); [|done]. injection Hs as <-. unfold set_account.
    rewrite vw_put by dbstep. rewrite get_acc_insert. done.
  - cbn in Hs. injection Hs as <-. unfold set_account. rewrite vw_put by dbstep. rewrite get_acc_insert. done.
Qed.

Lemma destruct_step e s o s' a : DB s -> step e s o = Some s' -> (forall b, o <> OpSelfDestruct b) ->
  has_key (vw s') (KDestruct e a) = true <->
  has_key (vw s) (KDestruct e a) = true \/
  (o = OpSelfDestruct6780 a /\ has_key (vw s) (KCreated e a) = true /\ get_acc (vw s) a <> None).
Proof.
  intros HD Hs Hno. pose proof (step_DB_frame fee_log keccak e s o s' HD Hs) as [_ Hf].
  assert (Hgen : ~ touches keccak e o (KDestruct e a) -> has_key (vw s') (KDestruct e a) = has_key (vw s) (KDestruct e a)).
  { intros Hn. unfold has_key. rewrite Hf; done. }
  destruct (decide (o = OpSelfDestruct6780 a)) as [->|Hne].
  - cbn in Hs. unfold self_destruct6780 in Hs. destruct (get_acc (vw s) a) as [x|] eqn:Ea.
    + destruct (has_key (vw s) (KCreated e a)) eqn:Ec.
      * apply self_destruct_facts in Hs; [|done]. destruct Hs as [[? _]|(_ & _ & Hs)]; [congruence|].
        split; [intros _; right; done|]. intros _. unfold has_key.
        destruct Hs as [[_ ->]|(_ & _ & n & _ & ->)]; [rewrite lookup_insert; done|].
        rewrite !lookup_insert_ne by done. rewrite lookup_insert. done.
      * injection Hs as <-. naive_solver.
    + injection Hs as <-. naive_solver.
  - rewrite Hgen; [naive_solver|]. destruct o; notouch.
Qed.

Lemma destruct_iff e l a : (forall b, OpSelfDestruct b ∉ l) -> forall s s', DB s -> steps e s l = Some s' ->
  has_key (vw s) (KDestruct e a) = false -> has_key (vw s) (KCreated e a) = false ->
  (has_key (vw s') (KCreated e a) = true <-> OpCreateContract a ∈ l) /\
  (OpCreateContract a ∈ l -> get_acc (vw s') a <> None) /\
  (has_key (vw s') (KDestruct e a) = true <->
   exists l1 l2, l = l1 ++ OpSelfDestruct6780 a :: l2 /\ OpCreateContract a ∈ l1).
Proof.
  intros Hno. induction l as [|o l IH] using rev_ind; intros s s' HD Hs Hd Hc.
  - injection Hs as <-. rewrite Hc, Hd. split; [|split].
    + split; [done|]. intros Hx. apply elem_of_nil in Hx. done.
    + intros Hx. apply elem_of_nil in Hx. done.
    + split; [done|]. intros (l1 & l2 & Hl & _). destruct l1; done.
  - destruct (steps_snoc fee_log keccak e l o s s' Hs) as (s1 & Hs1 & Ho).
    pose proof (steps_DB fee_log keccak e s l s1 HD Hs1) as HD1.
    assert (Hno' : forall b, OpSelfDestruct b ∉ l).
    { intros b Hb. apply (Hno b). apply elem_of_app. auto. }
    assert (Hob : forall b, o <> OpSelfDestruct b).
    { intros b ->. apply (Hno b). apply elem_of_app. right. left. }
    destruct (IH Hno' s s1 HD Hs1 Hd Hc) as (H1 & H2 & H3). clear IH.
    rewrite (created_step e s1 o s' a HD1 Ho), (destruct_step e s1 o s' a HD1 Ho Hob).
    rewrite H1, H3. split; [|split].
    + rewrite elem_of_app, elem_of_list_singleton. naive_solver.
    + rewrite elem_of_app, elem_of_list_singleton. intros [Hi|Heq].
      * eapply acc_step; eauto.
      * subst o. eapply created_acc; eauto.
    + split.
      * intros [(l1 & l2 & -> & Hi)|(-> & Hcr & _)].
        -- exists l1, (l2 ++ [o]). rewrite <- app_assoc. done.
        -- exists l, []. auto.
      * intros (l1 & l2 & Hl & Hi). destruct l2 as [|x l2 _] using rev_ind.
        -- apply app_inj_tail in Hl as [-> ->]. right. auto.
        -- rewrite app_comm_cons, app_assoc in Hl. apply app_inj_tail in Hl as [-> ->]. left. eauto.
Qed.

Lemma destruct_len e l a : forall s s', DB s -> steps e s l = Some s' -> forallb op_ok l = true ->
  has_key (vw s) (KDestruct e a) = false ->
  has_key (vw s') (KDestruct e a) = true -> length a = 20.
Proof.
  induction l as [|o l IH]; intros s s' HD Hs Hok Hd Hk; cbn [StateDB.steps forallb] in *.
  - injection Hs as <-. congruence.
  - destruct (step e s o) as [s1|] eqn:E; [|done]. apply andb_true_iff in Hok as [Ho Hl].
    pose proof (step_DB_frame fee_log keccak e s o s1 HD E) as [HD1 Hf].
    destruct (has_key (vw s1) (KDestruct e a)) eqn:Ek; [|eauto].
    assert (o = OpSelfDestruct a \/ o = OpSelfDestruct6780 a) as Hx.
    { destruct (decide (o = OpSelfDestruct a)); [auto|]. destruct (decide (o = OpSelfDestruct6780 a)); [auto|].
      exfalso. unfold has_key in *. rewrite Hf in Ek; [congruence|]. destruct o; notouch. }
    destruct Hx as [-> | ->]; cbn in Ho; apply Nat.eqb_eq; done.
Qed.

(** ** Creation *)
Lemma create_contract_some e s a s' : DB s -> create_contract e s a = Some s' ->
  match get_acc (vw s) a with
  | Some x => is_empty_account x = true /\ get_acc (vw s') a = Some (Account (AContract []) (ac_num x) 0%N None)
  | None => get_acc (vw s') a = Some (Account (AContract []) (default 0%N (get_num (vw s) KNextNum)) 0%N None) /\
            get_num (vw s') KNextNum = Some (default 0%N (get_num (vw s) KNextNum) + 1)%N
  end.
Proof.
  intros HD. unfold create_contract.
  assert (Ep : get_acc (vw (put s (KCreated e a) VUnit)) a = get_acc (vw s) a).
  { rewrite vw_put by done. apply get_acc_insert_ne. done. }
  rewrite Ep. destruct (get_acc (vw s) a) as [x|].
  - destruct (is_empty_account x); [|done]. intros [= <-]. split; [done|]. unfold set_account.
    rewrite vw_put by dbstep. apply get_acc_insert.
  - cbv beta iota zeta delta [next_acc_num]. intros [= <-]. unfold set_account. split.
    + rewrite !vw_put by dbstep. rewrite get_acc_insert. rewrite get_num_insert_ne by done. done.
    + rewrite !vw_put by dbstep. rewrite get_num_insert_ne by done. rewrite get_num_insert.
      rewrite get_num_insert_ne by done. done.
Qed.
Lemma create_contract_none e s a : DB s ->
  create_contract e s a = None <-> exists x, get_acc (vw s) a = Some x /\ is_empty_account x = false.
Proof.
  intros HD. unfold create_contract.
  assert (Ep : get_acc (vw (put s (KCreated e a) VUnit)) a = get_acc (vw s) a).
  { rewrite vw_put by done. apply get_acc_insert_ne. done. }
  rewrite Ep. destruct (get_acc (vw s) a) as [x|].
  - destruct (is_empty_account x) eqn:E; [|naive_solver]. split; [done|]. intros (y & [= <-] & ?). congruence.
  - cbn. split; [done|]. intros (y & ? & _). done.
Qed.

(** ** Access lists and logs of other executions *)
Lemma al_other_exec e e' l : e <> e' -> forall s s' k, DB s -> steps e s l = Some s' ->
  has_key (vw s') (KAccess e' k) = has_key (vw s) (KAccess e' k).
Proof.
  intros Hne. induction l as [|o l IH]; intros s s' k HD; cbn [StateDB.steps]; [intros [= <-]; done|].
  destruct (step e s o) as [s1|] eqn:E; [|done]. intros Hs.
  pose proof (step_DB_frame fee_log keccak e s o s1 HD E) as [HD1 Hf].
  rewrite (IH s1 s' k HD1 Hs). unfold has_key. rewrite Hf; [done|]. destruct o; notouch.
Qed.
(** Prepare is a sequence of additions. *)
Definition prepare_ops (sender coinbase : bytes) (dst : option bytes) (pre : list bytes)
    (al : list (bytes * list bytes)) : list op :=
  [OpAddAddr sender] ++ match dst with Some d => [OpAddAddr d] | None => [] end ++
  map OpAddAddr pre ++
  concat (map (fun el => OpAddAddr (fst el) :: map (OpAddSlot (fst el)) (snd el)) al) ++
  [OpAddAddr coinbase].
Lemma steps_app e l1 l2 : forall s, steps e s (l1 ++ l2) = match steps e s l1 with Some s' => steps e s' l2 | None => None end.
Proof.
  induction l1 as [|o l IH]; intros s; cbn [app StateDB.steps]; [done|].
  destruct (step e s o); [apply IH|done].
Qed.
Lemma prepare_steps e s sender coinbase dst pre al :
  steps e s (prepare_ops sender coinbase dst pre al) = Some (prepare e s sender coinbase dst pre al).
Proof.
  unfold prepare_ops, prepare. rewrite steps_app. cbn [StateDB.steps StateDB.step].
  rewrite steps_app.
  assert (Hd : forall s1, steps e s1 (match dst with Some d => [OpAddAddr d] | None => [] end) =
     Some (match dst with Some d => add_address_al e s1 d | None => s1 end)) by (intros; destruct dst; done).
  rewrite Hd. rewrite steps_app.
  assert (Hp : forall l s1, steps e s1 (map OpAddAddr l) = Some (fold_left (add_address_al e) l s1)).
  { induction l as [|x l IH]; intros s1; [done|]. cbn. apply IH. }
  rewrite Hp, steps_app.
  assert (Hs : forall a l s1, steps e s1 (map (OpAddSlot a) l) = Some (fold_left (fun s k => add_slot_al e s a k) l s1)).
  { induction l as [|x l IH]; intros s1; [done|]. cbn. apply IH. }
  assert (Ha : forall l s1, steps e s1 (concat (map (fun el => OpAddAddr (fst el) :: map (OpAddSlot (fst el)) (snd el)) l)) =
    Some (fold_left (fun s el => fold_left (fun s k => add_slot_al e s (fst el) k) (snd el) (add_address_al e s (fst el))) l s1)).
  { induction l as [|x l IH]; intros s1; [done|]. cbn [map concat app StateDB.steps StateDB.step].
    rewrite steps_app, Hs. apply IH. }
  rewrite Ha. cbn. done.
Qed.

(** ** A failed execution *)
Lemma failed_exec_base m s : inner_trace fee_log keccak (fst (snapshot (new_sdb m))) s ->
  m_base (db_store s) = m /\ exists s', revert_to s (-1) = Some s' /\ vw s' = m /\ m_base (db_store s') = m.
Proof.
  intros Hi. destruct (snapshot_high (new_sdb m)) as [Hh Hb]; [constructor|].
  destruct (hb_inner_trace _ _ _ _ Hi Hh) as [_ E].
  assert (Em : m_base (db_store s) = m) by (etrans; [exact E|exact Hb]).
  split; [exact Em|]. eexists. split; [reflexivity|]. split; [|exact Em].
  exact Em.
Qed.

End more.
