From Verif.Base Require Import Prelude Layers.
From Verif.Model Require Import Snapshots StateDB.
From Verif.Proofs Require Import LayersP.

(** A well-formed StateDB, whatever snapshots and reverts happened before. *)
Definition DB (s : db) : Prop :=
  wf (db_store s) /\ db_ctx s <= length (m_layers (db_store s)) /\
  Forall (fun c => c <= length (m_layers (db_store s))) (db_snaps s).

Lemma DB_new m : DB (new_sdb m).
Proof.
  split; [|split; cbn; [lia|constructor]]. intros n l Hl. destruct n; discriminate Hl.
Qed.

Lemma DB_db_put s k o : DB s -> DB (db_put s k o).
Proof.
  intros (A & B & C). split; [|split]; cbn; rewrite ?length_write; auto.
  apply wf_write; done.
Qed.
Lemma vw_db_put s k o : DB s -> vw (db_put s k o) = set_view (vw s) k o.
Proof. intros (A & B & C). unfold vw, db_view, db_put; cbn. apply view_write_same; done. Qed.

Lemma DB_put s k v : DB s -> DB (put s k v). Proof. apply DB_db_put. Qed.
Lemma DB_del s k : DB s -> DB (del s k). Proof. apply DB_db_put. Qed.
Lemma vw_put s k v : DB s -> vw (put s k v) = <[k := v]> (vw s).
Proof. apply vw_db_put. Qed.
Lemma vw_del s k : DB s -> vw (del s k) = delete k (vw s).
Proof. apply vw_db_put. Qed.
Lemma DB_snapshot s : DB s -> DB (fst (snapshot s)).
Proof.
  intros (A & B & C). unfold snapshot, branch; cbn. split; [|split]; cbn.
  - exact (wf_branch _ _ A B).
  - rewrite app_length; cbn; lia.
  - apply Forall_app; split.
    + eapply Forall_impl; [exact C|]. intros x Hx; cbn in *. rewrite app_length; lia.
    + constructor; [rewrite app_length; cbn; lia|constructor].
Qed.
Lemma vw_snapshot s : DB s -> vw (fst (snapshot s)) = vw s.
Proof. intros (A & B & C). exact (view_branch_new _ _ A B). Qed.
Lemma DB_revert s i s' : DB s -> revert_to s i = Some s' -> DB s'.
Proof.
  intros (A & B & C). unfold revert_to.
  destruct (i =? -1)%Z; [intros [= <-]; split; [done|split; cbn; [lia|constructor]]|].
  destruct (i <? 0)%Z; [done|].
  destruct (db_snaps s !! Z.to_nat i) as [c|] eqn:E; [|done].
  intros [= <-]. split; [done|]. cbn. split.
  - eapply Forall_lookup_1 in C; [|exact E]. done.
  - apply Forall_take. done.
Qed.

Ltac dbstep := repeat first [apply DB_put | apply DB_del | apply DB_snapshot | assumption].

Lemma get_num_insert w k n : get_num (<[k := VNum n]> w) k = Some n.
Proof. unfold get_num. rewrite lookup_insert. done. Qed.
Lemma get_num_insert_ne w k k' v : k <> k' -> get_num (<[k := v]> w) k' = get_num w k'.
Proof. intros. unfold get_num. rewrite lookup_insert_ne; done. Qed.

(** ** What each command may change *)
Definition touches (keccak : bytes -> bytes) (e : N) (o : op) (k : key) : Prop :=
  let balance a := k = KBal a \/ k = KSupply \/ k = KLogSize e \/ exists i, k = KLog e i in
  match o with
  | OpSetState a slot v => k = KVm (state_key a slot)
  | OpSetTransient a x v => k = KTVm e x
  | OpSetNonce a n => k = KAcc a \/ k = KNextNum
  | OpSetCode a c => k = KAcc a \/ k = KNextNum \/ k = KVm (code_key a (keccak c)) \/ k = KVm (codesize_key a (keccak c))
  | OpAddRefund _ | OpSubRefund _ => k = KRefund e
  | OpAddLog _ => k = KLogSize e \/ exists i, k = KLog e i
  | OpAddAddr a => k = KAccess e a
  | OpAddSlot a slot => k = KAccess e a \/ k = KAccess e (a ++ slot)
  | OpCreateAccount a => k = KAcc a \/ k = KNextNum
  | OpCreateContract a => k = KCreated e a \/ k = KAcc a \/ k = KNextNum
  | OpAddBalance a n | OpSubBalance a n => balance a
  | OpSelfDestruct a | OpSelfDestruct6780 a => k = KDestruct e a \/ balance a
  | OpGetBalance _ | OpSnapshotS => False
  end.

Section steps.
Variable fee_log : bytes -> bytes -> N -> log.
Variable keccak : bytes -> bytes.
Notation step := (step fee_log keccak).
Notation steps := (steps fee_log keccak).
Notation touches := (touches keccak).

Lemma next_acc_num_facts s : DB s -> DB (fst (next_acc_num s)) /\
  vw (fst (next_acc_num s)) = <[KNextNum := VNum (default 0%N (get_num (vw s) KNextNum) + 1)%N]> (vw s).
Proof. intros HD. cbn. split; [dbstep|apply vw_put; done]. Qed.

Lemma add_log_facts e s l s' : DB s -> add_log e s l = Some s' ->
  exists n, get_num (vw s) (KLogSize e) = Some n /\ DB s' /\
  vw s' = <[KLog e n := VLog l]> (<[KLogSize e := VNum (u64_add n 1)]> (vw s)).
Proof.
  intros HD. unfold add_log. destruct (get_num (vw s) (KLogSize e)) as [n|]; [|done].
  intros [= <-]. exists n. split; [done|]. split; [dbstep|].
  rewrite !vw_put by dbstep. done.
Qed.

Lemma add_balance_facts e s a amt s' : DB s -> add_balance fee_log e s a amt = Some s' ->
  (amt = 0%N /\ s' = s) \/
  (amt <> 0%N /\ (bal (vw s) a + amt < two256)%N /\ (supply (vw s) + amt < two256)%N /\
   exists n, get_num (vw s) (KLogSize e) = Some n /\ DB s' /\
   vw s' = <[KLog e n := VLog (fee_log addr0 a amt)]> (<[KLogSize e := VNum (u64_add n 1)]>
           (<[KSupply := VNum (supply (vw s) + amt)%N]> (<[KBal a := VNum (bal (vw s) a + amt)%N]> (vw s))))).
Proof.
  intros HD. unfold add_balance. destruct (N.eqb_spec amt 0) as [->|Hz].
  - intros [= <-]. left; done.
  - rewrite !vw_snapshot by done.
    destruct (N.leb_spec two256 (bal (vw s) a + amt)), (N.leb_spec two256 (supply (vw s) + amt));
      cbn [orb]; try done.
    intros Hl. right. split; [done|]. split; [done|]. split; [done|].
    apply add_log_facts in Hl as (n & Hn & HD' & Hv); [|dbstep].
    rewrite !vw_put, vw_snapshot in Hv, Hn by dbstep.
    exists n. split; [|split; done].
    rewrite !get_num_insert_ne in Hn by done. done.
Qed.

Lemma sub_balance_facts e s a amt s' : DB s -> sub_balance fee_log e s a amt = Some s' ->
  (amt = 0%N /\ s' = s) \/
  (amt <> 0%N /\ (amt <= bal (vw s) a)%N /\ (amt <= supply (vw s))%N /\
   exists n, get_num (vw s) (KLogSize e) = Some n /\ DB s' /\
   vw s' = <[KLog e n := VLog (fee_log a addr0 amt)]> (<[KLogSize e := VNum (u64_add n 1)]>
           (<[KSupply := VNum (supply (vw s) - amt)%N]> (<[KBal a := VNum (bal (vw s) a - amt)%N]> (vw s))))).
Proof.
  intros HD. unfold sub_balance. destruct (N.eqb_spec amt 0) as [->|Hz].
  - intros [= <-]. left; done.
  - rewrite !vw_snapshot by done.
    destruct (N.ltb_spec (bal (vw s) a) amt), (N.ltb_spec (supply (vw s)) amt);
      cbn [orb]; try done.
    intros Hl. right. split; [done|]. split; [done|]. split; [done|].
    apply add_log_facts in Hl as (n & Hn & HD' & Hv); [|dbstep].
    rewrite !vw_put, vw_snapshot in Hv, Hn by dbstep.
    exists n. split; [|split; done].
    rewrite !get_num_insert_ne in Hn by done. done.
Qed.

Lemma self_destruct_facts e s a s' : DB s -> self_destruct fee_log e s a = Some s' ->
  (get_acc (vw s) a = None /\ s' = s) \/
  (get_acc (vw s) a <> None /\ DB s' /\
   ((bal (vw s) a = 0%N /\ vw s' = <[KDestruct e a := VUnit]> (vw s)) \/
    (bal (vw s) a <> 0%N /\ (bal (vw s) a <= supply (vw s))%N /\
     exists n, get_num (vw s) (KLogSize e) = Some n /\
     vw s' = <[KLog e n := VLog (fee_log a addr0 (bal (vw s) a))]> (<[KLogSize e := VNum (u64_add n 1)]>
           (<[KSupply := VNum (supply (vw s) - bal (vw s) a)%N]> (<[KBal a := VNum 0%N]>
             (<[KDestruct e a := VUnit]> (vw s)))))))).
Proof.
  intros HD. unfold self_destruct. destruct (get_acc (vw s) a) as [x|] eqn:Ea.
  2: { intros [= <-]. left; done. }
  unfold get_balance. intros Hs. right. split; [done|].
  assert (HD1 : DB (put s (KDestruct e a) VUnit)) by dbstep.
  assert (Hv1 : vw (fst (snapshot (put s (KDestruct e a) VUnit))) = <[KDestruct e a := VUnit]> (vw s)).
  { rewrite vw_snapshot, vw_put by dbstep. done. }
  apply sub_balance_facts in Hs; [|dbstep]. rewrite Hv1 in Hs.
  assert (Hb : bal (<[KDestruct e a := VUnit]> (vw s)) a = bal (vw s) a).
  { unfold bal. rewrite get_num_insert_ne by done. done. }
  assert (Ht : supply (<[KDestruct e a := VUnit]> (vw s)) = supply (vw s)).
  { unfold supply. rewrite get_num_insert_ne by done. done. }
  rewrite Hb, Ht in Hs.
  destruct Hs as [[Hz ->]|(Hz & _ & Hle & n & Hn & HD' & Hv)].
  - split; [dbstep|]. left. rewrite Hv1. done.
  - split; [done|]. right. split; [done|]. split; [done|].
    rewrite get_num_insert_ne in Hn by done. exists n. split; [done|].
    rewrite Hv, N.sub_diag. done.
Qed.

Lemma get_or_new_facts s a : DB s ->
  let '(s1, x) := get_or_new s a in
  DB s1 /\
  ((get_acc (vw s) a = Some x /\ s1 = s) \/
   (get_acc (vw s) a = None /\ x = Account ABase (default 0%N (get_num (vw s) KNextNum)) 0%N None /\
    vw s1 = <[KNextNum := VNum (default 0%N (get_num (vw s) KNextNum) + 1)%N]> (vw s))).
Proof.
  intros HD. unfold get_or_new. destruct (get_acc (vw s) a) as [x|] eqn:E.
  - split; [done|]. left; done.
  - cbn. split; [dbstep|]. right. split; [done|]. split; [done|]. apply vw_put; done.
Qed.

Ltac upd := repeat (rewrite lookup_insert_ne by (intros ->; naive_solver || congruence)).

Lemma step_DB_frame e s o s' : DB s -> step e s o = Some s' ->
  DB s' /\ forall k, ~ touches e o k -> vw s' !! k = vw s !! k.
Proof.
  intros HD. destruct o as [a sl v|a x v|a n|a c|g|g|l|a|a sl|a|a|a n|a n|a|a|a|]; cbn [StateDB.step].
  - intros [= <-]. unfold set_state. split; [dbstep|]. intros k Hk. rewrite vw_put by done.
    rewrite lookup_insert_ne; [done|]. intros <-. apply Hk. done.
  - intros [= <-]. unfold set_transient. case_decide; [done|]. split; [dbstep|].
    intros k Hk. rewrite vw_put by done. rewrite lookup_insert_ne; [done|]. intros <-. apply Hk. done.
  - intros [= <-]. unfold set_nonce. pose proof (get_or_new_facts s a HD) as Hg.
    destruct (get_or_new s a) as [s1 x]. destruct Hg as [HD1 Hg].
    split; [unfold set_account; dbstep|]. intros k Hk. unfold set_account. rewrite vw_put by done.
    rewrite lookup_insert_ne; [|intros <-; apply Hk; left; done].
    destruct Hg as [[_ ->]|(_ & _ & ->)]; [done|].
    rewrite lookup_insert_ne; [done|]. intros <-. apply Hk. right; done.
  - unfold set_code. pose proof (get_or_new_facts s a HD) as Hg.
    destruct (get_or_new s a) as [s1 x]. destruct Hg as [HD1 Hg].
    destruct (ac_kind _) eqn:Ek; try done. intros [= <-].
    split; [unfold set_account; dbstep|]. intros k Hk. unfold set_account.
    rewrite !vw_put by dbstep.
    rewrite !lookup_insert_ne; [|intros <-; apply Hk; cbn; tauto..].
    destruct Hg as [[_ ->]|(_ & _ & ->)]; [done|].
    rewrite lookup_insert_ne; [done|]. intros <-. apply Hk. cbn; tauto.
  - unfold add_refund. destruct (get_num _ _); [|done]. intros [= <-]. split; [dbstep|].
    intros k Hk. rewrite vw_put by done. rewrite lookup_insert_ne; [done|]. intros <-. apply Hk. done.
  - unfold sub_refund. destruct (get_num _ _); [|done]. destruct (_ <? _)%N; [done|].
    intros [= <-]. split; [dbstep|].
    intros k Hk. rewrite vw_put by done. rewrite lookup_insert_ne; [done|]. intros <-. apply Hk. done.
  - intros Hl. apply add_log_facts in Hl as (n & Hn & HD' & Hv); [|done]. split; [done|].
    intros k Hk. rewrite Hv. rewrite !lookup_insert_ne; [done|..]; intros <-; apply Hk; cbn; eauto.
  - intros [= <-]. split; [unfold add_address_al; dbstep|]. intros k Hk. unfold add_address_al.
    rewrite vw_put by done. rewrite lookup_insert_ne; [done|]. intros <-. apply Hk. done.
  - intros [= <-]. unfold add_slot_al, add_address_al. destruct (address_in_al e s a).
    + split; [dbstep|]. intros k Hk. rewrite vw_put by done.
      rewrite lookup_insert_ne; [done|]. intros <-. apply Hk. cbn; auto.
    + split; [dbstep|]. intros k Hk. rewrite !vw_put by dbstep.
      rewrite !lookup_insert_ne; [done|..]; intros <-; apply Hk; cbn; auto.
  - intros [= <-]. unfold create_account, new_account, set_account. cbn [next_acc_num].
    split; [dbstep|]. intros k Hk. rewrite !vw_put by dbstep.
    rewrite !lookup_insert_ne; [done|..]; intros <-; apply Hk; cbn; auto.
  - unfold create_contract. destruct (get_acc _ a) as [x|].
    + destruct (is_empty_account x); [|done]. intros [= <-]. unfold set_account.
      split; [dbstep|]. intros k Hk. rewrite !vw_put by dbstep.
      rewrite !lookup_insert_ne; [done|..]; intros <-; apply Hk; cbn; auto.
    + cbn [next_acc_num]. intros [= <-]. unfold set_account.
      split; [dbstep|]. intros k Hk. rewrite !vw_put by dbstep.
      rewrite !lookup_insert_ne; [done|..]; intros <-; apply Hk; cbn; auto.
  - intros Hl. apply add_balance_facts in Hl; [|done].
    destruct Hl as [[_ ->]|(_ & _ & _ & m & _ & HD' & ->)]; [done|]. split; [done|].
    intros k Hk. rewrite !lookup_insert_ne; [done|..]; intros <-; apply Hk; cbn; eauto.
  - intros Hl. apply sub_balance_facts in Hl; [|done].
    destruct Hl as [[_ ->]|(_ & _ & _ & m & _ & HD' & ->)]; [done|]. split; [done|].
    intros k Hk. rewrite !lookup_insert_ne; [done|..]; intros <-; apply Hk; cbn; eauto.
  - intros Hl. apply self_destruct_facts in Hl; [|done].
    destruct Hl as [[_ ->]|(_ & HD' & [[_ ->]|(_ & _ & m & _ & ->)])]; [done|..]; (split; [done|]);
    intros k Hk; (rewrite !lookup_insert_ne; [done|..]); intros <-; apply Hk; cbn; eauto 10.
  - unfold self_destruct6780. destruct (get_acc (vw s) a) as [x|] eqn:Ea; [|intros [= <-]; done].
    destruct (has_key _ _); [|intros [= <-]; done].
    intros Hl. apply self_destruct_facts in Hl; [|done].
    destruct Hl as [[_ ->]|(_ & HD' & [[_ ->]|(_ & _ & m & _ & ->)])]; [done|..]; (split; [done|]);
    intros k Hk; (rewrite !lookup_insert_ne; [done|..]); intros <-; apply Hk; cbn; eauto 10.
  - intros Hq. assert (s' = fst (snapshot s)) as -> by (injection Hq; intros <-; reflexivity).
    split; [dbstep|]. intros k _. rewrite vw_snapshot; done.
  - intros Hq. assert (s' = fst (snapshot s)) as -> by congruence.
    split; [dbstep|]. intros k _. rewrite vw_snapshot; done.
Qed.
End steps.
