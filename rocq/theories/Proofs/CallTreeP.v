(** The run of call frames against the plain ledger of Spec/CallTreeSpec.v. *)
From Verif.Base Require Import Prelude Hex.
From Verif.Model Require Import Token Paths CallTree.
From Verif.Spec Require Import TokenSpec CallTreeSpec WalletSpec.
From Verif.Proofs Require Import TokenP BankP TokenMore.
Open Scope Z_scope.

(** Amounts are 256-bit words. *)
Fixpoint prog_ok (p : prog) : Prop :=
  match p with
  | PStop | PRevert | PDestruct _ => True
  | PStore _ _ k | PLog _ k => prog_ok k
  | PLoad _ k | PBalance _ k => ∀ x, prog_ok (k x)
  | PSend _ v k => amount_ok v ∧ ∀ b, prog_ok (k b)
  | PCall _ v body k => amount_ok v ∧ prog_ok body ∧ ∀ b, prog_ok (k b)
  | PDelegate body k => prog_ok body ∧ ∀ b, prog_ok (k b)
  | PStatic _ body k => ∀ b, prog_ok (k b)
  end.

(** ** The state against the ledger *)
(** Accounts may come into being, plain and unused. *)
Definition accts_grow (w w' : world) : Prop := ∀ y,
  match w_accts w !! y with
  | Some v => w_accts w' !! y = Some v
  | None => w_accts w' !! y = None ∨ ∃ n, w_accts w' !! y = Some (Acct n 0 false KBase)
  end.
Lemma accts_grow_refl w : accts_grow w w.
Proof. intros y. destruct (w_accts w !! y); [done|by left]. Qed.
Lemma accts_grow_trans w1 w2 w3 : accts_grow w1 w2 → accts_grow w2 w3 → accts_grow w1 w3.
Proof.
  intros H1 H2 y. specialize (H1 y). specialize (H2 y). destruct (w_accts w1 !! y).
  - by rewrite H1 in H2.
  - destruct H1 as [H1 | (n & H1)]; rewrite H1 in H2; [done|]. right. by exists n.
Qed.
Lemma accts_grow_same w w' : w_accts w' = w_accts w → accts_grow w w'.
Proof. intros H y. rewrite H. destruct (w_accts w !! y); [done|by left]. Qed.
Lemma accts_grow_create w a : accts_grow w (create_acct w a).
Proof.
  intros y. unfold create_acct. destruct (w_accts w !! a) as [v|] eqn:Ha; [by apply accts_grow_refl|]. simpl.
  destruct (decide (a = y)) as [->|Hne].
  - rewrite Ha, lookup_insert. right. by eexists.
  - rewrite lookup_insert_ne by done. destruct (w_accts w !! y); [done|by left].
Qed.
Lemma accts_grow_modifier w c a : accts_grow w (store_modifier w c a).
Proof.
  unfold store_modifier, register_store. destruct (decide _); [apply accts_grow_refl|].
  destruct (decide _); [|apply accts_grow_refl]. apply (accts_grow_create w a).
Qed.
Record shows (E : env) (fee : bytes) (w0 : world) (sup : Z) (s : st) (l : ledger) : Prop := {
  sh_fee : ∃ t, is_token (s_w s) fee t ∧ tok_ok t ∧ t_kind t = KERC20 ∧ t_supply t = sup;
  sh_bal : ∀ a, balance (s_w s) fee a = l_bal l a;
  sh_sto : s_sto s = l_sto l;
  sh_ev : s_log s = l_ev l;
  sh_blk : ∀ a, is_blocked E (s_w s) a = is_blocked E w0 a;
  sh_other : ∀ c, c ≠ fee → w_code (s_w s) !! c = w_code w0 !! c;
  sh_tab : same_tables w0 (s_w s);
  sh_acc : accts_grow w0 (s_w s) }.

Section proof.
Context (E : env) (fee : bytes) (w0 : world) (sup : Z).
Hypothesis Hnull : fee ≠ null_addr.
Notation blk := (is_blocked E w0).
Notation R := (shows E fee w0 sup).

Lemma origin_create w a b : origin_of (create_acct w a) b = origin_of w b.
Proof.
  unfold origin_of, create_acct. destruct (w_accts w !! a) as [x|] eqn:Ha; [done|]. simpl.
  destruct (decide (a = b)) as [->|]; [by rewrite lookup_insert, Ha|by rewrite lookup_insert_ne].
Qed.
Lemma blocked_modifier w a b : is_blocked E (store_modifier w fee a) b = is_blocked E w b.
Proof.
  unfold is_blocked, store_modifier, register_store. destruct (decide _); [done|].
  destruct (decide _); [|done]. f_equal. unfold upd_stores. apply (origin_create w a b).
Qed.

(** One call of the token by [sender]. *)
Lemma tok_call_shows sup0 s l sender o ev t t1 t2 :
  shows E fee w0 sup0 s l → is_token (s_w s) fee t → guards E (s_w s) sender o t = Some t1 → body sender o t1 = Some t2 →
  tok_ok t2 → t_kind t2 = KERC20 →
  ∃ s', tok_call E fee s sender o ev = (true, s') ∧
    shows E fee w0 (t_supply t2) s' (Ledger (bal t2) (l_sto l) (l_ev l ++ [ev])) ∧ is_token (s_w s') fee t2.
Proof.
  intros HR Ht Hg Hb Hok Hk. unfold tok_call, call_tok. unfold is_token in Ht. rewrite Ht, Hg.
  set (w1 := match op_recipient o with Some r => store_modifier (s_w s) fee r | None => s_w s end).
  rewrite Hb. eexists. split; [reflexivity|].
  assert (Hw1 : w_code w1 = w_code (s_w s) ∧ ∀ a, is_blocked E w1 a = is_blocked E (s_w s) a).
  { unfold w1. destruct (op_recipient o); [|done]. split; [apply store_modifier_code|intros; apply blocked_modifier]. }
  destruct Hw1 as [Hc Hbl].
  assert (Hbal : ∀ a, balance (upd_code w1 (insert fee (CTok t2))) fee a = bal t2 a).
  { intros a. unfold balance. simpl. by rewrite lookup_insert. }
  assert (Htk : is_token (upd_code w1 (insert fee (CTok t2))) fee t2) by (unfold is_token; simpl; by rewrite lookup_insert).
  assert (Htab : same_tables (s_w s) w1).
  { unfold w1. destruct (op_recipient o) as [r|]; [|by split_and!].
    pose proof (store_modifier_code (s_w s) r fee) as (? & ? & ? & ? & ? & _). by split_and!. }
  split; [|exact Htk]. destruct HR as [_ _ H3 H4 H5 H6 H7 H8]. split; simpl.
  - exists t2. split; [|done]. unfold is_token. simpl. by rewrite lookup_insert.
  - exact Hbal.
  - done.
  - by rewrite H4.
  - intros a. rewrite <- (H5 a), <- (Hbl a). reflexivity.
  - intros c Hne. rewrite lookup_insert_ne by done. rewrite Hc. by apply H6.
  - eapply same_tables_trans; [exact H7|exact Htab].
  - eapply accts_grow_trans; [exact H8|]. unfold w1. destruct (op_recipient o); [|by apply accts_grow_same].
    apply (accts_grow_modifier (s_w s)).
Qed.
Lemma tok_call_fails s l sender to v ev :
  R s l → amount_ok v → (l_bal l sender < v ∨ blk to = true) →
  ∃ s', tok_call E fee s sender (OTransfer to v) ev = (false, s') ∧ R s' l.
Proof.
  intros HR Hv Hf. destruct (sh_fee _ _ _ _ _ _ HR) as (t & Ht & Hok & Hk & Hs).
  assert (Hbal : bal t sender = l_bal l sender).
  { rewrite <- (sh_bal _ _ _ _ _ _ HR). unfold balance. unfold is_token in Ht. by rewrite Ht. }
  unfold tok_call, call_tok. pose proof Ht as Ht'. unfold is_token in Ht'. rewrite Ht'. cbn [guards].
  rewrite (sh_blk _ _ _ _ _ _ HR). destruct (blk to) eqn:Hb.
  - eexists. split; [reflexivity|]. by destruct s.
  - cbn [op_recipient body]. rewrite tok_transfer_spec by done.
    destruct Hf as [Hf|]; [|done]. rewrite decide_False by lia. eexists. split; [reflexivity|].
    destruct HR as [H1 H2 H3 H4 H5 H6 H7 H8].
    destruct (store_modifier_code (s_w s) to fee) as (Hc & Hc1 & _ & Hc2 & Hc3 & _).
    split; simpl; try done.
    + exists t. split; [|done]. unfold is_token. by rewrite Hc.
    + intros a. rewrite <- H2. unfold balance. by rewrite Hc.
    + intros a. by rewrite blocked_modifier.
    + intros c Hne. rewrite Hc. by apply H6.
    + eapply same_tables_trans; [exact H7|]. by split_and!.
    + eapply accts_grow_trans; [exact H8|]. apply accts_grow_modifier.
Qed.
Lemma shows_ext s l l' : R s l → (∀ a, l_bal l a = l_bal l' a) → l_sto l = l_sto l' → l_ev l = l_ev l' → R s l'.
Proof.
  intros [H1 H2 H3 H4 H5 H6 H7 H8] Hb Hs He. split; try done; [|congruence|congruence]. intros a. by rewrite H2.
Qed.
Lemma tok_send s l a b v ev : R s l → amount_ok v → v <= l_bal l a → blk b = false →
  ∃ s', tok_call E fee s a (OTransfer b v) ev = (true, s') ∧ R s' (note (pay l a b v) [ev]).
Proof.
  intros HR Hv Hle Hb. destruct (sh_fee _ _ _ _ _ _ HR) as (t & Ht & Hok & Hk & Hs).
  assert (Hbal : ∀ x, bal t x = l_bal l x).
  { intros x. rewrite <- (sh_bal _ _ _ _ _ _ HR). unfold balance. unfold is_token in Ht. by rewrite Ht. }
  destruct (tok_transfer t a b v) as [t2|] eqn:Htt; cycle 1.
  { rewrite tok_transfer_spec in Htt by done. rewrite Hbal, decide_True in Htt by done. done. }
  assert (Hok2 := tok_transfer_ok _ _ _ _ _ Hok Hv Htt). pose proof Htt as Htt'.
  rewrite tok_transfer_spec, decide_True in Htt by (try done; by rewrite Hbal). injection Htt as Ht2.
  destruct (tok_call_shows _ s l a (OTransfer b v) ev t t t2 HR Ht) as (s' & Hc & HR' & _); try done.
  - cbn [guards]. by rewrite (sh_blk _ _ _ _ _ _ HR), Hb.
  - by rewrite <- Ht2.
  - replace (t_supply t2) with sup in HR' by by rewrite <- Ht2.
    exists s'. split; [done|]. eapply shows_ext; [exact HR'| |done|done].
    intros x. simpl. rewrite <- Hbal. subst t2. unfold bal, set_bal. simpl.
    destruct (decide (x = b)) as [->|Hxb].
    + rewrite lookup_insert. simpl. rewrite (bool_decide_eq_true_2 (b = b)) by done.
      repeat case_bool_decide; subst; try done; unfold bal; lia.
    + rewrite lookup_insert_ne by done. rewrite (bool_decide_eq_false_2 (x = b)) by done.
      destruct (decide (x = a)) as [->|Hxa].
      * rewrite lookup_insert. simpl. rewrite bool_decide_eq_true_2 by done. unfold bal. lia.
      * rewrite lookup_insert_ne by done. rewrite bool_decide_eq_false_2 by done. lia.
Qed.
(** The chain moves tokens without the blocked check. *)
Lemma tok_sudo_send s l a b v ev : R s l → amount_ok v → v <= l_bal l a →
  ∃ s', tok_call E fee s chain_addr (OSudoTransfer a b v) ev = (true, s') ∧ R s' (note (pay l a b v) [ev]).
Proof.
  intros HR Hv Hle. destruct (sh_fee _ _ _ _ _ _ HR) as (t & Ht & Hok & Hk & Hs).
  assert (Hbal : ∀ x, bal t x = l_bal l x).
  { intros x. rewrite <- (sh_bal _ _ _ _ _ _ HR). unfold balance. unfold is_token in Ht. by rewrite Ht. }
  destruct (tok_transfer t a b v) as [t2|] eqn:Htt; cycle 1.
  { rewrite tok_transfer_spec in Htt by done. rewrite Hbal, decide_True in Htt by done. done. }
  assert (Hok2 := tok_transfer_ok _ _ _ _ _ Hok Hv Htt). pose proof Htt as Htt'.
  rewrite tok_transfer_spec, decide_True in Htt by (try done; by rewrite Hbal). injection Htt as Ht2.
  destruct (tok_call_shows _ s l chain_addr (OSudoTransfer a b v) ev t t t2 HR Ht) as (s' & Hc & HR' & _); try done.
  - by rewrite <- Ht2.
  - replace (t_supply t2) with sup in HR' by by rewrite <- Ht2.
    exists s'. split; [done|]. eapply shows_ext; [exact HR'| |done|done].
    intros x. simpl. rewrite <- Hbal. subst t2. unfold bal, set_bal. simpl.
    destruct (decide (x = b)) as [->|Hxb].
    + rewrite lookup_insert. simpl. rewrite (bool_decide_eq_true_2 (b = b)) by done.
      repeat case_bool_decide; subst; try done; unfold bal; lia.
    + rewrite lookup_insert_ne by done. rewrite (bool_decide_eq_false_2 (x = b)) by done.
      destruct (decide (x = a)) as [->|Hxa].
      * rewrite lookup_insert. simpl. rewrite bool_decide_eq_true_2 by done. unfold bal. lia.
      * rewrite lookup_insert_ne by done. rewrite bool_decide_eq_false_2 by done. lia.
Qed.
Lemma destruct_shows s l a heir : R s l →
  let v := l_bal l a in
  default 0 (balance_of (s_w s) fee a) = v ∧
  if decide (v = 0) then True else
  ∃ s1 s2, tok_call E fee s chain_addr (OSudoBurn a v) (EMoved a null_addr v) = (true, s1) ∧
    tok_call E fee s1 chain_addr (OSudoMint heir v) (EMoved null_addr heir v) = (true, s2) ∧
    R s2 (note (pay l a heir v) [EMoved a null_addr v; EMoved null_addr heir v]).
Proof.
  intros HR v. destruct (sh_fee _ _ _ _ _ _ HR) as (t & Ht & Hok & Hk & Hs).
  assert (Hbal : ∀ x, bal t x = l_bal l x).
  { intros x. rewrite <- (sh_bal _ _ _ _ _ _ HR). unfold balance. unfold is_token in Ht. by rewrite Ht. }
  split. { unfold balance_of. unfold is_token in Ht. rewrite Ht. simpl. by rewrite Hbal. }
  destruct (decide (v = 0)) as [Hz|Hz]; [done|].
  pose proof (bal_range t a Hok) as Hr. rewrite Hbal in Hr. fold v in Hr.
  pose proof (ok_bound t Hok) as Hsup.
  assert (Hv : amount_ok v) by (unfold amount_ok; lia).
  set (t1 := set_supply (set_bal t a (bal t a - v)) (t_supply t - v)).
  assert (Hb1 : tok_burn t a v = Some t1).
  { rewrite tok_burn_spec by done. rewrite Hbal. fold v. rewrite decide_True by lia. unfold t1. by rewrite Hbal. }
  assert (Hok1 := tok_burn_ok _ _ _ _ Hok Hv Hb1).
  destruct (tok_call_shows _ s l chain_addr (OSudoBurn a v) (EMoved a null_addr v) t t t1 HR Ht) as (s1 & Hc1 & HR1 & Ht1); try done.
  { cbn [guards]. by rewrite Hk, bool_decide_eq_true_2. }
  set (t2 := set_supply (set_bal t1 heir (bal t1 heir + v)) (t_supply t1 + v)).
  assert (Hb2 : tok_mint t1 heir v = Some t2).
  { rewrite tok_mint_spec by done. rewrite decide_True; [done|]. unfold t1. simpl. lia. }
  assert (Hok2 := tok_mint_ok _ _ _ _ Hok1 Hv Hb2).
  destruct (tok_call_shows _ s1 _ chain_addr (OSudoMint heir v) (EMoved null_addr heir v) t1 t1 t2 HR1 Ht1) as (s2 & Hc2 & HR2 & Ht2); try done.
  { cbn [guards]. replace (t_kind t1) with KERC20 by by rewrite <- Hk. by rewrite bool_decide_eq_true_2. }
  exists s1, s2. split; [done|]. split; [done|].
  replace (t_supply t2) with sup in HR2 by (unfold t2, t1; simpl; lia).
  eapply shows_ext; [exact HR2| |done|simpl; by rewrite <- app_assoc].
  intros x. simpl. rewrite <- Hbal. unfold t2, t1, bal, set_bal. simpl.
  destruct (decide (x = heir)) as [->|Hxb].
  + rewrite lookup_insert. simpl. rewrite (bool_decide_eq_true_2 (heir = heir)) by done.
    destruct (decide (heir = a)) as [->|Hha].
    * rewrite lookup_insert. simpl. repeat case_bool_decide; try done; lia.
    * rewrite lookup_insert_ne, bool_decide_eq_false_2 by done. lia.
  + rewrite lookup_insert_ne by done. rewrite (bool_decide_eq_false_2 (x = heir)) by done.
    destruct (decide (x = a)) as [->|Hxa].
    * rewrite lookup_insert. simpl. rewrite bool_decide_eq_true_2 by done. lia.
    * rewrite lookup_insert_ne by done. rewrite bool_decide_eq_false_2 by done. lia.
Qed.


(** ** Paths *)
Notation mst := (path st).
Definition clean (u : list (bool * st)) : Prop := Forall (fun e => e.1 = true) u.
(** The frame that began when the content was [c] and the contexts were [r] is still open. *)
Definition inside (c : st) (r : list (bool * st)) (m : mst) : Prop :=
  clean (pt_up m) ∧ ∃ us, pt_up m = us ++ (true, c) :: r.
(** ... or has failed. *)
Definition over (c : st) (r : list (bool * st)) (m : mst) : Prop := ∃ us b, pt_up m = us ++ (b, c) :: r.
Definition kill (u : list (bool * st)) : list (bool * st) := match u with [] => [] | (_, d) :: r => (false, d) :: r end.

Lemma inside_over c r m : inside c r m → over c r m.
Proof. intros [_ [us H]]. by exists us, true. Qed.
Lemma inside_set c r m s : inside c r m → inside c r (pt_set m s).
Proof. done. Qed.
Lemma over_set c r m s : over c r m → over c r (pt_set m s).
Proof. done. Qed.
Lemma inside_snapped c r m : inside c r m → inside c r (snapped m).
Proof. intros [Hc [us H]]. split; [by constructor|]. exists ((true, pt_cur m) :: us). simpl. by rewrite H. Qed.
Lemma inside_new m : clean (pt_up m) → inside (pt_cur m) (pt_up m) (snapped m).
Proof. intros Hc. split; [by constructor|]. by exists []. Qed.
Lemma inside_trans c r m c' r' m' : inside c r m → inside c' r' m' → (∃ us, r' = us ++ pt_up m) → inside c r m'.
Proof.
  intros [_ [us H]] [Hc [us' H']] [us'' ->]. split; [done|]. exists (us' ++ (true, c') :: us'' ++ us).
  rewrite H', H. by rewrite <- app_assoc, <- app_comm_cons, <- app_assoc.
Qed.
Lemma inside_up c r m m' : inside c r m → inside (pt_cur m) (pt_up m) m' → inside c r m'.
Proof. intros H1 H2. eapply inside_trans; [done|exact H2|]. by exists []. Qed.
Lemma iter_snapped k m : pt_cur (Nat.iter k snapped m) = pt_cur m ∧ ∃ us, clean us ∧ pt_up (Nat.iter k snapped m) = us ++ pt_up m.
Proof.
  induction k as [|k (IH1 & us & Hc & IH2)]; [split; [done|]; exists []; split; [by constructor|done]|].
  change (Nat.iter (S k) snapped m) with (snapped (Nat.iter k snapped m)). set (x := Nat.iter k snapped m) in *. clearbody x.
  split; [done|]. exists ((true, pt_cur x) :: us). split; [by constructor|]. simpl. by rewrite IH2.
Qed.
Lemma inside_iter c r m k : inside c r m → inside c r (Nat.iter k snapped m).
Proof. intros H. induction k as [|k IH]; [done|]. by apply inside_snapped. Qed.
Lemma over_iter c r m k : over c r m → over c r (Nat.iter k snapped m).
Proof.
  intros (us & b & H). destruct (iter_snapped k m) as [_ (us' & _ & Hu)]. exists (us' ++ us), b. rewrite Hu, H. by rewrite app_assoc.
Qed.
Lemma over_kill c r m m3 : inside c r m → pt_up m3 = kill (pt_up m) → over c r m3.
Proof.
  intros [_ [us H]] H3. rewrite H in H3. destruct us as [|[b d] us]; simpl in H3.
  - by exists [], false.
  - by exists ((false, d) :: us), true.
Qed.
Lemma live_app u v : pt_live (A:=st) (u ++ v) = (pt_live u + pt_live v)%nat.
Proof. induction u as [|[b c] u IH]; [done|]. simpl. rewrite IH. lia. Qed.
Lemma live_clean u : clean u → pt_live u = length u.
Proof. induction 1 as [|[b c] u Hb _ IH]; [done|]. simpl in *. by rewrite Hb, IH. Qed.
Lemma base_app cur us (b : bool) (c : st) r : pt_base cur (us ++ (b, c) :: r) = pt_base c r.
Proof. revert cur. induction us as [|[b' d] us IH]; intros cur; [done|]. simpl. apply IH. Qed.
Lemma back_app i cur us (b : bool) (c : st) r : (i < pt_live r)%nat → pt_back i cur (us ++ (b, c) :: r) = pt_back i c r.
Proof.
  intros Hi. revert cur. induction us as [|[b' d] us IH]; intros cur; simpl.
  - destruct (Nat.eqb_spec (pt_live r) i); [lia|]. by rewrite andb_false_r.
  - rewrite live_app. simpl. destruct (Nat.eqb_spec (pt_live us + ((if b then 1 else 0) + pt_live r)) i); [lia|]. by rewrite andb_false_r.
Qed.
Lemma rollback_over m c r : clean r → over c r m → ∃ m',
  rollback m (Z.of_nat (pt_live r) - 1) = Some m' ∧ pt_cur m' = undo c (pt_cur m) ∧ pt_up m' = kill r.
Proof.
  intros Hc (us & b & H). unfold rollback, pt_revert. rewrite H. destruct r as [|[b' d] r].
  - simpl. rewrite base_app. simpl. by eexists.
  - apply Forall_cons in Hc as [Hb Hc]. simpl in Hb. subst b'. cbn [pt_live].
    destruct (Z.eqb_spec (Z.of_nat (1 + pt_live r) - 1) (-1)); [lia|].
    destruct (Z.ltb_spec (Z.of_nat (1 + pt_live r) - 1) 0); [lia|].
    replace (Z.to_nat (Z.of_nat (1 + pt_live r) - 1)) with (pt_live r) by lia.
    rewrite back_app by (simpl; lia). simpl. rewrite Nat.eqb_refl. simpl. by eexists.
Qed.
Lemma in_frame_true m go m' : go (snapped m) = Some (true, m') → in_frame m go = Some (true, m').
Proof. intros H. unfold in_frame. simpl. unfold snapped in H. simpl in H. by rewrite H. Qed.
Lemma in_frame_false m go m2 : clean (pt_up m) → go (snapped m) = Some (false, m2) → over (pt_cur m) (pt_up m) m2 →
  ∃ m3, in_frame m go = Some (false, m3) ∧ pt_cur m3 = undo (pt_cur m) (pt_cur m2) ∧ pt_up m3 = kill (pt_up m).
Proof.
  intros Hc H Ho. unfold in_frame. simpl. unfold snapped in H. simpl in H. rewrite H.
  destruct (rollback_over m2 _ _ Hc Ho) as (m3 & Hr & H1 & H2). rewrite Hr. by exists m3.
Qed.
Lemma in_frame_none m go : go (snapped m) = None → in_frame m go = None.
Proof. intros H. unfold in_frame. simpl. unfold snapped in H. simpl in H. by rewrite H. Qed.
Lemma undo_same s : undo s s = s.
Proof. destruct s as [[] ? ?]. done. Qed.
Lemma tok_frame_ok m sender o ev s' c r : inside c r m → tok_call E fee (pt_cur m) sender o ev = (true, s') →
  ∃ m', tok_frame E fee m sender o ev = Some (true, m') ∧ pt_cur m' = s' ∧ inside c r m'.
Proof.
  intros Hi Hc. unfold tok_frame. set (k := inner_frames fee (s_w (pt_cur m)) o).
  exists (pt_set (Nat.iter k snapped (snapped m)) s'). split; [|split; [done|]].
  - apply in_frame_true. cbv zeta. change (inner_frames fee (s_w (pt_cur (snapped m))) o) with k.
    destruct (iter_snapped k (snapped m)) as [-> _]. unfold snapped at 1. cbn [pt_snapshot fst pt_cur]. by rewrite Hc.
  - apply inside_set, inside_iter, inside_snapped, Hi.
Qed.
Lemma tok_frame_fails m sender o ev s' c r : inside c r m → tok_call E fee (pt_cur m) sender o ev = (false, s') →
  ∃ m', tok_frame E fee m sender o ev = Some (false, m') ∧ over c r m'.
Proof.
  intros Hi Hc. unfold tok_frame.
  destruct (in_frame_false m (fun m1 => let m2 := Nat.iter (inner_frames fee (s_w (pt_cur m1)) o) snapped m1 in
      let '(ok, s') := tok_call E fee (pt_cur m2) sender o ev in Some (ok, pt_set m2 s'))
    (pt_set (Nat.iter (inner_frames fee (s_w (pt_cur m)) o) snapped (snapped m)) s')) as (m3 & H1 & H2 & H3).
  - apply Hi.
  - cbv zeta. set (k := inner_frames _ _ _). change (inner_frames fee (s_w (pt_cur (snapped m))) o) with k.
    destruct (iter_snapped k (snapped m)) as [-> _]. unfold snapped at 1. cbn [pt_snapshot fst pt_cur]. by rewrite Hc.
  - apply over_set, over_iter, inside_over, inside_new, Hi.
  - exists m3. split; [done|]. by eapply over_kill.
Qed.
Lemma after_failure_told p l ok l' : after_failure p l = (Told, ok, l') → p = PRevert ∧ ok = false.
Proof. destruct p; simpl; intros; by simplify_eq. Qed.
Lemma after_failure_cases p l : (p = PRevert ∧ after_failure p l = (Told, false, l)) ∨ after_failure p l = (CatchesFailure, false, l).
Proof. destruct p; simpl; auto. Qed.

(** A read-only run answers what [peek] says, and leaves what can be seen as it is. *)
Lemma frame_peek p : ∀ self m l c r, R (pt_cur m) l → inside c r m →
  match peek p self l with
  | (Told, true, l') => l' = l ∧ ∃ m', frame E fee true p self m = Some (true, m') ∧ pt_cur m' = pt_cur m ∧ inside c r m'
  | (Told, false, _) => ∃ m', frame E fee true p self m = Some (false, m') ∧ over c r m'
  | (PaysBlocked, _, _) => False
  | (CatchesFailure, _, _) => True
  end.
Proof.
  (* an inner frame, then the rest of this one *)
  assert (Hgo : ∀ (m : mst) l c r (b k : prog) (who self : bytes) (g : mst → option (bool * mst)) (f : bool → prog), R (pt_cur m) l → inside c r m →
    (∀ m1 : mst, g m1 = frame E fee true b who m1) →
    (∀ (m : mst) l c r, R (pt_cur m) l → inside c r m → match peek b who l with
      | (Told, true, l') => l' = l ∧ ∃ m', frame E fee true b who m = Some (true, m') ∧ pt_cur m' = pt_cur m ∧ inside c r m'
      | (Told, false, _) => ∃ m', frame E fee true b who m = Some (false, m') ∧ over c r m'
      | (PaysBlocked, _, _) => False | (CatchesFailure, _, _) => True end) →
    (∀ (m : mst) l c r, R (pt_cur m) l → inside c r m → match peek (f true) self l with
      | (Told, true, l') => l' = l ∧ ∃ m', frame E fee true (f true) self m = Some (true, m') ∧ pt_cur m' = pt_cur m ∧ inside c r m'
      | (Told, false, _) => ∃ m', frame E fee true (f true) self m = Some (false, m') ∧ over c r m'
      | (PaysBlocked, _, _) => False | (CatchesFailure, _, _) => True end) →
    match (match peek b who l with
           | (Told, true, _) => peek (f true) self l
           | (Told, false, _) => after_failure (f false) l
           | rr => rr end) with
    | (Told, true, l') => l' = l ∧ ∃ m', match in_frame m g with None => None | Some (ok, m') => frame E fee true (f ok) self m' end = Some (true, m') ∧ pt_cur m' = pt_cur m ∧ inside c r m'
    | (Told, false, _) => ∃ m', match in_frame m g with None => None | Some (ok, m') => frame E fee true (f ok) self m' end = Some (false, m') ∧ over c r m'
    | (PaysBlocked, _, _) => False
    | (CatchesFailure, _, _) => True
    end).
  { intros m l c r b _ who self g f HR Hi Hg Hb Hk.
    specialize (Hb (snapped m) l (pt_cur m) (pt_up m) HR (inside_new m (proj1 Hi))). rewrite <- Hg in Hb.
    destruct (peek b who l) as [[[| |] [|]] l']; try done.
    - destruct Hb as (-> & m' & H1 & H2 & H3). rewrite (in_frame_true _ _ _ H1).
      assert (Hi' : inside c r m') by (by eapply inside_up).
      assert (HR' : R (pt_cur m') l) by (rewrite H2; exact HR).
      specialize (Hk m' l c r HR' Hi'). destruct (peek (f true) self l) as [[[| |] [|]] l']; try done.
      destruct Hk as (-> & m'' & E1 & E2 & E3). split; [done|]. exists m''. split; [done|]. split; [|done]. rewrite E2, H2. done.
    - destruct Hb as (m2 & H1 & H2). destruct (in_frame_false m g m2 (proj1 Hi) H1 H2) as (m3 & -> & _ & Hup).
      destruct (after_failure_cases (f false) l) as [[Hf ->] | ->]; [|done].
      rewrite Hf. exists m3. split; [done|]. by eapply over_kill. }
  induction p as [| |x v k IH|x k IH|n k IH|a k IH|to v k IH|to v body IHb k IH|heir|body IHb k IH|to body IHb k IH];
    intros self m l c r HR Hi; cbn [frame peek].
  - split; [done|]. by exists m.
  - exists m. split; [done|]. by apply inside_over.
  - exists m. split; [done|]. by apply inside_over.
  - rewrite (sh_sto _ _ _ _ _ _ HR). by apply IH.
  - exists m. split; [done|]. by apply inside_over.
  - assert (default 0 (balance_of (s_w (pt_cur m)) fee a) = l_bal l a) as ->.
    { rewrite <- (sh_bal _ _ _ _ _ _ HR). unfold balance_of, balance. destruct (w_code (s_w (pt_cur m)) !! fee) as [[]|]; done. }
    by apply (IH _ self (snapped m) l c r), inside_snapped.
  - destruct (in_frame_false m (fun m1 => Some (false, m1)) (snapped m) (proj1 Hi) eq_refl) as (m3 & -> & _ & Hup).
    { apply inside_over, inside_new, Hi. }
    destruct (after_failure_cases (k false) l) as [[Hf ->] | ->]; [|done].
    rewrite Hf. exists m3. split; [done|]. by eapply over_kill.
  - destruct (decide (v = 0)) as [->|Hz]; cbn [negb andb].
    + cbn [Z.eqb negb orb asked can_transfer]. unfold asked, can_transfer. cbn [Z.eqb orb].
      apply (Hgo m l c r body body to self _ k HR Hi); [done| |].
      * intros. by apply IHb.
      * intros. by apply (IH true).
    + rewrite (proj2 (Z.eqb_neq v 0)) by done. exists m. split; [done|]. by apply inside_over.
  - exists m. split; [done|]. by apply inside_over.
  - apply (Hgo m l c r body body self self _ k HR Hi); [done| |].
    + intros. by apply IHb.
    + intros. by apply (IH true).
  - apply (Hgo m l c r body body to self _ k HR Hi); [done| |].
    + intros. by apply IHb.
    + intros. by apply (IH true).
Qed.
Definition agrees (c : st) (r : list (bool * st)) (res : result) (o : option (bool * mst)) : Prop :=
  match res with
  | (Told, true, l') => ∃ m', o = Some (true, m') ∧ R (pt_cur m') l' ∧ inside c r m'
  | (Told, false, _) => ∃ m', o = Some (false, m') ∧ over c r m'
  | (PaysBlocked, _, _) => o = None
  | (CatchesFailure, _, _) => True
  end.
Lemma hook_agrees m l a b v c r : R (pt_cur m) l → inside c r m → amount_ok v → v <= l_bal l a → (v = 0 ∨ blk b = false) →
  ∃ m', hook_transfer E fee m a b v = Some m' ∧ R (pt_cur m') (if decide (v = 0) then l else note (pay l a b v) [EMoved a b v]) ∧ inside c r m'.
Proof.
  intros HR Hi Hv Hle Hb. unfold hook_transfer. destruct (decide (v = 0)) as [->|Hz]; [by exists m|].
  rewrite (proj2 (Z.eqb_neq v 0)) by done. destruct Hb as [|Hb]; [done|].
  destruct (tok_send (pt_cur m) l a b v (EMoved a b v) HR Hv Hle Hb) as (s' & Hc & HR').
  destruct (tok_frame_ok m a (OTransfer b v) (EMoved a b v) s' c r Hi Hc) as (m' & Hf & Hm & Hi').
  exists m'. unfold tok_must. rewrite Hf, Hm. done.
Qed.
Lemma hook_panics m l a b v : R (pt_cur m) l → amount_ok v → v ≠ 0 → blk b = true → hook_transfer E fee m a b v = None.
Proof.
  intros HR Hv Hz Hb. unfold hook_transfer. rewrite (proj2 (Z.eqb_neq v 0)) by done. unfold tok_must, tok_frame, in_frame. cbn [pt_snapshot fst].
  set (k := inner_frames _ _ _). match goal with |- context [Nat.iter k snapped ?x] => destruct (iter_snapped k x) as [-> _] end. cbn [pt_cur].
  destruct (tok_call_fails (pt_cur m) l a b v (EMoved a b v) HR Hv) as (s' & -> & _); [by right|].
  by destruct (rollback _ _).
Qed.
Lemma can_is s l a v : R s l → 0 <= l_bal l a → amount_ok v → can_transfer (s_w s) fee a v = bool_decide (v <= l_bal l a).
Proof.
  intros HR H0 Hv. unfold can_transfer. destruct (Z.eqb_spec v 0) as [->|Hz]; [by rewrite bool_decide_eq_true_2|].
  rewrite (bool_decide_eq_false_2 (fee = null_addr)) by done.
  destruct (sh_fee _ _ _ _ _ _ HR) as (t & Ht & _). unfold balance_of. unfold is_token in Ht. rewrite Ht.
  assert (bal t a = l_bal l a) as ->.
  { rewrite <- (sh_bal _ _ _ _ _ _ HR). unfold balance. by rewrite Ht. }
  destruct (Z.leb_spec v (l_bal l a)); symmetry; [by apply bool_decide_eq_true_2|apply bool_decide_eq_false_2; lia].
Qed.
Lemma shows_nonneg s l a : R s l → 0 <= l_bal l a.
Proof.
  intros HR. destruct (sh_fee _ _ _ _ _ _ HR) as (t & Ht & Hok & _). rewrite <- (sh_bal _ _ _ _ _ _ HR).
  unfold balance. unfold is_token in Ht. rewrite Ht. by apply bal_range.
Qed.
(** The run against the ledger, for every tree. *)
Lemma run_shows p : prog_ok p → ∀ self m l c r, R (pt_cur m) l → inside c r m →
  agrees c r (eth blk p self l) (frame E fee false p self m).
Proof.
  assert (Hgo : ∀ (m : mst) l c r (res : result) (self : bytes) (g : mst → option (bool * mst)) (f : bool → prog), R (pt_cur m) l → inside c r m →
    agrees (pt_cur m) (pt_up m) res (g (snapped m)) →
    (∀ (m : mst) l c r, R (pt_cur m) l → inside c r m → agrees c r (eth blk (f true) self l) (frame E fee false (f true) self m)) →
    agrees c r (match res with
                | (Told, true, l1) => eth blk (f true) self l1
                | (Told, false, _) => after_failure (f false) l
                | (PaysBlocked, b, l1) => (PaysBlocked, b, l1)
                | (CatchesFailure, b, l1) => (CatchesFailure, b, l1) end)
               (match in_frame m g with None => None | Some (ok, m') => frame E fee false (f ok) self m' end)).
  { intros m l c r res self g f HR Hi Hg Hk. destruct res as [[[| |] [|]] l1]; cbn [agrees] in Hg |- *.
    - destruct Hg as (m' & H1 & H2 & H3). rewrite (in_frame_true _ _ _ H1). apply Hk; [done|]. by eapply inside_up.
    - destruct Hg as (m2 & H1 & H2). destruct (in_frame_false m g m2 (proj1 Hi) H1 H2) as (m3 & -> & _ & Hup).
      destruct (after_failure_cases (f false) l) as [[Hf ->] | ->]; [|done].
      rewrite Hf. exists m3. split; [done|]. by eapply over_kill.
    - by rewrite (in_frame_none _ _ Hg).
    - by rewrite (in_frame_none _ _ Hg).
    - done.
    - done. }
  induction p as [| |x v k IH|x k IH|n k IH|a k IH|to v k IH|to v body IHb k IH|heir|body IHb k IH|to body IHb k IH];
    intros Hp self m l c r HR Hi; cbn [frame eth andb].
  - by exists m.
  - exists m. split; [done|]. by apply inside_over.
  - apply IH; [done| |done]. destruct HR. split; simpl; try done. congruence.
  - rewrite (sh_sto _ _ _ _ _ _ HR). by apply IH.
  - apply IH; [done| |done]. destruct HR. split; simpl; try done. congruence.
  - assert (default 0 (balance_of (s_w (pt_cur m)) fee a) = l_bal l a) as ->.
    { rewrite <- (sh_bal _ _ _ _ _ _ HR). unfold balance_of, balance. destruct (w_code (s_w (pt_cur m)) !! fee) as [[]|]; done. }
    apply (IH _ (Hp _) self (snapped m) l c r HR). by apply inside_snapped.
  - destruct Hp as [Hv Hk].
    assert (Hbad : (l_bal l self < v ∨ blk to = true) →
      agrees c r (after_failure (k false) l) match tok_frame E fee m self (OTransfer to v) (EMoved self to v) with
        | None => None | Some (ok, m') => frame E fee false (k ok) self m' end).
    { intros Hf. destruct (tok_call_fails (pt_cur m) l self to v (EMoved self to v) HR Hv Hf) as (s' & Hc & _).
      destruct (tok_frame_fails m self (OTransfer to v) (EMoved self to v) s' c r Hi Hc) as (m' & -> & Ho).
      destruct (after_failure_cases (k false) l) as [[Hf' ->] | ->]; [|done]. rewrite Hf'. by exists m'. }
    destruct (decide (v <= l_bal l self)) as [Hle|Hlt]; [|apply Hbad; left; lia].
    destruct (blk to) eqn:Hb; [apply Hbad; by right|].
    destruct (tok_send (pt_cur m) l self to v (EMoved self to v) HR Hv Hle Hb) as (s' & Hc & HR').
    destruct (tok_frame_ok m self (OTransfer to v) (EMoved self to v) s' c r Hi Hc) as (m' & -> & Hm & Hi').
    apply IH; [done| |done]. by rewrite Hm.
  - destruct Hp as (Hv & Hpb & Hk). rewrite (can_is (pt_cur m) l self v HR) by (try done; by eapply shows_nonneg).
    set (m0 := asked fee (if v =? 0 then m else snapped m) v).
    assert (Hm0 : pt_cur m0 = pt_cur m ∧ inside c r m0).
    { unfold m0, asked. destruct (v =? 0); simpl.
      - done.
      - destruct (bool_decide (fee = null_addr)); (split; [done|]); [by apply inside_snapped|]. by apply inside_snapped, inside_snapped. }
    destruct Hm0 as [Hm0 Hi0]. assert (HR0 : R (pt_cur m0) l) by (rewrite Hm0; exact HR).
    destruct (decide (v ≠ 0 ∧ l_bal l self < v)) as [[Hz Hlt]|Hle].
    { rewrite bool_decide_eq_false_2 by lia. by apply IH. }
    assert (Hle' : v <= l_bal l self).
    { destruct (decide (v = 0)) as [->|]; [by eapply shows_nonneg|]. destruct (decide (v <= l_bal l self)); [done|]. exfalso. apply Hle. split; [done|lia]. }
    rewrite bool_decide_eq_true_2 by done.
    destruct (decide (v ≠ 0 ∧ blk to = true)) as [[Hz Hb]|Hnb].
    { cbn [agrees]. rewrite in_frame_none; [done|]. by rewrite (hook_panics (snapped m0) l self to v HR0 Hv Hz Hb). }
    assert (Hb : v = 0 ∨ blk to = false).
    { destruct (decide (v = 0)); [by left|]. right. destruct (blk to); [|done]. exfalso. by apply Hnb. }
    apply (Hgo m0 l c r _ self _ k HR0 Hi0).
    + destruct (hook_agrees (snapped m0) l self to v (pt_cur m0) (pt_up m0) HR0 (inside_new m0 (proj1 Hi0)) Hv Hle' Hb) as (m2 & -> & HR2 & Hi2).
      by apply IHb.
    + intros. by apply (IH true).
  - destruct (destruct_shows (pt_cur m) l self heir HR) as [-> Hd]. set (v := l_bal l self) in *.
    set (m0 := if empty_addr fee _ heir then _ else _).
    assert (Hm0 : pt_cur m0 = pt_cur m ∧ inside c r m0).
    { unfold m0. destruct (empty_addr _ _ _); (split; [done|]); repeat apply inside_snapped; done. }
    destruct Hm0 as [Hm0 Hi0]. unfold sub_balance, add_balance. destruct (decide (v = 0)) as [Hz|Hz].
    + rewrite Hz. cbn [Z.eqb]. exists m0. rewrite Hm0. done.
    + rewrite (proj2 (Z.eqb_neq v 0)) by done. destruct Hd as (s1 & s2 & H1 & H2 & HR2). rewrite <- Hm0 in H1.
      destruct (tok_frame_ok m0 _ _ _ s1 c r Hi0 H1) as (m1 & E1 & Hm1 & Hi1). rewrite <- Hm1 in H2.
      destruct (tok_frame_ok m1 _ _ _ s2 c r Hi1 H2) as (m2 & E2 & Hm2 & Hi2).
      unfold tok_must. rewrite E1, E2. exists m2. split; [done|]. rewrite Hm2. done.
  - destruct Hp as [Hpb Hk]. apply (Hgo m l c r _ self _ k HR Hi).
    + apply IHb; [done|done|]. apply inside_new, Hi.
    + intros. by apply (IH true).
  - pose proof (frame_peek body to (snapped m) l (pt_cur m) (pt_up m) HR (inside_new m (proj1 Hi))) as Hpk.
    assert (Hpk' : agrees (pt_cur m) (pt_up m) (peek body to l) (frame E fee true body to (snapped m))).
    { destruct (peek body to l) as [[[| |] [|]] l']; try done. destruct Hpk as (-> & m' & H1 & H2 & H3). exists m'. split; [done|].
      split; [|done]. rewrite H2. exact HR. }
    pose proof (Hgo m l c r (peek body to l) self (frame E fee true body to) k HR Hi Hpk') as H.
    destruct (peek body to l) as [[[| |] [|]] l'] eqn:Ep.
    + destruct Hpk as (-> & _). apply H. intros. by apply (IH true).
    + apply H. intros. by apply (IH true).
    + done.
    + done.
    + done.
    + done.
Qed.
(** A transaction against the ledger. *)
Lemma commit_clean cur u : clean u → pt_flush cur u = cur.
Proof. intros Hc. revert cur. induction Hc as [|[b c] u Hb _ IH]; intros cur; [done|]. simpl in *. subst b. apply IH. Qed.
Lemma settle_clean m : clean (pt_up m) → settle m = pt_cur m.
Proof. intros Hc. unfold settle, pt_commit. rewrite commit_clean by done. apply undo_same. Qed.
Lemma execute_shows prep s l caller to v body : R (prep s) l →
  can_transfer (s_w s) fee caller v = can_transfer (s_w (prep s)) fee caller v → prog_ok body → amount_ok v →
  match eth blk (outer to v body) caller l with
  | (Told, true, l') => ∃ s', execute E fee prep caller to v body s = Some (true, s') ∧ R s' l'
  | (Told, false, _) => ∃ s', execute E fee prep caller to v body s = Some (false, s')
  | (PaysBlocked, _, _) => execute E fee prep caller to v body s = None
  | (CatchesFailure, _, _) => True
  end.
Proof.
  intros HR Hct Hp Hv. unfold execute. rewrite Hct, (can_is _ _ _ _ HR) by (try done; by eapply shows_nonneg).
  unfold outer. cbn [eth].
  destruct (decide (v ≠ 0 ∧ l_bal l caller < v)) as [[Hz Hlt]|Hle].
  { rewrite bool_decide_eq_false_2 by lia. by exists s. }
  assert (Hle' : v <= l_bal l caller).
  { destruct (decide (v = 0)) as [->|]; [by eapply shows_nonneg|]. destruct (decide (v <= l_bal l caller)); [done|]. exfalso. apply Hle. split; [done|lia]. }
  rewrite bool_decide_eq_true_2 by done.
  set (m0 := asked fee (Path s []) v).
  assert (Hm0 : pt_cur m0 = s ∧ clean (pt_up m0)).
  { unfold m0, asked. destruct (_ || _); (split; [done|]); simpl; [by apply Forall_nil|]. by apply Forall_cons, conj, Forall_nil. }
  destruct Hm0 as [Hm0 Hc0].
  set (m1 := pt_set (snapped m0) (prep (pt_cur (snapped m0)))).
  assert (HR1 : R (pt_cur m1) l) by (unfold m1; cbn; rewrite Hm0; exact HR).
  assert (Hi1 : inside (pt_cur m0) (pt_up m0) m1) by apply (inside_new m0 Hc0).
  destruct (decide (v ≠ 0 ∧ blk to = true)) as [[Hz Hb]|Hnb].
  { rewrite in_frame_none; [done|]. fold m1. by rewrite (hook_panics m1 l caller to v HR1 Hv Hz Hb). }
  assert (Hb : v = 0 ∨ blk to = false).
  { destruct (decide (v = 0)); [by left|]. right. destruct (blk to); [|done]. exfalso. by apply Hnb. }
  destruct (hook_agrees m1 l caller to v (pt_cur m0) (pt_up m0) HR1 Hi1 Hv Hle' Hb) as (m2 & Hh & HR2 & Hi2).
  pose proof (run_shows body Hp to m2 _ (pt_cur m0) (pt_up m0) HR2 Hi2) as H. unfold agrees in H.
  set (go := fun m1 : mst => match hook_transfer E fee (pt_set m1 (prep (pt_cur m1))) caller to v with
             | Some m2 => frame E fee false body to m2 | None => None end).
  assert (Hgo : go (snapped m0) = frame E fee false body to m2) by (unfold go; fold m1; by rewrite Hh).
  destruct (eth blk body to _) as [[[| |] [|]] l'].
  - destruct H as (m' & Hf & HR' & Hi'). rewrite <- Hgo in Hf. rewrite (in_frame_true _ _ _ Hf).
    exists (settle m'). split; [done|]. rewrite settle_clean by apply Hi'. done.
  - destruct H as (m' & Hf & Ho). rewrite <- Hgo in Hf. destruct (in_frame_false m0 go m' Hc0 Hf Ho) as (m3 & -> & _). cbn [after_failure]. by eexists.
  - rewrite <- Hgo in H. by rewrite (in_frame_none _ _ H).
  - rewrite <- Hgo in H. by rewrite (in_frame_none _ _ H).
  - done.
  - done.
Qed.
End proof.

Lemma shows_start_ok E fee w t sto ev : is_token w fee t → tok_ok t → t_kind t = KERC20 →
  shows E fee w (supply w fee) (St w sto ev) (Ledger (balance w fee) sto ev).
Proof.
  intros Ht Hok Hk. split; simpl; try done; [|apply accts_grow_refl]. exists t.
  split_and!; try done. unfold supply. unfold is_token in Ht. by rewrite Ht.
Qed.
Lemma shows_start E fee w t sto ev : reachable E w → is_token w fee t → t_kind t = KERC20 →
  shows E fee w (supply w fee) (St w sto ev) (Ledger (balance w fee) sto ev).
Proof. intros Hr Ht Hk. by apply (shows_start_ok E fee w t), Hk; [|apply (iv_tok E w (inv_reachable E w Hr) fee t Ht)]. Qed.
Lemma eth_ext blk blk' p : (∀ a, blk a = blk' a) → ∀ self l, eth blk p self l = eth blk' p self l.
Proof.
  intros Hb. induction p as [| |x v k IH|x k IH|n k IH|a k IH|to v k IH|to v body IHb k IH|heir|body IHb k IH|to body IHb k IH]; intros self l; cbn [eth]; try done.
  - destruct (decide _); [|done]. rewrite Hb. by destruct (blk' to).
  - destruct (decide (v ≠ 0 ∧ l_bal l self < v)); [done|]. rewrite Hb. destruct (decide _); [done|].
    rewrite IHb. destruct (eth blk' body to _) as [[[] []] l1]; done.
  - rewrite IHb. destruct (eth blk' body self l) as [[[] []] l1]; done.
  - destruct (peek body to l) as [[[] []] l1]; done.
Qed.

(** Code that never catches never comes to a failure that is caught. *)
Lemma peek_told p : never_catches p → ∀ self l, (peek p self l).1.1 ≠ CatchesFailure.
Proof.
  assert (Hgo : ∀ (r : result) (f : bool → prog) self l, r.1.1 ≠ CatchesFailure → f false = PRevert →
    (∀ self l, (peek (f true) self l).1.1 ≠ CatchesFailure) →
    (match r with (Told, true, _) => peek (f true) self l | (Told, false, _) => after_failure (f false) l | (PaysBlocked, b, l1) => (PaysBlocked, b, l1) | (CatchesFailure, b, l1) => (CatchesFailure, b, l1) end).1.1 ≠ CatchesFailure).
  { intros [[[| |] [|]] l'] f self l Hr Hf Ht; cbn [fst] in *; try done. by rewrite Hf. }
  induction p as [| |x v k IH|x k IH|n k IH|a k IH|to v k IH|to v body IHb k IH|heir|body IHb k IH|to body IHb k IH];
    intros Hn self l; cbn [peek]; cbn [never_catches] in Hn; try done.
  - by apply IH.
  - by apply IH.
  - destruct Hn as [_ ->]. done.
  - destruct Hn as (H1 & H2 & H3). destruct (decide (v = 0)); [|done]. apply (Hgo _ k); auto.
  - destruct Hn as (H1 & H2 & H3). apply (Hgo _ k); auto.
  - destruct Hn as (H1 & H2 & H3). apply (Hgo _ k); auto.
Qed.
Lemma eth_told blk p : never_catches p → ∀ self l, (eth blk p self l).1.1 ≠ CatchesFailure.
Proof.
  assert (Hgo : ∀ (r : result) (f : bool → prog) (g : ledger → ledger) self l, r.1.1 ≠ CatchesFailure → f false = PRevert →
    (∀ self l, (eth blk (f true) self l).1.1 ≠ CatchesFailure) →
    (match r with (Told, true, l1) => eth blk (f true) self (g l1) | (Told, false, _) => after_failure (f false) l | (PaysBlocked, b, l1) => (PaysBlocked, b, l1) | (CatchesFailure, b, l1) => (CatchesFailure, b, l1) end).1.1 ≠ CatchesFailure).
  { intros [[[| |] [|]] l'] f g self l Hr Hf Ht; cbn [fst] in *; try done. by rewrite Hf. }
  induction p as [| |x v k IH|x k IH|n k IH|a k IH|to v k IH|to v body IHb k IH|heir|body IHb k IH|to body IHb k IH];
    intros Hn self l; cbn [eth]; cbn [never_catches] in Hn; try done.
  - by apply IH.
  - by apply IH.
  - by apply IH.
  - by apply IH.
  - destruct Hn as [H1 H2]. rewrite H2. destruct (decide _); [|done]. destruct (blk to); [done|]. by apply IH.
  - destruct Hn as (H1 & H2 & H3). destruct (decide _); [by rewrite H3|]. destruct (decide _); [done|]. apply (Hgo _ k (fun l => l)); auto.
  - destruct Hn as (H1 & H2 & H3). apply (Hgo _ k (fun l => l)); auto.
  - destruct Hn as (H1 & H2 & H3). apply (Hgo _ k (fun _ => l)); auto. by apply peek_told.
Qed.
Lemma peek_same p : ∀ self l o b l', peek p self l = (o, b, l') → l' = l.
Proof.
  assert (Haf : ∀ q (l : ledger) o b l', after_failure q l = (o, b, l') → l' = l) by (intros [] l o b l' [= <- <- <-]; done).
  induction p as [| |x v k IH|x k IH|n k IH|a k IH|to v k IH|to v b IHb k IH|heir|b IHb k IH|to b IHb k IH]; intros self l o ob l'; cbn [peek]; try (by intros [= <- <- <-]); eauto.
  - destruct (decide (v = 0)); [|by intros [= <- <- <-]]. destruct (peek b to l) as [[[| |] [|]] l1] eqn:Hb; apply IHb in Hb; subst; try (by intros [= <- <- <-]); eauto.
  - destruct (peek b self l) as [[[| |] [|]] l1] eqn:Hb; apply IHb in Hb; subst; try (by intros [= <- <- <-]); eauto.
  - destruct (peek b to l) as [[[| |] [|]] l1] eqn:Hb; apply IHb in Hb; subst; try (by intros [= <- <- <-]); eauto.
Qed.
