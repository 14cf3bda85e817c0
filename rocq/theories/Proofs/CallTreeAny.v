(** What holds of the run of call frames (Model/CallTree.v) whatever fails and whoever catches it. *)
From Verif.Base Require Import Prelude Hex.
From Verif.Model Require Import Token Paths CallTree.
From Verif.Spec Require Import TokenSpec CallTreeSpec WalletSpec.
From Verif.Proofs Require Import TokenP BankP TokenMore CallTreeP.
Open Scope Z_scope.

(** Only accounts in [P] pay and only code of accounts in [Q] runs. *)
Fixpoint within (P Q : bytes → Prop) (self : bytes) (p : prog) : Prop :=
  match p with
  | PStop | PRevert => True
  | PDestruct _ => P self
  | PStore _ _ k => Q self ∧ within P Q self k
  | PLog _ k => within P Q self k
  | PLoad _ k | PBalance _ k => ∀ x, within P Q self (k x)
  | PSend _ _ k => P self ∧ ∀ b, within P Q self (k b)
  | PCall to v body k => (v = 0 ∨ P self) ∧ within P Q to body ∧ ∀ b, within P Q self (k b)
  | PDelegate body k => within P Q self body ∧ ∀ b, within P Q self (k b)
  | PStatic _ _ k => ∀ b, within P Q self (k b)
  end.
Lemma within_all p : ∀ self, within (fun _ => True) (fun _ => True) self p.
Proof. induction p; intros self; cbn; try done; try (split_and!; auto). Qed.

Section any.
Context (E : env) (fee : bytes) (w0 : world) (sup0 : Z) (P Q : bytes → Prop)
  (bal0 : bytes → Z) (sto0 : gmap (bytes * Z) Z) (ev0 : list event).
Notation mst := (path st).
Definition fair (t : token) : Prop := tok_ok t ∧ t_kind t = KERC20 ∧ t_supply t <= sup0 ∧ ∀ a, ¬ P a → bal0 a <= bal t a.
Definition fine (s : st) : Prop :=
  (∃ t, is_token (s_w s) fee t ∧ fair t) ∧
  (∀ c, c ≠ fee → w_code (s_w s) !! c = w_code w0 !! c) ∧
  (∀ a x, ¬ Q a → s_sto s !! (a, x) = sto0 !! (a, x)) ∧ ev0 `prefix_of` s_log s.
Definition grown (w : world) : Prop :=
  same_tables w0 w ∧ accts_grow w0 w ∧ ∀ a, is_blocked E w a = is_blocked E w0 a.
Definition sound (m : mst) : Prop :=
  grown (s_w (pt_cur m)) ∧ fine (pt_cur m) ∧ Forall (fun e => fine e.2) (pt_up m).
Definition ends (r : option (bool * mst)) : Prop := match r with Some (_, m) => sound m | None => True end.

Lemma fine_undo s s' : fine s → fine (undo s s').
Proof. intros H. exact H. Qed.
Lemma grown_undo s s' : grown (s_w s') → grown (s_w (undo s s')).
Proof. intros H. exact H. Qed.
Lemma sound_set m s : sound m → grown (s_w s) → fine s → sound (pt_set m s).
Proof. intros (H1 & H2 & H3) Hg Hf. split; [exact Hg|]. split; [exact Hf|exact H3]. Qed.
Lemma sound_snapped m : sound m → sound (snapped m).
Proof. intros (H1 & H2 & H3). split; [exact H1|]. split; [exact H2|]. by apply Forall_cons. Qed.
Lemma sound_iter k m : sound m → sound (Nat.iter k snapped m).
Proof. intros H. induction k as [|k IH]; [done|]. by apply sound_snapped. Qed.
Lemma fine_base cur u : fine cur → Forall (fun e : bool * st => fine e.2) u → fine (pt_base cur u).
Proof. intros Hc Hu. revert cur Hc. induction Hu as [|[b c] u Hb _ IH]; intros cur Hc; [done|]. by apply IH. Qed.
Lemma fine_flush cur u : fine cur → Forall (fun e : bool * st => fine e.2) u → fine (pt_flush cur u).
Proof. intros Hc Hu. revert cur Hc. induction Hu as [|[b c] u Hb _ IH]; intros cur Hc; [done|]. apply IH. by destruct b. Qed.
Lemma fine_back i cur u p : fine cur → Forall (fun e : bool * st => fine e.2) u → pt_back i cur u = Some p →
  fine (pt_cur p) ∧ Forall (fun e => fine e.2) (pt_up p).
Proof.
  intros Hc Hu. revert cur Hc. induction Hu as [|[b c] u Hb Hu IH]; intros cur Hc H; [done|]. cbn [pt_back] in H.
  destruct (b && _).
  - injection H as <-. split; [done|]. by apply Forall_cons.
  - by apply (IH c).
Qed.
Lemma sound_rollback m id m' : sound m → rollback m id = Some m' → sound m'.
Proof.
  intros (H1 & H2 & H3) H. unfold rollback in H. destruct (pt_revert m id) as [p|] eqn:Hr; [|done]. injection H as <-.
  assert (fine (pt_cur p) ∧ Forall (fun e => fine e.2) (pt_up p)) as [Hp Hu].
  { unfold pt_revert in Hr. destruct (id =? -1).
    - injection Hr as <-. split; [by apply fine_base|by apply Forall_nil].
    - destruct (id <? 0); [done|]. by eapply fine_back. }
  split; [by apply grown_undo|]. split; [by apply fine_undo|done].
Qed.
Lemma sound_in_frame m go : sound m → (∀ m1, sound m1 → ends (go m1)) → ends (in_frame m go).
Proof.
  intros Hm Hgo. specialize (Hgo (snapped m) (sound_snapped m Hm)). unfold in_frame. cbn [pt_snapshot].
  change (Path (pt_cur m) ((true, pt_cur m) :: pt_up m)) with (snapped m).
  destruct (go (snapped m)) as [[[|] m2]|]; [done| |done]. cbn [ends] in Hgo.
  destruct (rollback m2 _) as [m3|] eqn:Hr; [|done]. by eapply sound_rollback.
Qed.
Lemma sound_settle m : sound m → grown (s_w (settle m)) ∧ fine (settle m).
Proof. intros (H1 & H2 & H3). split; [exact H1|]. by apply fine_undo, fine_flush. Qed.

(** One call of the token. *)
Lemma tok_call_fine s sender o ev ok s' :
  fine s → grown (s_w s) →
  (∀ t t1 t2, is_token (s_w s) fee t → fair t → guards E (s_w s) sender o t = Some t1 → body sender o t1 = Some t2 → fair t2) →
  tok_call E fee s sender o ev = (ok, s') → fine s' ∧ grown (s_w s').
Proof.
  intros ((t & Ht & Hf) & Hc & Hs & He) (G1 & G2 & G3) Ho H. specialize (Ho t).
  unfold tok_call, call_tok in H. pose proof Ht as Ht'. unfold is_token in Ht'. rewrite Ht' in H.
  destruct (guards E (s_w s) sender o t) as [t1|] eqn:Hg; cycle 1.
  { injection H as <- <-. split; [|by split_and!]. split; [by exists t|]. done. }
  set (w1 := match op_recipient o with Some r => store_modifier (s_w s) fee r | None => s_w s end) in H.
  assert (Hw1 : w_code w1 = w_code (s_w s) ∧ grown w1).
  { unfold w1. destruct (op_recipient o) as [r|]; [|by split_and!].
    destruct (store_modifier_code (s_w s) r fee) as (C1 & C2 & _ & C3 & C4 & _). split; [done|]. split.
    - eapply same_tables_trans; [exact G1|]. by split_and!.
    - split; [eapply accts_grow_trans; [exact G2|]; apply accts_grow_modifier|]. intros a. rewrite blocked_modifier. apply G3. }
  destruct Hw1 as [Hw1 Hgw]. destruct (body sender o t1) as [t2|] eqn:Hb.
  - injection H as <- <-. split; [|exact Hgw]. split; [exists t2; split; [unfold is_token; cbn; by rewrite lookup_insert|by eapply Ho]|].
    split; [|split; [done|by apply prefix_app_r]]. intros c Hne. cbn. rewrite lookup_insert_ne by done. rewrite Hw1. by apply Hc.
  - injection H as <- <-. split; [|exact Hgw]. split; [exists t; split; [unfold is_token; cbn; by rewrite Hw1|done]|].
    split; [|done]. intros c Hne. cbn. rewrite Hw1. by apply Hc.
Qed.
Lemma tok_frame_ends m sender o ev :
  sound m →
  (∀ t t1 t2, is_token (s_w (pt_cur m)) fee t → fair t → guards E (s_w (pt_cur m)) sender o t = Some t1 → body sender o t1 = Some t2 → fair t2) →
  ends (tok_frame E fee m sender o ev).
Proof.
  intros Hm Ho. unfold tok_frame, in_frame. cbn [pt_snapshot].
  change (Path (pt_cur m) ((true, pt_cur m) :: pt_up m)) with (snapped m). cbv zeta.
  set (k := inner_frames _ _ _). destruct (iter_snapped k (snapped m)) as [Hcur _]. rewrite Hcur. cbn [snapped pt_snapshot fst pt_cur].
  destruct (tok_call E fee (pt_cur m) sender o ev) as [ok s'] eqn:Hc.
  destruct (tok_call_fine _ _ _ _ _ _ (proj1 (proj2 Hm)) (proj1 Hm) Ho Hc) as [Hf Hg].
  assert (Hs : sound (pt_set (Nat.iter k snapped (snapped m)) s')) by (apply sound_set; [|done|done]; by apply sound_iter, sound_snapped).
  destruct ok; [exact Hs|]. destruct (rollback _ _) as [m3|] eqn:Hr; [|done]. by eapply sound_rollback.
Qed.
Lemma tok_must_inv m sender o ev m' : tok_must E fee m sender o ev = Some m' →
  tok_frame E fee m sender o ev = Some (true, m') ∧ ∃ s', tok_call E fee (pt_cur m) sender o ev = (true, s') ∧ pt_cur m' = s'.
Proof.
  unfold tok_must. intros H. destruct (tok_frame E fee m sender o ev) as [[[|] m1]|] eqn:Hf; [|done|done]. injection H as ->. split; [done|].
  unfold tok_frame, in_frame in Hf. cbn [pt_snapshot] in Hf. change (Path (pt_cur m) ((true, pt_cur m) :: pt_up m)) with (snapped m) in Hf. cbv zeta in Hf.
  set (k := inner_frames _ _ _) in Hf. destruct (iter_snapped k (snapped m)) as [Hcur _]. rewrite Hcur in Hf. cbn [snapped pt_snapshot fst pt_cur] in Hf.
  destruct (tok_call E fee (pt_cur m) sender o ev) as [[|] s'].
  - injection Hf as <-. exists s'. done.
  - by destruct (rollback _ _).
Qed.
Lemma fair_transfer t a b v t2 : amount_ok v → P a → fair t → tok_transfer t a b v = Some t2 → fair t2.
Proof.
  intros Hv Ha (H1 & H2 & H3 & H4) H. pose proof (tok_transfer_ok _ _ _ _ _ H1 Hv H) as Hok.
  rewrite tok_transfer_spec in H by done. destruct (decide _); [|done]. injection H as <-.
  split; [done|]. split; [done|]. split; [done|]. intros c Hc. specialize (H4 c Hc). etransitivity; [exact H4|].
  assert (Hne : a ≠ c) by (intros ->; done). unfold bal at 2. cbn. destruct Hv as [Hv _].
  destruct (decide (b = c)) as [->|Hbc].
  - rewrite lookup_insert. cbn. case_bool_decide; [congruence|]. lia.
  - rewrite lookup_insert_ne by done. rewrite lookup_insert_ne by done. done.
Qed.
Lemma hook_ends m a b v m' : sound m → amount_ok v → (v = 0 ∨ P a) → hook_transfer E fee m a b v = Some m' → sound m'.
Proof.
  intros Hm Hv Hp H. unfold hook_transfer in H. destruct (Z.eqb_spec v 0) as [|Hz]; [by injection H as <-|].
  destruct Hp as [|Hp]; [done|]. destruct (tok_must_inv _ _ _ _ _ H) as [Hf _].
  pose proof (tok_frame_ends m a (OTransfer b v) (EMoved a b v) Hm) as He. rewrite Hf in He. apply He.
  intros t t1 t2 _ Hfair Hg Hb. cbn [guards] in Hg. destruct (is_blocked _ _ _); [done|]. injection Hg as <-. cbn [body] in Hb.
  by eapply fair_transfer.
Qed.
Lemma balance_of_fine s a : fine s → ∃ t, is_token (s_w s) fee t ∧ fair t ∧ default 0 (balance_of (s_w s) fee a) = bal t a.
Proof.
  intros ((t & Ht & Hf) & _). exists t. split; [done|]. split; [done|]. unfold balance_of. unfold is_token in Ht. by rewrite Ht.
Qed.
Lemma destruct_ends m self heir : sound m → P self →
  let v := default 0 (balance_of (s_w (pt_cur m)) fee self) in
  match sub_balance E fee m self v with
  | Some m1 => match add_balance E fee m1 heir v with Some m2 => sound m2 | None => True end
  | None => True
  end.
Proof.
  intros Hm Hp v. destruct (balance_of_fine (pt_cur m) self (proj1 (proj2 Hm))) as (t & Ht & Hf & Hbal). fold v in Hbal.
  destruct Hf as (Hok & Hk & Hsup & Hb0). pose proof (bal_range t self Hok) as Hr. pose proof (ok_bound t Hok) as Hbd.
  assert (Hv : amount_ok v) by (unfold amount_ok; lia). clearbody v.
  unfold sub_balance, add_balance. destruct (Z.eqb_spec v 0) as [|Hz]; [done|].
  destruct (tok_must E fee m chain_addr (OSudoBurn self v) (EMoved self null_addr v)) as [m1|] eqn:Hm1; [|done].
  destruct (tok_must E fee m1 chain_addr (OSudoMint heir v) (EMoved null_addr heir v)) as [m2|] eqn:Hm2; [|done].
  destruct (tok_must_inv _ _ _ _ _ Hm1) as [Hf1 (s1 & Hc1 & Hs1)]. destruct (tok_must_inv _ _ _ _ _ Hm2) as [Hf2 _].
  assert (Htb : tok_burn t self v = Some (set_supply (set_bal t self (bal t self - v)) (t_supply t - v))).
  { rewrite tok_burn_spec by done. rewrite decide_True by lia. done. }
  set (t1 := set_supply (set_bal t self (bal t self - v)) (t_supply t - v)) in *.
  pose proof (tok_burn_ok _ _ _ _ Hok Hv Htb) as Hok1.
  assert (Hfair1 : fair t1).
  { split; [done|]. split; [done|]. split; [unfold t1; cbn; lia|]. intros c Hc. specialize (Hb0 c Hc). etransitivity; [exact Hb0|].
    assert (Hne : self ≠ c) by (intros ->; done). unfold bal at 2. unfold t1. cbn. by rewrite lookup_insert_ne. }
  assert (Hsound1 : sound m1).
  { pose proof (tok_frame_ends m chain_addr (OSudoBurn self v) (EMoved self null_addr v) Hm) as He. rewrite Hf1 in He. apply He.
    intros t' ta tb Ht' _ Hg Hb. assert (t' = t) as -> by (unfold is_token in *; congruence). cbn [guards] in Hg. rewrite Hk in Hg.
    destruct (bool_decide _); [|done]. injection Hg as <-. cbn [body] in Hb. rewrite Htb in Hb. by injection Hb as <-. }
  assert (Ht1 : is_token (s_w (pt_cur m1)) fee t1).
  { rewrite Hs1. unfold tok_call, call_tok in Hc1. pose proof Ht as Ht'. unfold is_token in Ht'. rewrite Ht' in Hc1. cbn [guards] in Hc1. rewrite Hk in Hc1.
    destruct (bool_decide _); [|done]. cbn [op_recipient body] in Hc1. rewrite Htb in Hc1. injection Hc1 as <-. unfold is_token. cbn. by rewrite lookup_insert. }
  pose proof (tok_frame_ends m1 chain_addr (OSudoMint heir v) (EMoved null_addr heir v) Hsound1) as He. rewrite Hf2 in He. apply He.
  intros t' ta tb Ht' _ Hg Hb. assert (t' = t1) as -> by (unfold is_token in *; congruence). cbn [guards] in Hg.
  assert (Hk1 : t_kind t1 = KERC20) by exact Hk. rewrite Hk1 in Hg. destruct (bool_decide _); [|done]. injection Hg as <-. cbn [body] in Hb.
  pose proof (tok_mint_ok _ _ _ _ Hok1 Hv Hb) as Hok2. rewrite tok_mint_spec in Hb by done. destruct (decide _); [|done]. injection Hb as <-.
  split; [done|]. split; [done|]. split; [unfold t1; cbn; lia|]. intros c Hc. destruct Hfair1 as (_ & _ & _ & Hb1). specialize (Hb1 c Hc).
  etransitivity; [exact Hb1|]. unfold bal at 2. cbn. destruct Hv as [Hv _]. destruct (decide (heir = c)) as [->|Hne].
  - rewrite lookup_insert. cbn. lia.
  - by rewrite lookup_insert_ne.
Qed.
(** Read-only frames. *)
Lemma frame_ro_sound p : ∀ self m, sound m → ends (frame E fee true p self m).
Proof.
  assert (Hgo : ∀ (m : mst) g (f : bool → prog) self, sound m → (∀ m1, sound m1 → ends (g m1)) →
    (∀ b self m, sound m → ends (frame E fee true (f b) self m)) →
    ends (match in_frame m g with None => None | Some (ok, m') => frame E fee true (f ok) self m' end)).
  { intros m g f self Hm Hg Hf. pose proof (sound_in_frame m g Hm Hg) as H. destruct (in_frame m g) as [[ok m']|]; [|done]. by apply Hf. }
  induction p as [| |x v k IH|x k IH|n k IH|a k IH|to v k IH|to v body IHb k IH|heir|body IHb k IH|to body IHb k IH];
    intros self m Hm; cbn [frame]; try done.
  - by apply IH.
  - by apply IH, sound_snapped.
  - apply Hgo; [done| |done]. intros m1 H1. exact H1.
  - destruct (Z.eqb_spec v 0) as [->|Hz]; [|exact Hm]. cbn [negb andb]. unfold asked, can_transfer. cbn [Z.eqb orb].
    apply Hgo; [done| |done]. intros m1 H1. by apply IHb.
  - apply Hgo; [done| |done]. intros m1 H1. by apply IHb.
  - apply Hgo; [done| |done]. intros m1 H1. by apply IHb.
Qed.
(** All frames. *)
Lemma frame_sound p : prog_ok p → ∀ self m, within P Q self p → sound m → ends (frame E fee false p self m).
Proof.
  assert (Hgo : ∀ (m : mst) r (f : bool → prog) self, ends r →
    (∀ b m, sound m → ends (frame E fee false (f b) self m)) →
    ends (match r with None => None | Some (ok, m') => frame E fee false (f ok) self m' end)).
  { intros m r f self Hr Hf. destruct r as [[ok m']|]; [|done]. by apply Hf. }
  induction p as [| |x v k IH|x k IH|n k IH|a k IH|to v k IH|to v body IHb k IH|heir|body IHb k IH|to body IHb k IH];
    intros Hp self m Hw Hm; cbn [frame andb]; cbn [prog_ok] in Hp; cbn [within] in Hw.
  - done.
  - done.
  - destruct Hw as [Hq Hw]. apply IH; [done|done|]. destruct Hm as (H1 & (F1 & F2 & F3 & F4) & H3). apply sound_set; [by split; [|split; [split_and!|]]|done|].
    split; [exact F1|]. split; [exact F2|]. split; [|exact F4]. intros a y Ha. cbn. rewrite lookup_insert_ne by (intros [= ->]; done). by apply F3.
  - by apply IH.
  - apply IH; [done|done|]. destruct Hm as (H1 & (F1 & F2 & F3 & F4) & H3). apply sound_set; [by split; [|split; [split_and!|]]|done|].
    split; [exact F1|]. split; [exact F2|]. split; [exact F3|]. cbn. by apply prefix_app_r.
  - by apply IH, sound_snapped.
  - destruct Hp as [Hv Hk], Hw as [Hpay Hw]. apply Hgo; [done| |by intros; apply IH].
    apply tok_frame_ends; [done|]. intros t t1 t2 _ Hfair Hg Hb. cbn [guards] in Hg. destruct (is_blocked _ _ _); [done|]. injection Hg as <-. cbn [body] in Hb.
    by eapply fair_transfer.
  - destruct Hp as (Hv & Hpb & Hk), Hw as (Hpay & Hwb & Hw).
    assert (Hm0 : sound (asked fee (if v =? 0 then m else snapped m) v)).
    { unfold asked. destruct (v =? 0); cbn [orb]; [done|]. destruct (bool_decide _); repeat apply sound_snapped; done. }
    destruct (can_transfer _ _ _ _); [|by apply IH]. apply Hgo; [done| |by intros; apply IH].
    apply sound_in_frame; [done|]. intros m1 H1. destruct (hook_transfer E fee m1 self to v) as [m2|] eqn:Hh; [|done].
    apply IHb; [done|done|]. by eapply hook_ends.
  - set (m0 := if empty_addr fee _ heir then _ else _).
    assert (Hm0 : pt_cur m0 = pt_cur m ∧ sound m0).
    { unfold m0. destruct (empty_addr _ _ _); (split; [done|]); repeat apply sound_snapped; done. }
    destruct Hm0 as [Hc Hm0]. pose proof (destruct_ends m0 self heir Hm0 Hw) as H. rewrite Hc in H. cbv zeta in H.
    destruct (sub_balance _ _ _ _ _) as [m1|]; [|done]. destruct (add_balance _ _ _ _ _) as [m2|]; done.
  - destruct Hp as [Hpb Hk], Hw as [Hwb Hw]. apply Hgo; [done| |by intros; apply IH]. apply sound_in_frame; [done|]. intros m1 H1. by apply IHb.
  - apply Hgo; [done| |by intros; apply IH]. apply sound_in_frame; [done|]. intros m1 H1. by apply frame_ro_sound.
Qed.
(** A transaction. *)
Lemma execute_sound prep caller to v body s ok s' : prog_ok body → amount_ok v → within P Q to body → (v = 0 ∨ P caller) →
  fine s → grown (s_w s) → fine (prep s) → grown (s_w (prep s)) →
  execute E fee prep caller to v body s = Some (ok, s') → fine s' ∧ grown (s_w s').
Proof.
  intros Hp Hv Hw Hc Hf Hg Hf' Hg' H. unfold execute in H.
  destruct (can_transfer _ _ _ _); [|injection H as <- <-; done].
  set (m0 := asked fee (Path s []) v) in H.
  assert (Hm0 : pt_cur m0 = s ∧ sound m0).
  { unfold m0, asked. destruct (_ || _); (split; [done|]); try apply sound_snapped; (split; [done|]; split; [done|by apply Forall_nil]). }
  destruct Hm0 as [Hcur Hm0].
  set (go := fun m1 : mst => match hook_transfer E fee (pt_set m1 (prep (pt_cur m1))) caller to v with
             | Some m2 => frame E fee false body to m2 | None => None end) in H.
  assert (He : ends (go (snapped m0))).
  { unfold go. cbn [snapped pt_snapshot fst pt_cur]. rewrite Hcur.
    assert (H1 : sound (pt_set (Path s ((true, s) :: pt_up m0)) (prep s))).
    { apply sound_set; [|done|done]. rewrite <- Hcur. by apply (sound_snapped m0). }
    destruct (hook_transfer E fee _ caller to v) as [m2|] eqn:Hh; [|done]. apply frame_sound; [done|done|]. by eapply hook_ends. }
  unfold in_frame in H. cbn [pt_snapshot] in H. change (Path (pt_cur m0) ((true, pt_cur m0) :: pt_up m0)) with (snapped m0) in H.
  destruct (go (snapped m0)) as [[[|] m2]|]; [| |done].
  - injection H as <- <-. destruct (sound_settle m2 He). done.
  - cbn [ends] in He. destruct (rollback m2 _) as [m3|] eqn:Hr; [|done]. injection H as <- <-. destruct (sound_rollback _ _ _ He Hr) as (? & ? & _). done.
Qed.
End any.
