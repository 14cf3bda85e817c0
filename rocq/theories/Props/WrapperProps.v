(** C51: wrapped tokens are backed by locked origin tokens. *)
From Verif.Base Require Import Prelude Hex Dec Json.
From Verif.Model Require Import Token Bank Wrapper.
From Verif.Spec Require Import TokenSpec WrapperSpec.
From Verif.Proofs Require Import HexP TokenP BankP TokenMore WrapperP WrapperInv WrapperMore.
Open Scope Z_scope.
Local Arguments ibc_text : simpl never.
Local Arguments execute_cosmos : simpl never.
Local Arguments transfer_text : simpl never.
Local Arguments decode_transfer : simpl never.
Local Arguments dec_of : simpl never.
Local Arguments contract_to_denom : simpl never.
Local Arguments hexutil_encode : simpl never.

(** ** Backing *)

(** In every history in which channels and receivers are texts JSON writes as
    themselves, what the wrapper holds of a provided token covers redeeming the whole
    supply of its wrapped token. *)
Theorem C51_backed_partial V s0 s o : wenv_ok V → wfresh V s0 → unmixed o s0 →
  wsteps V plain o s0 s → backed V s o.
Proof.
  intros HV Hf Hu Hs c Hc.
  pose proof (wi_steps V HV o s0 s (wi_fresh V o s0 Hf Hu) Hs) as HI.
  apply covers_worth; [apply HV|]. pose proof (wi_back _ _ _ _ HI) as Hb. unfold wsup in Hb. rewrite Hc in Hb.
  eapply covers_mono; [apply HV|exact Hb|lia|].
  assert (0 <= pending o (ws_q s)); [|lia].
  pose proof (wi_q _ _ _ _ HI) as Hq. clear - Hq. induction Hq as [|m q (c' & _ & _ & [? _]) _ IH]; simpl; [lia|].
  destruct (bool_decide _); lia.
Qed.

Lemma worth_convert d v b : 0 <= d → 0 < v → covers d v b → b < two256 → worth d v ≠ 0 →
  convert_decimal v wrapped_decimals d = Some (worth d v).
Proof.
  unfold covers, worth, convert_decimal, wrapped_decimals. intros Hd Hv Hc Hb Hn.
  destruct (Z.leb_spec 6 d) as [H6|H6].
  - assert (0 < 10 ^ (d - 6)) as Hp by (apply Z.pow_pos_nonneg; lia).
    destruct (Z.ltb_spec d 6); [lia|]. destruct (Z.ltb_spec 6 d) as [Hlt|].
    + destruct (Z.ltb_spec (10 ^ (d - 6)) two256); [|nia].
      destruct (Z.ltb_spec (v * 10 ^ (d - 6)) two256); [|nia]. simpl.
      by destruct (Z.eqb_spec (v * 10 ^ (d - 6)) 0).
    + assert (d = 6) as -> by lia. change (10 ^ (6 - 6)) with 1 in *. rewrite Z.mul_1_r.
      destruct (Z.eqb_spec v 0); [lia|done].
  - destruct (Z.ltb_spec d 6); [|lia].
    assert (10 ^ (6 - d) <= 10 ^ 6) by (apply Z.pow_le_mono_r; lia).
    destruct (Z.ltb_spec (10 ^ (6 - d)) two256) as [|Hx].
    + by destruct (Z.eqb_spec (v / 10 ^ (6 - d)) 0).
    + exfalso. assert (10 ^ 6 < two256) by reflexivity. lia.
Qed.

(** Every holder can redeem at any time in such a history: who owns [v] wrapped units,
    has allowed the wrapper to burn them and is not a module account receives their
    whole worth at any address that is not blocked. *)
Theorem C51_redeemable_partial V s0 s o c d h r v : wenv_ok V → wfresh V s0 → unmixed o s0 →
  wsteps V plain o s0 s →
  ws_wrapped s !! o = Some c → denom_to_contract (ws_w s) d = Some c →
  0 < v → v <= balance (ws_w s) c h → v <= allowance (ws_w s) c h (we_self V) →
  is_module (ws_w s) h = false → is_blocked (we_env V) (ws_w s) r = false →
  worth (we_decimals V o) v ≠ 0 →
  ∃ s', unwrap V s h d r v = Some s' ∧
    supply (ws_w s') c = supply (ws_w s) c - v ∧
    (∀ x, balance (ws_w s') c x = balance (ws_w s) c x - if_eq x h v) ∧
    (∀ x, balance (ws_w s') o x = balance (ws_w s) o x + if_eq x r (worth (we_decimals V o) v)
                                  - if_eq x (we_self V) (worth (we_decimals V o) v)).
Proof.
  intros HV Hf Hu Hs Hc Hd Hv Hbal Hall Hmod Hblk Hw.
  pose proof (wi_steps V HV o s0 s (wi_fresh V o s0 Hf Hu) Hs) as HI. pose proof HI as [wi_env0 wi_inv0 wi_o0 wi_allow0 wi_org0 wi_map0 wi_only0 wi_self0 wi_cb0 wi_q0 wi_back0].
  pose proof (wi_map0 _ _ Hc) as Hor. destruct (wi_org0 _ _ Hor) as (t & Ht & How & Hadr & Hden).
  assert (∃ t, is_token (ws_w s) o t) as [to Hto] by (destruct wi_o0 as [|[_ Hx]]; [done|congruence]).
  assert (c ≠ o) as Hco by congruence.
  assert (tok_ok t) as Hok by eauto using iv_tok. assert (tok_ok to) as Hoko by eauto using iv_tok.
  assert (0 <= pending o (ws_q s)) as Hpend.
  { clear - wi_q0. induction wi_q0 as [|m q (c' & _ & _ & [? _]) _ IH]; simpl; [lia|]. destruct (bool_decide _); lia. }
  assert (balance (ws_w s) c h = bal t h) as Eb by (unfold balance, is_token in *; by rewrite Ht).
  assert (supply (ws_w s) c = t_supply t) as Esup by (unfold supply, is_token in *; by rewrite Ht).
  assert (balance (ws_w s) o (we_self V) = bal to (we_self V)) as Ebo by (unfold balance, is_token in *; by rewrite Hto).
  assert (allowance (ws_w s) c h (we_self V) = allow t h (we_self V)) as Ea by (unfold allowance, is_token in *; by rewrite Ht).
  pose proof (bal_range t h Hok) as Hbr.
  assert (t_supply t < two256) as Hst by apply Hok.
  assert (amount_ok v) as Hva by (unfold amount_ok; lia).
  unfold wsup in wi_back0. rewrite Hc in wi_back0.
  assert (covers (we_decimals V o) v (balance (ws_w s) o (we_self V))) as Hcv.
  { eapply covers_mono; [apply HV|exact wi_back0| |]; lia. }
  assert (bal to (we_self V) <= t_supply to) by by apply bal_range.
  assert (t_supply to < two256) as Hsto by apply Hoko.
  pose proof (worth_convert _ _ _ (proj1 (proj2 (proj2 (proj2 (proj2 HV))) o)) Hv Hcv ltac:(lia) Hw) as Hconv.
  pose proof (covers_worth _ _ _ (proj1 (proj2 (proj2 (proj2 (proj2 HV))) o)) Hcv) as Hwb.
  set (a := worth (we_decimals V o) v) in *.
  assert (amount_ok a) as Haa.
  { eapply (convert_ok v); [| |exact Hva|exact Hconv]; [done|]. apply HV. }
  unfold unwrap. rewrite Hd. simpl. rewrite Hor. simpl.
  (* the burn *)
  destruct (call_tok (we_env V) (ws_w s) c (we_self V) (OBurnFrom h v)) as [b1 w1] eqn:H1.
  assert (b1 = true) as ->.
  { rewrite (call_token _ _ _ _ _ _ Ht) in H1. simpl in H1. rewrite Hmod in H1. rewrite sub256_yes in H1 by lia.
    simpl in H1. unfold tok_burn in H1. rewrite bal_set_allow, sub256_yes in H1 by lia. simpl in H1.
    rewrite sub256_yes in H1 by lia. simpl in H1. by injection H1 as <- <-. }
  unfold wcall. rewrite H1. cbn [mbind option_bind put_w ws_w]. rewrite Hconv. cbn [mbind option_bind put_w ws_w].
  destruct (call_effect _ _ _ _ (OBurnFrom h v) _ wi_inv0 Hva H1 ltac:(eauto)) as (Hb1 & Hs1 & _).
  pose proof (inv_call (we_env V) (ws_w s) c (we_self V) (OBurnFrom h v) wi_inv0 Hva) as Hi1. rewrite H1 in Hi1. simpl in Hi1.
  assert (is_token w1 o to) as Hto1.
  { destruct (call_cases _ _ _ _ _ _ _ H1) as [Hsm|(_ & tc & t1 & t2 & _ & _ & _ & Hw1)]; unfold is_token in *; [by rewrite Hsm|].
    rewrite Hw1, lookup_insert_ne by done. done. }
  assert (is_blocked (we_env V) w1 r = false) as Hblk1.
  { assert (w_accts w1 = w_accts (ws_w s)) as Eacc.
    { rewrite (call_token _ _ _ _ _ _ Ht) in H1. simpl in H1. repeat case_match; simplify_eq; done. }
    unfold is_blocked, origin_of in *. by rewrite Eacc. }
  (* the payment *)
  destruct (call_tok (we_env V) w1 o (we_self V) (OTransfer r a)) as [b2 w2] eqn:H2.
  assert (b2 = true) as ->.
  { rewrite (call_token _ _ _ _ _ _ Hto1) in H2. simpl in H2. rewrite Hblk1 in H2.
    assert (∃ t', body (we_self V) (OTransfer r a) to = Some t') as [t' Ht'].
    { apply (body_covered (we_self V) (OTransfer r a) to Hoko Haa). simpl. lia. }
    simpl in Ht'. rewrite Ht' in H2. by injection H2 as <- <-. }
  destruct (call_effect _ _ _ _ (OTransfer r a) _ Hi1 Haa H2 ltac:(eauto)) as (Hb2 & Hs2 & _).
  eexists. split; [done|]. simpl. split_and!.
  - rewrite Hs2, Hs1. rewrite (bool_decide_eq_true_2 (c = c)) by done. simpl. destruct (bool_decide (c = o)); lia.
  - intros x. rewrite Hb2, Hb1. rewrite (bool_decide_eq_true_2 (c = c)) by done.
    rewrite (bool_decide_eq_false_2 (c = o)) by done. simpl. lia.
  - intros x. rewrite Hb2, Hb1. rewrite (bool_decide_eq_true_2 (o = o)) by done.
    rewrite (bool_decide_eq_false_2 (o = c)) by congruence. simpl. lia.
Qed.

(** ** Wrapping *)

(** Wrapped units for [a] origin units of [d] decimals. *)
Definition wrapped_amount (d a : Z) : Z := if 6 <=? d then a / 10 ^ (d - 6) else a * 10 ^ (6 - d).

(** What a successful wrap does, for plain texts: it locks the amount, issues the
    wrapped units to the wrapper and asks for exactly one transfer, of exactly these
    units, over the given channel to the given receiver. With a decoder that refuses
    unknown fields it never succeeds. *)
Theorem C51_wrap_partial V s0 s o t sender ch rcv a tm s' : wenv_ok V → wfresh V s0 → unmixed o s0 →
  wsteps V plain o s0 s → is_token (ws_w s) o t → plain ch → plain rcv → amount_ok a →
  wrap V s sender ch o rcv a tm = Some s' →
  we_strict V = false ∧
  ∃ c up, ws_wrapped s' !! o = Some c ∧
    let v := wrapped_amount (we_decimals V o) a in
    let denom := txt "evm/" ++ hex_enc up c in
    0 < v ∧
    supply (ws_w s') c = supply (ws_w s) c + v ∧
    balance (ws_w s') c (we_self V) = balance (ws_w s) c (we_self V) + v ∧
    (∀ x, balance (ws_w s') o x = balance (ws_w s) o x + if_eq x (we_self V) a - if_eq x sender a) ∧
    ws_q s' = ws_q s ++ [IMsg (txt "transfer") ch denom v (we_self_text V) rcv []] ∧
    denom_to_contract (ws_w s') denom = Some c ∧
    ws_id s' = (ws_id s + 1)%N ∧ ws_cb s' !! ws_id s' = Some (sender, denom, v).
Proof.
  intros HV Hf Hu Hs Ht Hch Hrcv Ha Hw.
  pose proof (wi_steps V HV o s0 s (wi_fresh V o s0 Hf Hu) Hs) as HI.
  unfold wrap in Hw. destruct (ensure_wrapped V s o) as [s1|] eqn:He; [|done]. cbn [mbind option_bind] in Hw.
  assert (WI V o 0 s1 ∧ is_token (ws_w s1) o t ∧ ws_q s1 = ws_q s ∧ ws_id s1 = ws_id s ∧
     (∀ c x, ws_wrapped s1 !! o = Some c → balance (ws_w s1) c x = balance (ws_w s) c x ∧ supply (ws_w s1) c = supply (ws_w s) c)
     ∧ (∀ x, balance (ws_w s1) o x = balance (ws_w s) o x)) as (HI1 & Ht1 & Hq1 & Hid1 & Hc1 & Ho1).
  { unfold ensure_wrapped in He. destruct (ws_wrapped s !! o) as [c|] eqn:Hc.
    - injection He as <-. done.
    - assert (WI V o 0 s1) as HI1.
      { eapply wi_create; [exact HI|done| |exact He]. unfold is_token in Ht. by rewrite Ht. }
      unfold create_wrapped in He. destruct (factory_create (we_env V) (ws_w s) (we_self V)) as [[c w1]|] eqn:Hfc; [|done].
      cbn [mbind option_bind] in He. injection He as <-. cbn [ws_w ws_q ws_id ws_wrapped] in *.
      pose proof (factory_create_eq _ _ _ _ _ Hfc) as (_ & Hn & _).
      destruct (factory_create_effect _ _ _ _ _ Hfc) as (Hb & Hsp & _ & _ & Hoth & Hnew).
      split; [done|]. split; [unfold is_token in *; rewrite Hoth; [done|congruence]|].
      split; [done|]. split; [done|]. split; [|intros x; apply Hb].
      intros c' x. rewrite lookup_insert. intros [= <-]. split; [apply Hb|apply Hsp]. }
  destruct (wcall V s1 o (OTransferFrom sender (we_self V) a)) as [s2|] eqn:Hcall; [|done]. cbn [mbind option_bind] in Hw.
  destruct (convert_decimal a (we_decimals V o) wrapped_decimals) as [v|] eqn:Hconv; [|done]. cbn [mbind option_bind] in Hw.
  assert (amount_ok v) as Hv.
  { eapply (convert_ok a); [| |exact Ha|exact Hconv]; [apply HV|done]. }
  assert (v = wrapped_amount (we_decimals V o) a ∧ v ≠ 0) as [Ev Hv0].
  { clear - Hconv. unfold convert_decimal, wrapped_amount, wrapped_decimals in *.
    destruct (Z.ltb_spec 6 (we_decimals V o)).
    - destruct (Z.leb_spec 6 (we_decimals V o)); [|lia]. destruct (_ <? two256); [|done].
      destruct (Z.eqb_spec (a / 10 ^ (we_decimals V o - 6)) 0); [done|]. injection Hconv as <-. done.
    - destruct (Z.ltb_spec (we_decimals V o) 6).
      + destruct (Z.leb_spec 6 (we_decimals V o)); [lia|]. destruct (_ && _); [|done].
        destruct (Z.eqb_spec (a * 10 ^ (6 - we_decimals V o)) 0); [done|]. injection Hconv as <-. done.
      + assert (we_decimals V o = 6) as -> by lia. destruct (Z.eqb_spec a 0); [done|]. injection Hconv as <-.
        simpl. rewrite Z.div_1_r. done. }
  apply wcall_some in Hcall as (w2 & Hcall & ->).
  destruct (wi_facts V o _ s1 o (OTransferFrom sender (we_self V) a) w2 HI1 Ha ltac:(eauto) Hcall I)
    as (Hi2 & Hal2 & Ho2 & Hown2 & Hden2 & Hb2 & Hs2).
  destruct (call_effect _ _ _ _ (OTransferFrom sender (we_self V) a) _ (wi_inv _ _ _ _ HI1) Ha Hcall ltac:(eauto)) as (Hbal2 & _ & _).
  unfold finish_wrap in Hw. cbn [ws_wrapped put_w] in Hw.
  destruct (ws_wrapped s1 !! o) as [c|] eqn:Hc; [|done]. cbn [mbind option_bind] in Hw.
  pose proof (wi_map _ _ _ _ HI1 _ _ Hc) as Hor. destruct (wi_org _ _ _ _ HI1 _ _ Hor) as (tc & Htc & How & Hadr & Hden).
  assert (c ≠ o) as Hco by (intros ->; by apply (wi_self _ _ _ _ HI1)).
  assert (is_token w2 c tc) as Htc2.
  { destruct (call_cases _ _ _ _ _ _ _ Hcall) as [Hsm|(_ & tx & t1 & t2 & _ & _ & _ & Hw1)]; unfold is_token in *; [by rewrite Hsm|].
    rewrite Hw1, lookup_insert_ne by done. done. }
  unfold wcall in Hw. cbn [ws_w put_w] in Hw.
  destruct (call_tok (we_env V) w2 c (we_self V) (OMint (we_self V) v)) as [ok w3] eqn:H3.
  destruct ok; [|done]. cbn [mbind option_bind ws_id put_w ws_w ws_wrapped ws_origin ws_cb ws_q] in Hw.
  destruct (N.ltb_spec (ws_id s1 + 1) two64); [|done].
  destruct (call_effect _ _ _ _ (OMint (we_self V) v) _ Hi2 Hv H3 ltac:(eauto)) as (Hbal3 & Hsup3 & _).
  pose proof (call_frame (we_env V) w2 c (we_self V) (OMint (we_self V) v)) as Hfr. rewrite H3 in Hfr. simpl in Hfr. destruct Hfr as (Hden3 & _).
  assert (contract_to_denom (we_ck V) w3 c = denom_prefix ++ hex_enc (we_ck V c) c) as Ed.
  { unfold contract_to_denom. rewrite Hden3, Hden2, Hden. done. }
  assert (names (contract_to_denom (we_ck V) w3 c) c) as Hnm by (rewrite Ed; by eexists).
  match type of Hw with execute_cosmos V ?s2 _ = _ => pose proof (exec_plain V HV s2 ch c v tm rcv (proj1 Hv) Hch Hrcv Hnm Hadr) as Hex end.
  rewrite Hex in Hw. clear Hex. cbn [ws_id put_w ws_w ws_wrapped ws_origin ws_cb ws_q] in Hw.
  destruct (we_strict V) eqn:Hstr; [done|]. destruct (tm <? two64)%N; [|done]. cbn [negb andb] in Hw. injection Hw as <-.
  split; [done|]. exists c, (we_ck V c). cbn [ws_id put_w ws_w ws_wrapped ws_origin ws_cb ws_q].
  split; [done|]. cbv zeta. rewrite <- Ev. change (txt "evm/") with denom_prefix. rewrite <- Ed.
  destruct (Hc1 c (we_self V) eq_refl) as [Hcb Hcs].
  split_and!.
  - destruct Hv. lia.
  - rewrite Hsup3, Hs2. rewrite (bool_decide_eq_true_2 (c = c)) by done. rewrite (bool_decide_eq_false_2 (c = o)) by done. simpl. rewrite Hcs. lia.
  - rewrite Hbal3, Hbal2. rewrite (bool_decide_eq_true_2 (c = c)) by done. rewrite (bool_decide_eq_false_2 (c = o)) by done. simpl.
    rewrite Hcb. unfold if_eq. rewrite bool_decide_eq_true_2 by done. lia.
  - intros x. rewrite Hbal3, Hbal2. rewrite (bool_decide_eq_true_2 (o = o)) by done. rewrite (bool_decide_eq_false_2 (o = c)) by congruence. simpl.
    rewrite Ho1. lia.
  - by rewrite Hq1.
  - by apply names_resolves.
  - by rewrite Hid1.
  - by rewrite lookup_insert.
Qed.

(** The chain's decoder refuses unknown fields, and the wrapper's message has one:
    with it no plain wrap succeeds in any history. *)
Corollary C51_plain_wrap_refuted V s0 s o t sender ch rcv a tm : wenv_ok V → wfresh V s0 → unmixed o s0 →
  wsteps V plain o s0 s → is_token (ws_w s) o t → plain ch → plain rcv → amount_ok a →
  we_strict V = true → wrap V s sender ch o rcv a tm = None.
Proof.
  intros HV Hf Hu Hs Ht Hch Hrcv Ha Hstr.
  destruct (wrap V s sender ch o rcv a tm) as [s'|] eqn:Hw; [|done].
  destruct (C51_wrap_partial V s0 s o t sender ch rcv a tm s' HV Hf Hu Hs Ht Hch Hrcv Ha Hw) as [Hx _]. congruence.
Qed.

(** ** Refunds *)

(** The hook calls the wrapper back in the wrapper's own name (C48). Such a callback
    never succeeds, in any history and whatever texts were passed: a failed or
    timed-out transfer is not refunded. *)
Theorem C51_refund_refuted V s0 s id : wenv_ok V → wfresh V s0 → rtc (wstep V (fun _ => True)) s0 s →
  ibc_ack V s (we_self V) id false = None ∧ ibc_timeout V s (we_self V) id = None.
Proof.
  intros HV Hf Hs. pose proof (ai_steps V HV _ _ _ (ai_fresh V _ Hf) Hs) as HA.
  assert (handle_failed V s (we_self V) id = None) as H; [|done].
  unfold handle_failed. destruct (ws_cb s !! id) as [[[to d] v]|] eqn:Hcb; simpl.
  - apply (self_unwrap V s d to v HA). exact (ai_cb _ _ HA _ _ _ _ Hcb).
  - apply (self_unwrap V s _ _ _ HA). lia.
Qed.
(** A successful acknowledgement changes nothing. *)
Theorem C51_ack_success V s sender id : ibc_ack V s sender id true = Some s.
Proof. done. Qed.

(** ** An example chain, and what a crafted receiver text does *)

Definition y_wrap : bytes := replicate 19 4%N ++ [1%N].
Definition y_escrow : bytes := replicate 19 5%N ++ [1%N].
Definition y_text : text := txt "init1wrapper".
Definition y_V (strict : bool) (d : Z) : wenv :=
  WEnv x_env (fun _ _ => false) y_wrap y_text (fun t => if bool_decide (t = y_text) then Some y_wrap else None)
       strict (fun _ => true) (fun _ _ => y_escrow) (fun _ => d).
Definition y_0 : wst := WSt x_w2 ∅ ∅ 0 ∅ [].

Lemma y_ok strict d : 0 <= d < 256 → wenv_ok (y_V strict d).
Proof.
  intros Hd. split_and!; try done.
  - split; [done|]. change (bytes_ok y_wrap). apply Forall_app. split; [apply Forall_replicate; lia|]. constructor; [lia|constructor].
  - apply plain_dec. vm_compute. reflexivity.
Qed.
Definition no_allow (m : gmap bytes code) : bool :=
  forallb (fun x => match x with CTok t => bool_decide (t_allow t = ∅) | CCustom => true end) (snd <$> map_to_list m).
Lemma no_allow_ok m c t : no_allow m = true → m !! c = Some (CTok t) → t_allow t = ∅.
Proof.
  unfold no_allow. rewrite forallb_forall. intros H Hc. specialize (H (CTok t)). simpl in H.
  apply bool_decide_eq_true in H; [done|].
  apply elem_of_list_In, elem_of_list_fmap. exists (c, CTok t). split; [done|]. by apply elem_of_map_to_list.
Qed.
Lemma x_w2_allow c a sp : allowance x_w2 c a sp = 0.
Proof.
  unfold allowance. destruct (w_code x_w2 !! c) as [[t|]|] eqn:Hc; [|reflexivity..].
  assert (no_allow (w_code x_w2) = true) as H by (vm_compute; reflexivity).
  unfold allow. rewrite (no_allow_ok _ _ _ H Hc), lookup_empty. reflexivity.
Qed.
Lemma y_fresh strict d : wfresh (y_V strict d) y_0.
Proof.
  split; [exact (x_reachable x_w2 x_w2_steps)|]. do 4 (split; [reflexivity|]).
  intros c sp. apply x_w2_allow.
Qed.
Lemma y_unmixed : unmixed x_stake_at y_0.
Proof.
  unfold unmixed. intros H. assert (match w_code (ws_w y_0) !! x_stake_at with Some CCustom => true | _ => false end = false) as E by (vm_compute; reflexivity).
  rewrite H in E. done.
Qed.

(** Alice lets the wrapper take 60 and wraps 50 (18 decimals would be worth nothing:
    the example token has 6 or 7). *)
Definition y_1 : wst := put_w y_0 (snd (call_tok x_env (ws_w y_0) x_stake_at x_alice (OApprove y_wrap 60))).
Definition y_step (f : wst → option wst) (s : wst) : wst := default s (f s).
Definition y_ch : text := txt "channel-0".
Definition y_do (strict : bool) (d : Z) (sender : bytes) (rcv : text) (a : Z) (s : wst) : option wst :=
  wrap (y_V strict d) s sender y_ch x_stake_at rcv a 9.
Definition y_plain (d : Z) : wst := y_step (y_do false d x_alice (txt "cosmos1alice") 50) y_1.
Definition y_sent (d : Z) : wst := y_step (dispatch_one (y_V false d)) (y_plain d).

Lemma y_alice_step V ok s v : we_env V = x_env → we_self V = y_wrap → amount_ok v →
  wstep V ok s (put_w s (snd (call_tok x_env (ws_w s) x_stake_at x_alice (OApprove y_wrap v)))).
Proof. intros <- Hw Hv. apply w_call; [by rewrite Hw|done|done]. Qed.
Definition is_some {A} (x : option A) : bool := match x with Some _ => true | None => false end.
Lemma y_step_eq f s : is_some (f s) = true → f s = Some (y_step f s).
Proof. unfold y_step. by destruct (f s). Qed.
Definition tok_at (s : wst) (c : bytes) : bool := match w_code (ws_w s) !! c with Some (CTok _) => true | _ => false end.
Lemma tok_at_ok s c : tok_at s c = true → ∃ t, is_token (ws_w s) c t.
Proof. unfold tok_at, is_token. destruct (w_code _ !! c) as [[t|]|]; try done. eauto. Qed.
Lemma tok_at_unmixed s c : tok_at s c = true → unmixed c s.
Proof. unfold tok_at, unmixed. destruct (w_code _ !! c) as [[t|]|]; done. Qed.

Lemma y_first strict d ok : wstep (y_V strict d) ok y_0 y_1.
Proof. apply (y_alice_step (y_V strict d)); [done|done|by split]. Qed.
Ltac run := vm_compute; reflexivity.
Lemma y_wrap_step strict d (ok : text → Prop) s sender rcv a :
  ok y_ch → ok rcv → amount_ok a → tok_at s x_stake_at = true → is_some (y_do strict d sender rcv a s) = true →
  wstep (y_V strict d) ok s (y_step (y_do strict d sender rcv a) s).
Proof.
  intros Hc Hr Ha Ht Hf. eapply w_wrap; [exact Hc|exact Hr|exact Ha|by apply tok_at_ok|].
  by apply (y_step_eq (y_do strict d sender rcv a)).
Qed.
Lemma y_dispatch_step strict d ok s : is_some (dispatch_one (y_V strict d) s) = true →
  wstep (y_V strict d) ok s (y_step (dispatch_one (y_V strict d)) s).
Proof. intros H. apply w_dispatch. by apply (y_step_eq (dispatch_one (y_V strict d))). Qed.
Lemma y_next V ok s s' s'' : wstep V ok s s' → tok_at s' x_stake_at = true → wsteps V ok x_stake_at s' s'' →
  wsteps V ok x_stake_at s s''.
Proof. intros H1 H2 H3. eapply rtc_l; [|exact H3]. split; [done|by apply tok_at_unmixed]. Qed.

(** The hypotheses are met: a history with a plain wrap and its transfer, in which 50
    units are locked and as many wrapped units are outstanding in escrow. *)
Lemma y_upto (ok : text → Prop) s : ok y_ch → ok (txt "cosmos1alice") → wsteps (y_V false 6) ok x_stake_at (y_sent 6) s →
  wsteps (y_V false 6) ok x_stake_at y_0 s.
Proof.
  intros H1 H2 H.
  apply (y_next _ _ _ y_1); [apply y_first|run|].
  apply (y_next _ _ _ (y_plain 6)); [refine (y_wrap_step false 6 ok y_1 x_alice (txt "cosmos1alice") 50 _ _ _ _ _); [exact H1|exact H2|by split|run|run]|run|].
  apply (y_next _ _ _ (y_sent 6)); [apply y_dispatch_step; run|run|]. exact H.
Qed.
Example y_history : wsteps (y_V false 6) plain x_stake_at y_0 (y_sent 6) ∧
  balance (ws_w (y_sent 6)) x_stake_at y_wrap = 50 ∧
  ∃ c, ws_wrapped (y_sent 6) !! x_stake_at = Some c ∧ supply (ws_w (y_sent 6)) c = 50 ∧
       balance (ws_w (y_sent 6)) c y_escrow = 50.
Proof.
  split; [|split; [run|]].
  - apply y_upto; [lit|lit|apply rtc_refl].
  - exists (e_create x_env 3).
    assert (bool_decide (ws_wrapped (y_sent 6) !! x_stake_at = Some (e_create x_env 3)) = true) as H by run.
    split; [by apply bool_decide_eq_true in H|]. split; run.
Qed.

(** A receiver text that ends its JSON string early and names another coin; the last
    "token" counts, and what follows the closing brace is not read. *)
Definition y_inject (amount : text) : text :=
  txt "cosmos1bob"",""token"":{""denom"":""stake"",""amount"":""" ++ amount ++ txt """},""timeout_timestamp"":""9""}".

(** Bob, who owns 1 unit (a gift of alice), wraps it with that text. *)
Definition y_b1 : wst := put_w (y_sent 6) (snd (call_tok x_env (ws_w (y_sent 6)) x_stake_at x_alice (OTransfer x_bob 1))).
Definition y_b2 : wst := put_w y_b1 (snd (call_tok x_env (ws_w y_b1) x_stake_at x_bob (OApprove y_wrap 1))).
Definition y_b3 : wst := y_step (y_do false 6 x_bob (y_inject (txt "51")) 1) y_b2.
Definition y_b4 : wst := y_step (dispatch_one (y_V false 6)) y_b3.

(** With arbitrary texts the wrapped token is not backed: the 50 units alice locked and
    bob's own leave for bob's account on the other chain, while 51 wrapped units
    remain. *)
Theorem C51_injection_refuted :
  wsteps (y_V false 6) (fun _ => True) x_stake_at y_0 y_b4 ∧
  balance (ws_w y_b4) x_stake_at y_wrap = 0 ∧ balance (ws_w y_b4) x_stake_at y_escrow = 51 ∧
  (∃ c, ws_wrapped y_b4 !! x_stake_at = Some c ∧ supply (ws_w y_b4) c = 51) ∧
  ¬ backed (y_V false 6) y_b4 x_stake_at.
Proof.
  assert (ws_wrapped y_b4 !! x_stake_at = Some (e_create x_env 3)) as Hw.
  { assert (bool_decide (ws_wrapped y_b4 !! x_stake_at = Some (e_create x_env 3)) = true) as H by run.
    by apply bool_decide_eq_true in H. }
  assert (supply (ws_w y_b4) (e_create x_env 3) = 51) as Hs by run.
  assert (balance (ws_w y_b4) x_stake_at y_wrap = 0) as Hb by run.
  split; [|split; [exact Hb|split; [run|split]]].
  - apply y_upto; [exact I|exact I|].
    apply (y_next _ _ _ y_b1); [|run|].
    { apply (w_call (y_V false 6) _ (y_sent 6) x_stake_at x_alice (OTransfer x_bob 1)); [done|done|by split]. }
    apply (y_next _ _ _ y_b2); [|run|].
    { apply (w_call (y_V false 6) _ y_b1 x_stake_at x_bob (OApprove y_wrap 1)); [done|done|by split]. }
    apply (y_next _ _ _ y_b3); [|run|].
    { refine (y_wrap_step false 6 _ y_b2 x_bob (y_inject (txt "51")) 1 _ _ _ _ _); [exact I|exact I|by split|run|run]. }
    apply (y_next _ _ _ y_b4); [apply y_dispatch_step; run|run|]. apply rtc_refl.
  - exists (e_create x_env 3). split; [exact Hw|exact Hs].
  - intros H. specialize (H _ Hw). rewrite Hs in H. unfold y_V in H. cbn [we_self we_decimals] in H. rewrite Hb in H.
    assert (worth 6 51 = 51) as E by run. rewrite E in H. lia.
Qed.

(** The same text gets past a decoder that refuses unknown fields. *)
Definition y_s1 : wst := y_step (y_do true 6 x_alice (y_inject (txt "50")) 50) y_1.
Definition y_s2 : wst := y_step (dispatch_one (y_V true 6)) y_s1.
Theorem C51_strict_injection_refuted :
  wsteps (y_V true 6) (fun _ => True) x_stake_at y_0 y_s2 ∧ ¬ backed (y_V true 6) y_s2 x_stake_at.
Proof.
  assert (ws_wrapped y_s2 !! x_stake_at = Some (e_create x_env 3)) as Hw.
  { assert (bool_decide (ws_wrapped y_s2 !! x_stake_at = Some (e_create x_env 3)) = true) as H by run.
    by apply bool_decide_eq_true in H. }
  assert (supply (ws_w y_s2) (e_create x_env 3) = 50) as Hs by run.
  assert (balance (ws_w y_s2) x_stake_at y_wrap = 0) as Hb by run.
  split.
  - apply (y_next _ _ _ y_1); [apply y_first|run|].
    apply (y_next _ _ _ y_s1); [|run|].
    { refine (y_wrap_step true 6 _ y_1 x_alice (y_inject (txt "50")) 50 _ _ _ _ _); [exact I|exact I|by split|run|run]. }
    apply (y_next _ _ _ y_s2); [apply y_dispatch_step; run|run|]. apply rtc_refl.
  - intros H. specialize (H _ Hw). rewrite Hs in H. unfold y_V in H. cbn [we_self we_decimals] in H. rewrite Hb in H.
    assert (worth 6 50 = 50) as E by run. rewrite E in H. lia.
Qed.

(** The hypotheses of redeeming are met: 20 wrapped units come back to bob, who lets
    the wrapper burn them and redeems for alice. *)
Definition y_wtok : bytes := e_create x_env 3.
Definition y_r1 : wst := put_w (y_sent 6) (snd (call_tok x_env (ws_w (y_sent 6)) y_wtok chain_addr (OSudoTransfer y_escrow x_bob 20))).
Definition y_r2 : wst := put_w y_r1 (snd (call_tok x_env (ws_w y_r1) y_wtok x_bob (OApprove y_wrap 20))).
Example y_redeem : wsteps (y_V false 6) plain x_stake_at y_0 y_r2 ∧
  bool_decide (ws_wrapped y_r2 !! x_stake_at = Some y_wtok) = true ∧
  bool_decide (denom_to_contract (ws_w y_r2) (contract_to_denom (fun _ _ => false) (ws_w y_r2) y_wtok) = Some y_wtok) = true ∧
  balance (ws_w y_r2) y_wtok x_bob = 20 ∧ allowance (ws_w y_r2) y_wtok x_bob y_wrap = 20 ∧
  is_module (ws_w y_r2) x_bob = false ∧ is_blocked x_env (ws_w y_r2) x_alice = false.
Proof.
  split; [|do 5 (split; [run|]); run].
  apply y_upto; [lit|lit|].
  apply (y_next _ _ _ y_r1); [|run|].
  { apply (w_chain_send (y_V false 6) _ (y_sent 6) y_wtok y_escrow x_bob 20); [done|by split]. }
  apply (y_next _ _ _ y_r2); [|run|apply rtc_refl].
  apply (w_call (y_V false 6) _ y_r1 y_wtok x_bob (OApprove y_wrap 20)); [done|done|by split].
Qed.
