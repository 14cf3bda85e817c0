(** C141: transactions with several messages (calls and sends, of one or several signers), from the
    signed transaction to the last effect (Model/MultiMsg.v). *)
From Verif.Base Require Import Prelude Hex.
From Verif.Model Require Import Fees EthTx SigVerify Token Bank CallTree EthDeliver MultiMsg.
From Verif.Model Require Sequence.
From Verif.Spec Require Import TokenSpec CallTreeSpec WalletSpec MultiSpec.
From Verif.Proofs Require Import BytesP HexP EthTxP TokenP BankP TokenMore BankMore CallTreeP CallTreeAny EthDeliverP.
From Verif.Props Require Import EthTxProps FeesProps CallTreeProps EthDeliverProps CosmosSignedProps.
Local Open Scope Z_scope.

Section props.
Variable keccak : bytes -> bytes.
Variable bech_enc : bytes -> text.
Variable bech_dec : text -> option bytes.
Variable recover_addr : content -> N -> Z -> Z -> option bytes.
Variable key_addr : pubkey -> bytes.
Variable key_verify : pubkey -> bytes -> bytes -> bool.
Variable sign_bytes : Z -> bytes -> N -> N -> pubkey -> vtx -> option bytes.
Variable fee_denom : text.
Variable decimals : Z.
Variable cid : bytes.
Variable cost_k1 cost_r1 limit : N.
Variable E : env.
Variable B : bank_env.
Variable fee : bytes.
Variable code_at : bytes -> bytes -> prog.
Variable ratio : Z.
Variable publishers : list text.
Variable create_addr : bytes -> N -> bytes.
Variable init_of : bytes -> bytes -> prog.
Variable col : bytes.
Variable params : bank_params.
Variable send_of : bytes -> option (option bytes * option bytes * list coin).
Notation sigs := (ante_sigs keccak bech_dec recover_addr key_addr key_verify sign_bytes fee_denom decimals cid cost_k1 cost_r1 false false limit).
Notation ante := (ante_m keccak bech_dec recover_addr key_addr key_verify sign_bytes fee_denom decimals cid cost_k1 cost_r1 limit B).
Notation deliver := (deliver_m keccak bech_dec recover_addr key_addr key_verify sign_bytes fee_denom decimals cid cost_k1 cost_r1 limit E B fee code_at ratio publishers create_addr init_of params send_of).
Notation deliver_1 := (EthDeliver.deliver keccak bech_dec recover_addr key_addr key_verify sign_bytes fee_denom decimals cid cost_k1 cost_r1 limit E B fee code_at ratio publishers create_addr init_of).
Notation exec_msg := (exec_msg bech_dec E B fee code_at publishers create_addr init_of params send_of).
Notation exec_all := (exec_all bech_dec E B fee code_at publishers create_addr init_of params send_of).
Notation sane := (sane bech_enc bech_dec recover_addr decimals cost_k1 limit E B fee ratio col).
Notation healthy := (healthy fee_denom fee).
Notation before := (before fee).

(** What a message asks for: a call in units of the fee token, or a send of the fee token. *)
Definition means (m : cmsg) (r : act) : Prop :=
  match r with
  | ACall a to d v => exists caddr input al, m = CCall (bech_enc a) caddr input v al /\ length a = 20%nat /\ wf_address to /\
      contract_address bech_dec caddr = Some to /\ hexutil_decode input = Some d /\ amount_ok v
  | ASend a b v => exists body, m = COther body /\ send_of body = Some (Some a, Some b, [Coin fee_denom v]) /\
      length a = 20%nat /\ length b = 20%nat /\ amount_ok v /\ 0 < v
  end.
Definition open_to (b : bytes) : bool := send_enabled params fee_denom && negb (e_blocked (be_env B) b).

Section run.
Context (w : world).
Hypothesis Hsane : sane.
Hypothesis Hvalid : valid_denom fee_denom = true.
Hypothesis Hden : denom_to_contract w fee_denom = Some fee.
Hypothesis Htok : exists tk, is_token w fee tk.
Notation blk := (is_blocked E w).
Definition code (to d : bytes) : prog := match w_code w !! to with None => PStop | Some _ => code_at to d end.
Notation together := (together blk code open_to).
Definition code_ok (r : act) : Prop := match r with ACall _ to d _ => prog_ok (code to d) | ASend _ _ _ => True end.
Definition keeps (y : bytes) (r : act) : Prop := y <> actor r /\ match r with ACall _ to d _ => never_pays y to (code to d) | ASend _ _ _ => True end.
Definition writes_not (y : bytes) (r : act) : Prop := match r with ACall _ to d _ => ~ runs_as y to (code to d) | ASend _ _ _ => True end.
Definition bounded_by (l : list act) (g g' : ledger) : Prop :=
  (forall y, Forall (keeps y) l -> l_bal g y <= l_bal g' y) /\
  (forall y, Forall (writes_not y) l -> forall k, l_sto g' !! (y, k) = l_sto g !! (y, k)) /\
  l_ev g `prefix_of` l_ev g'.
Lemma together_cons r l g : together (r :: l) g = match together [r] g with (Told, true, g') => together l g' | x => x end.
Proof.
  destruct r as [a to d v|a b v]; cbn [MultiSpec.together].
  - by destruct (eth _ _ _ _) as [[[| |] [|]] ?].
  - destruct (decide _); [|done]. by destruct (open_to b).
Qed.
Definition counted (accs : vaccs) (r : act) : vaccs := match r with ACall a _ _ _ => next_seq accs a | ASend _ _ _ => accs end.
Lemma msg_step x m r sup s l accs : means m r -> code_ok r -> shows E fee w sup s l -> (forall y, is_call_by y r = true -> is_Some (accs !! y)) ->
  match exec_msg x m (Node s accs) with
  | MsgPanic => (together [r] l).1.1 <> CatchesFailure -> (together [r] l).1.1 = PaysBlocked
  | MsgErr => (together [r] l).1.1 <> CatchesFailure -> exists l', together [r] l = (Told, false, l')
  | MsgOk n' => nd_accs n' = counted accs r /\ exists sup' l', sup' <= sup /\ shows E fee w sup' (nd_st n') l' /\ bounded_by [r] l l' /\
      ((together [r] l).1.1 <> CatchesFailure -> sup' = sup /\ together [r] l = (Told, true, l'))
  end.
Proof.
  intros Hm Hp HR Hacc. destruct r as [a to d v|a b v]; cbn [means] in Hm.
  - destruct Hm as (caddr & input & al & -> & Ha & Hto & Hc & Hi & Hv). cbn [MultiMsg.exec_msg]. unfold exec, alone. cbn [v_msgs nd_accs nd_st].
    rewrite (sn_bech _ _ _ _ _ _ _ _ _ _ _ Hsane a Ha), Hc, Hi.
    assert ((two256 <=? Z.abs v) = false) as -> by (unfold amount_ok in Hv; apply Z.leb_gt; lia).
    rewrite pack_id by done.
    assert (match w_code (s_w s) !! to with None => PStop | Some _ => code_at to d end = code to d) as ->.
    { unfold code. destruct (decide (to = fee)) as [->|Hne].
      - destruct (sh_fee _ _ _ _ _ _ HR) as (tk & Ht & _). destruct Htok as (tk' & Ht'). unfold is_token in Ht, Ht'. by rewrite Ht, Ht'.
      - by rewrite (sh_other _ _ _ _ _ _ HR). }
    pose proof (execute_shows E fee w sup (sn_fee _ _ _ _ _ _ _ _ _ _ _ Hsane) (fun s => s) s l a to v (code to d) HR eq_refl Hp Hv) as H.
    cbn [MultiSpec.together].
    assert (Hinc : increase_nonce accs a = next_seq accs a).
    { unfold increase_nonce. destruct (Hacc a) as (? & ->); [|done]. cbn. by rewrite bool_decide_eq_true_2. }
    destruct (execute E fee _ a to _ _ s) as [[[|] s']|] eqn:Hex.
    + rewrite Hinc. split; [done|]. cbn [nd_st].
      destruct (execute_any E fee w sup s l a to v (code to d) s' HR Hp Hv Hex) as [(sup1 & l2 & Hsup1 & HR1) Hany].
      assert (Hbd : forall sup' l', shows E fee w sup' s' l' -> bounded_by [ACall a to d v] l l').
      { intros sup' l' HR'. destruct (Hany sup' l' HR') as (_ & H1 & H2 & H3). split; [|split; [|done]].
        - intros y Hy. apply Forall_inv in Hy as [Hy Hq]. apply H1; [right; by apply not_eq_sym|done].
        - intros y Hy. apply Forall_inv in Hy. by apply H2. }
      destruct (eth _ _ a l) as [[[| |] [|]] l'].
      * destruct H as (s2 & [= <-] & HR'). exists sup, l'. split; [done|]. split; [done|]. split; [by eapply Hbd|]. done.
      * by destruct H.
      * done.
      * done.
      * exists sup1, l2. split; [done|]. split; [done|]. split; [by eapply Hbd|]. intros Hs. by destruct Hs.
      * exists sup1, l2. split; [done|]. split; [done|]. split; [by eapply Hbd|]. intros Hs. by destruct Hs.
    + destruct (eth _ _ a l) as [[[| |] [|]] l'] eqn:He; intros Hs; try done.
      * by destruct H as (? & ? & _).
      * by exists l'.
    + destruct (eth _ _ a l) as [[[| |] [|]] l'] eqn:He; intros Hs; try done.
      * by destruct H as (? & ? & _).
      * by destruct H as (? & ?).
  - destruct Hm as (body & -> & Hs & Ha & Hb & Hv & Hpos). cbn [MultiMsg.exec_msg]. rewrite Hs. unfold msg_send.
    assert (coins_valid [Coin fee_denom v] = true) as ->.
    { unfold coins_valid. cbn. rewrite Hvalid. by assert ((0 <? v) = true) as -> by by apply Z.ltb_lt. }
    rewrite bool_decide_eq_false_2 by done.
    assert (all_send_enabled params [Coin fee_denom v] = send_enabled params fee_denom) as -> by (unfold all_send_enabled; cbn; by rewrite andb_true_r).
    cbn [negb andb forallb c_amt c_denom nd_st].
    assert ((0 <? v) = true) as -> by by apply Z.ltb_lt. cbn [andb]. cbn [MultiSpec.together]. unfold open_to.
    destruct (send_enabled params fee_denom && negb (e_blocked (be_env B) b)) eqn:Eo; cycle 1.
    { intros _. exists l. by destruct (decide _). }
    unfold b_send_coins. rewrite (sn_restr _ _ _ _ _ _ _ _ _ _ _ Hsane). cbn [restr_apply].
    pose proof (chain_move E B fee w sup fee_denom (sn_calls _ _ _ _ _ _ _ _ _ _ _ Hsane) Hden s l a b v HR Ha Hb Hv) as H.
    destruct (decide (v <= l_bal l a)) as [Hle|Hlt].
    + destruct H as (w' & -> & HR'). split; [done|]. cbn [nd_st].
      exists sup, (pay l a b v). split; [done|]. split; [|split; [|done]].
      * apply (shows_acct _ _ _ _ _ _ b) in HR'. exact HR'.
      * split; [|split; [done|by cbn]]. intros y Hy. apply Forall_inv in Hy as [Hy _]. cbn [actor] in Hy. cbn [pay l_bal].
        rewrite (bool_decide_eq_false_2 (y = a)) by done. case_bool_decide; lia.
    + destruct (k_send_coins _ _ _ _ _) as [ok w']. cbn in H. subst ok. intros _. by exists l.
Qed.
Lemma next_seq_some m a y : is_Some (m !! y) -> is_Some (next_seq m a !! y).
Proof.
  intros [v Hv]. unfold next_seq. destruct (decide (a = y)) as [->|]; [rewrite lookup_alter, Hv; by eexists|rewrite lookup_alter_ne by done; by eexists].
Qed.
Lemma counted_some m r y : is_Some (m !! y) -> is_Some (counted m r !! y).
Proof. intros H. destruct r; [by apply next_seq_some|done]. Qed.
Lemma bounded_trans r l g g1 g2 : bounded_by [r] g g1 -> bounded_by l g1 g2 -> bounded_by (r :: l) g g2.
Proof.
  intros (H1 & H2 & H3) (G1 & G2 & G3). split; [|split].
  - intros y Hy. apply Forall_cons in Hy as [Hr Hl]. etrans; [apply H1; by apply Forall_cons|by apply G1].
  - intros y Hy k. apply Forall_cons in Hy as [Hr Hl]. rewrite G2 by done. apply H2. by apply Forall_cons.
  - by etrans.
Qed.
Lemma all_steps x ms acts : Forall2 means ms acts -> Forall code_ok acts -> forall sup s l accs, shows E fee w sup s l ->
  (forall y r, r ∈ acts -> is_call_by y r = true -> is_Some (accs !! y)) ->
  match exec_all x ms (Node s accs) with
  | MsgPanic => (together acts l).1.1 <> CatchesFailure -> (together acts l).1.1 = PaysBlocked
  | MsgErr => (together acts l).1.1 <> CatchesFailure -> exists l', together acts l = (Told, false, l')
  | MsgOk n' => nd_accs n' = fold_left counted acts accs /\ exists sup' l', sup' <= sup /\ shows E fee w sup' (nd_st n') l' /\ bounded_by acts l l' /\
      ((together acts l).1.1 <> CatchesFailure -> sup' = sup /\ together acts l = (Told, true, l'))
  end.
Proof.
  induction 1 as [|m r ms acts Hm Hms IH]; intros Hp sup s l accs HR Hacc; cbn [MultiMsg.exec_all].
  - split; [done|]. exists sup, l. split; [done|]. split; [done|]. split; [|done]. split; [done|]. split; done.
  - apply Forall_cons in Hp as [Hp Hps].
    pose proof (msg_step x m r sup s l accs Hm Hp HR) as H1. specialize (H1 ltac:(intros y Hy; apply (Hacc y r); [by left|done])).
    rewrite together_cons. destruct (exec_msg x m (Node s accs)) as [| |[s1 accs1]].
    + intros Hs. destruct (together [r] l) as [[[| |] [|]] l1]; cbn in *; try done; by specialize (H1 ltac:(done)).
    + intros Hs. destruct (together [r] l) as [[[| |] [|]] l1]; cbn in *; try done.
      all: try by destruct (H1 ltac:(done)) as (? & ?). by exists l1.
    + destruct H1 as (Ha1 & sup1 & l1 & Hle1 & HR1 & Hb1 & Ht1). cbn [nd_accs] in Ha1. subst accs1. cbn [nd_st] in HR1.
      pose proof (IH Hps sup1 s1 l1 (counted accs r) HR1) as H2.
      specialize (H2 ltac:(intros y r' Hr' Hy; apply counted_some, (Hacc y r'); [by right|done])).
      destruct (exec_all x ms _) as [| |n'].
      * destruct (together [r] l) as [[[| |] [|]] l1'] eqn:E1; cbn [fst] in *; try done.
        -- destruct (Ht1 ltac:(done)) as [_ [= <-]]. done.
        -- by destruct (Ht1 ltac:(done)) as [_ ?].
      * destruct (together [r] l) as [[[| |] [|]] l1'] eqn:E1; cbn [fst] in *; try done.
        -- destruct (Ht1 ltac:(done)) as [_ [= <-]]. done.
        -- by destruct (Ht1 ltac:(done)) as [_ ?].
        -- by destruct (Ht1 ltac:(done)) as [_ ?].
        -- by destruct (Ht1 ltac:(done)) as [_ ?].
      * destruct H2 as (Ha2 & sup2 & l2 & Hle2 & HR2 & Hb2 & Ht2). split; [done|]. exists sup2, l2. split; [lia|]. split; [done|].
        split; [by eapply bounded_trans|].
        destruct (together [r] l) as [[[| |] [|]] l1'] eqn:E1; cbn [fst] in *; intros Hs; try done.
        -- destruct (Ht1 ltac:(done)) as [-> [= <-]]. destruct (Ht2 Hs) as [-> ?]. done.
        -- by destruct (Ht1 ltac:(done)) as [_ ?].
        -- by destruct (Ht1 ltac:(done)) as [_ ?].
        -- by destruct (Ht1 ltac:(done)) as [_ ?].
Qed.
End run.

(** *** Sequences *)
Definition with_seq (v : vacc) (s : N) : vacc := VAcc (a_key v) s (a_num v).
Lemma fold_counted l : forall m y v, m !! y = Some v -> (a_seq v + calls_by y l < 2 ^ 64)%N ->
  fold_left counted l m !! y = Some (with_seq v (a_seq v + calls_by y l)).
Proof.
  induction l as [|r l IH]; intros m y v Hv Hb; cbn [fold_left].
  - rewrite Hv. unfold calls_by. cbn. rewrite N.add_0_r. by destruct v.
  - assert (Hc : calls_by y (r :: l) = ((if is_call_by y r then 1 else 0) + calls_by y l)%N).
    { unfold calls_by. cbn [List.filter]. destruct (is_call_by y r); cbn [length]; lia. }
    rewrite Hc in *. destruct r as [a to d z|a b z]; cbn [is_call_by] in *; [|by rewrite N.add_0_l in *; apply IH].
    destruct (decide (a = y)) as [->|Hne].
    + rewrite bool_decide_eq_true_2 in * by done.
      assert (Hu : u64 (a_seq v + 1) = (a_seq v + 1)%N) by (unfold u64, two64; apply N.mod_small; lia).
      rewrite (IH _ y (with_seq v (a_seq v + 1))%N).
      * cbn [with_seq a_key a_num a_seq]. unfold with_seq. cbn [a_key a_num]. f_equal. f_equal. lia.
      * cbn [counted]. unfold next_seq. rewrite lookup_alter, Hv. cbn. by rewrite Hu.
      * cbn [with_seq a_seq]. lia.
    + rewrite bool_decide_eq_false_2 in * by done. rewrite N.add_0_l in *. apply IH; [|done]. cbn [counted]. unfold next_seq. by rewrite lookup_alter_ne.
Qed.
Lemma fold_counted_none l : forall m y, calls_by y l = 0%N -> fold_left counted l m !! y = m !! y.
Proof.
  induction l as [|r l IH]; intros m y H; cbn [fold_left]; [done|].
  assert (Hr : is_call_by y r = false /\ calls_by y l = 0%N).
  { unfold calls_by in *. cbn [List.filter] in H. destruct (is_call_by y r); [by cbn in H|by split]. }
  destruct Hr as [Hr Hl]. rewrite IH by done. destruct r as [a to d z|a b z]; [|done]. cbn [is_call_by] in Hr.
  apply bool_decide_eq_false in Hr. cbn [counted]. unfold next_seq. by rewrite lookup_alter_ne.
Qed.
Lemma fold_next l : NoDup l -> forall m y, fold_left next_seq l m !! y = (if bool_decide (y ∈ l) then (fun v => with_seq v (u64 (a_seq v + 1))) <$> m !! y else m !! y).
Proof.
  induction 1 as [|a l Ha Hl IH]; intros m y; cbn [fold_left]; [by rewrite bool_decide_eq_false_2 by apply not_elem_of_nil|].
  rewrite IH. unfold next_seq. destruct (decide (y = a)) as [->|Hne].
  - rewrite bool_decide_eq_false_2 by done. rewrite bool_decide_eq_true_2 by by left. by rewrite lookup_alter.
  - rewrite lookup_alter_ne by done. case_bool_decide as H1; case_bool_decide as H2; try done.
    + exfalso. apply H2. by right.
    + exfalso. apply elem_of_cons in H2 as [->|]; done.
Qed.
Lemma fold_prev l : NoDup l -> forall m y, fold_left prev_seq l m !! y = (if bool_decide (y ∈ l) then (fun v => with_seq v (u64_sub (a_seq v) 1)) <$> m !! y else m !! y).
Proof.
  induction 1 as [|a l Ha Hl IH]; intros m y; cbn [fold_left]; [by rewrite bool_decide_eq_false_2 by apply not_elem_of_nil|].
  rewrite IH. unfold prev_seq. destruct (decide (y = a)) as [->|Hne].
  - rewrite bool_decide_eq_false_2 by done. rewrite bool_decide_eq_true_2 by by left. by rewrite lookup_alter.
  - rewrite lookup_alter_ne by done. case_bool_decide as H1; case_bool_decide as H2; try done.
    + exfalso. apply H2. by right.
    + exfalso. apply elem_of_cons in H2 as [->|]; done.
Qed.
Lemma dedup_spec {A} `{EqDecision A} (l : list A) : NoDup (Sequence.dedup l) /\ forall x, x ∈ Sequence.dedup l <-> x ∈ l.
Proof.
  induction l as [|a l [IH1 IH2]]; cbn; [split; [constructor|done]|].
  assert (Hf : forall x, x ∈ List.filter (fun y => negb (bool_decide (y = a))) (Sequence.dedup l) <-> x <> a /\ x ∈ Sequence.dedup l).
  { intros x. rewrite !elem_of_list_In, filter_In. rewrite negb_true_iff, bool_decide_eq_false. tauto. }
  split.
  - constructor.
    + rewrite Hf. tauto.
    + apply NoDup_ListNoDup, List.NoDup_filter. by apply NoDup_ListNoDup.
  - intros x. rewrite !elem_of_cons, Hf, IH2. destruct (decide (x = a)); tauto.
Qed.
Lemma calls_by_0 y l : calls_by y l <> 0%N <-> exists r, r ∈ l /\ is_call_by y r = true.
Proof.
  unfold calls_by. split.
  - intros H. destruct (List.filter (is_call_by y) l) as [|r l'] eqn:El; [done|]. exists r.
    assert (Hin : In r (List.filter (is_call_by y) l)) by (rewrite El; by left). apply filter_In in Hin as [H1 H2]. by apply elem_of_list_In in H1.
  - intros (r & H1 & H2) H0. assert (In r (List.filter (is_call_by y) l)) as Hin by (apply filter_In; by rewrite <- elem_of_list_In).
    destruct (List.filter (is_call_by y) l); done.
Qed.
Lemma callers_are x acts : sane -> Forall2 means (v_msgs x) acts ->
  exists l, callers bech_dec x = Some l /\ NoDup l /\ forall y, y ∈ l <-> calls_by y acts <> 0%N.
Proof.
  intros Hsane Hms. unfold callers.
  set (T := omap caller_text (v_msgs x)).
  assert (HT : forall s, s ∈ T <-> exists a, s = bech_enc a /\ length a = 20%nat /\ calls_by a acts <> 0%N).
  { unfold T. clear T. setoid_rewrite calls_by_0. induction Hms as [|m r ms acts Hm Hms IH]; intros s.
    - split; [by intros ?%elem_of_nil|]. by intros (? & _ & _ & ? & ?%elem_of_nil & _).
    - cbn [omap list_omap].
      destruct r as [a to d v|a b v]; cbn [means] in Hm.
      + destruct Hm as (caddr & input & al & -> & Ha & _). cbn [caller_text]. rewrite elem_of_cons, IH. split.
        * intros [->|(a' & -> & Ha' & r & Hr & Hc)].
          -- exists a. split; [done|]. split; [done|]. eexists. split; [by left|]. cbn. by apply bool_decide_eq_true_2.
          -- exists a'. split; [done|]. split; [done|]. exists r. split; [by right|done].
        * intros (a' & -> & Ha' & r & [->|Hr]%elem_of_cons & Hc).
          -- cbn in Hc. apply bool_decide_eq_true in Hc as ->. by left.
          -- right. exists a'. eauto.
      + destruct Hm as (body & -> & _). cbn [caller_text]. rewrite IH. split.
        * intros (a' & -> & Ha' & r & Hr & Hc). exists a'. split; [done|]. split; [done|]. exists r. split; [by right|done].
        * intros (a' & -> & Ha' & r & [->|Hr]%elem_of_cons & Hc); [done|]. exists a'. eauto. }
  destruct (dedup_spec T) as [Hnd Hel]. revert Hnd Hel. generalize (Sequence.dedup T) as D. intros D Hnd Hel.
  assert (HD : forall s, s ∈ D -> exists a, s = bech_enc a /\ length a = 20%nat) by (intros s Hs; apply Hel, HT in Hs as (a & ? & ? & _); eauto).
  assert (exists l, mapM bech_dec D = Some l /\ NoDup l /\ forall y, y ∈ l <-> length y = 20%nat /\ bech_enc y ∈ D) as (l & H1 & H2 & H3).
  { clear Hel HT. induction Hnd as [|s D Hs Hnd IH].
    - exists []. split; [done|]. split; [constructor|]. intros y. split; [by intros ?%elem_of_nil|by intros (_ & ?%elem_of_nil)].
    - destruct IH as (l & H1 & H2 & H3); [intros s' Hs'; apply HD; by right|].
      destruct (HD s) as (a & -> & Ha); [by left|]. exists (a :: l). cbn [mapM].
      pose proof (sn_bech _ _ _ _ _ _ _ _ _ _ _ Hsane) as Hbech. rewrite Hbech by done. cbn [mbind option_bind]. rewrite H1. split; [done|].
      split; [constructor; [|done]; by rewrite H3; intros [_ ?]|]. intros y. rewrite !elem_of_cons, H3. split.
      + intros [->|[? ?]]; tauto.
      + intros [Hy [He|?]]; [left|tauto]. apply (f_equal bech_dec) in He. rewrite !Hbech in He by done. by injection He. }
  exists l. split; [done|]. split; [done|]. intros y. rewrite H3. rewrite Hel, HT. split.
  - intros (Hy & a & He & Ha & Hc). pose proof (sn_bech _ _ _ _ _ _ _ _ _ _ _ Hsane) as Hbech.
    apply (f_equal bech_dec) in He. rewrite !Hbech in He by done. injection He as ->. done.
  - intros Hc. assert (length y = 20%nat) as Hy.
    { apply calls_by_0 in Hc as (r & Hr & Hcr). apply elem_of_list_lookup in Hr as (i & Hi).
      destruct (Forall2_lookup_r _ _ _ _ _ Hms Hi) as (m & _ & Hm). destruct r as [a to d v|]; [|done]. cbn in Hcr.
      apply bool_decide_eq_true in Hcr as <-. by destruct Hm as (? & ? & ? & _ & ? & _). }
    split; [done|]. by exists y.
Qed.

(** *** The signature decorators keep sequences and account numbers *)
Definition keyed (l : list (vsig * bytes)) (y : bytes) (v v1 : vacc) : Prop :=
  a_seq v1 = a_seq v /\ a_num v1 = a_num v /\ (a_key v <> None -> a_key v1 = a_key v) /\
  (a_key v1 = a_key v \/ exists sg, (sg, y) ∈ l /\ v_key sg = a_key v1).
Lemma keyed_more l p y v v1 : keyed l y v v1 -> keyed (p :: l) y v v1.
Proof. intros (H1 & H2 & H3 & H4). split; [done|]. split; [done|]. split; [done|]. destruct H4 as [?|(sg & ? & ?)]; [by left|]. right. exists sg. split; [by right|done]. Qed.
Lemma set_keys_facts l : forall m m1, set_keys key_addr m l = Some m1 ->
  forall y, (forall p, p ∈ l -> p.2 <> y) -> m1 !! y = m !! y.
Proof.
  induction l as [|[sg a] l IH]; intros m m1 H y Hy; cbn in H; [by injection H as <-|].
  assert (Hl : forall p, p ∈ l -> p.2 <> y) by (intros p Hp; apply Hy; by right).
  assert (Ha : a <> y) by (apply (Hy (sg, a)); by left).
  destruct (v_key sg) as [pk|]; [|by apply IH]. destruct (negb _); [done|].
  destruct (m !! a) as [acc|]; [|done]. cbn in H. destruct (a_key acc); [by apply IH|].
  rewrite (IH _ _ H y Hl). by rewrite lookup_insert_ne.
Qed.
Lemma set_keys_keyed l : forall m m1, set_keys key_addr m l = Some m1 ->
  forall y, match m !! y with Some v => exists v1, m1 !! y = Some v1 /\ keyed l y v v1 | None => m1 !! y = None end.
Proof.
  assert (Hmore : forall m m1 (l : list (vsig * bytes)) p y, match (m : vaccs) !! y with Some v => exists v1, (m1 : vaccs) !! y = Some v1 /\ keyed l y v v1 | None => m1 !! y = None end ->
     match m !! y with Some v => exists v1, m1 !! y = Some v1 /\ keyed (p :: l) y v v1 | None => m1 !! y = None end).
  { intros m m1 l' p y. destruct (m !! y); [|done]. intros (v1 & ? & ?). exists v1. split; [done|]. by apply keyed_more. }
  induction l as [|[sg a] l IH]; intros m m1 H y; cbn in H.
  { injection H as <-. destruct (m !! y) as [v|]; [|done]. exists v. split; [done|]. split; [done|]. split; [done|]. split; [done|]. by left. }
  destruct (v_key sg) as [pk|] eqn:Esg; [|apply Hmore; by apply IH]. destruct (negb _); [done|].
  destruct (m !! a) as [acc|] eqn:Ea; [|done]. cbn in H. destruct (a_key acc) eqn:Ek; [apply Hmore; by apply IH|].
  specialize (IH _ _ H y). destruct (decide (a = y)) as [->|Hne].
  - rewrite lookup_insert in IH. rewrite Ea. destruct IH as (v1 & H1 & K1 & K2 & K3 & K4). exists v1. split; [done|]. split; [done|]. split; [done|].
    split; [by rewrite Ek|]. right. destruct K4 as [K4|(sg' & K4 & K5)]; [exists sg; split; [by left|by rewrite K4]|exists sg'; split; [by right|done]].
  - rewrite lookup_insert_ne in IH by done. by apply Hmore.
Qed.
Lemma verify_all_facts m x l : verify_all keccak bech_dec recover_addr key_addr key_verify sign_bytes fee_denom decimals cid false false m x l = ROk ->
  forall sg a, (sg, a) ∈ l -> exists v, m !! a = Some v /\ v_seq sg = a_seq v /\ a_key v <> None.
Proof.
  induction l as [|[sg a] l IH]; intros H sg' a' Hin; [by apply elem_of_nil in Hin|]. cbn [verify_all] in H.
  destruct (verify_one _ _ _ _ _ _ _ _ _ _ _ _ _ _ _) eqn:E1; try done.
  apply elem_of_cons in Hin as [[= -> ->]|Hin]; [|by apply IH]. unfold verify_one in E1.
  destruct (m !! a) as [v|]; [|done]. exists v. destruct (a_key v) eqn:Ek; [|done].
  destruct (N.eqb_spec (v_seq sg) (a_seq v)); [|done]. done.
Qed.
Lemma sigs_facts m x m1 : sigs m x = Some m1 ->
  (forall y, y ∉ v_signers x -> m1 !! y = m !! y) /\
  (forall y, match m !! y with Some v => exists v1, m1 !! y = Some v1 /\ keyed (zip (v_sigs x) (v_signers x)) y v v1 | None => m1 !! y = None end) /\
  (forall i y, v_signers x !! i = Some y -> exists v sg, m1 !! y = Some v /\ v_sigs x !! i = Some sg /\ v_seq sg = a_seq v /\ a_key v <> None).
Proof.
  unfold ante_sigs. intros H. destruct (bool_decide_reflect (length (v_sigs x) = length (v_signers x))) as [Hl|]; [|done]. cbn [negb] in H.
  destruct (set_keys key_addr m _) as [m'|] eqn:Ek; [|done]. cbn [mbind option_bind] in H.
  destruct (gas_sum _ _ _ _) as [g|]; [|done]. cbn [mbind option_bind] in H. destruct (limit <? g)%N; [done|].
  destruct (verify_all _ _ _ _ _ _ _ _ _ _ _ _ _ _) eqn:Ev; try done. injection H as <-. split; [|split].
  - intros y Hy. eapply set_keys_facts; [exact Ek|]. intros [sg a] Hp Hay. cbn in Hay. subst a. apply Hy. by apply elem_of_zip_r in Hp.
  - by eapply set_keys_keyed.
  - intros i y Hi. pose proof (lookup_lt_Some _ _ _ Hi) as Hlt. rewrite <- Hl in Hlt.
    destruct (lookup_lt_is_Some_2 _ _ Hlt) as [sg Hsg].
    destruct (verify_all_facts _ _ _ Ev sg y) as (v & H1 & H2 & H3); [|by exists v, sg].
    apply elem_of_list_lookup. exists i. apply lookup_zip_with_Some. by exists sg, y.
Qed.

(** *** The transaction *)
(** A transaction of at least two messages that asks for [acts], with fee [F] in the fee
    denomination, signed by exactly those who act; the first of them pays. *)
Record packed (x : vtx) (acts : list act) (F : Z) : Prop := {
  pk_msgs : Forall2 means (v_msgs x) acts;
  pk_many : (2 <= length acts)%nat;
  pk_nodup : NoDup (v_signers x);
  pk_signers : forall y, y ∈ v_signers x <-> y ∈ map actor acts;
  pk_payer : head (v_signers x) = head (map actor acts);
  pk_fee : v_fee x = if F =? 0 then [] else [(fee_denom, F)];
  pk_amount : amount_ok F;
  pk_valid : valid_denom fee_denom = true }.
(** No signer's sequence is about to overflow. *)
Definition room (n : node) (acts : list act) : Prop :=
  forall y s, y ∈ map actor acts -> seq_of n y = Some s -> (s + calls_by y acts + 1 < 2 ^ 64)%N.
Definition payer (acts : list act) : bytes := default [] (head (map actor acts)).
(** The signatures are good for the accounts as they are (see C98). *)
Definition signatures_good (n : node) (x : vtx) : Prop := sigs (nd_accs (sync n)) x <> None.

(** As [after] (C117), for several signers. *)
Definition after_all (n : node) (who : list bytes) (l : ledger) (sup : Z) (n' : node) : Prop :=
  (forall y, balance (s_w (nd_st n')) fee y = l_bal l y) /\
  s_sto (nd_st n') = l_sto l /\ s_log (nd_st n') = l_ev l /\
  (forall k, supply (s_w (nd_st n')) k = if decide (k = fee) then sup else supply (s_w (nd_st n)) k) /\
  (forall k y, k <> fee -> balance (s_w (nd_st n')) k y = balance (s_w (nd_st n)) k y) /\
  (forall y, y ∉ who -> match acct_of n y with
                      | Some v => acct_of n' y = Some v
                      | None => acct_of n' y = None \/ exists num, acct_of n' y = Some (VAcc None 0 num)
                      end) /\
  healthy n' /\
  (forall k, has_code n' k = has_code n k).
Lemma after_all_shows n who l sup n' : healthy n -> shows E fee (s_w (nd_st n)) sup (nd_st n') l ->
  (forall y, y ∉ who -> nd_accs n' !! y = nd_accs (sync n) !! y) -> after_all n who l sup n'.
Proof.
  intros Hh HR Hacc. set (n0 := Node (nd_st n') (nd_accs (sync n))).
  pose proof (after_rebased fee_denom E fee create_addr n (Com 0 0 (Some []) 0 []) [] l n0 (s_w (nd_st n)) sup Hh) as H.
  destruct H as (A1 & A2 & A3 & A4 & A5 & A6 & A7 & A8); [by apply rebased_refl|done|done|]. unfold after_all. split_and!; try done.
  - intros y Hy. assert (He : acct_of n' y = acct_of n0 y).
    { unfold acct_of. rewrite Hacc by done. done. }
    rewrite He. clear He. unfold n0. unfold acct_of at 2 3 4. cbn [nd_accs nd_st]. rewrite sync_lookup.
    destruct (acct_of n y) as [v|] eqn:Ev; [done|]. pose proof (sh_acc _ _ _ _ _ _ HR y) as Hg.
    assert (w_accts (s_w (nd_st n)) !! y = None) as H0.
    { unfold acct_of in Ev. destruct (nd_accs n !! y); [done|]. by destruct (w_accts _ !! y). }
    rewrite H0 in Hg. destruct Hg as [-> | (num & ->)]; [by left|]. right. by exists num.
  - destruct A7 as [B1 B2]. split; done.
  - intros k. specialize (A8 k). change (has_code n' k) with (has_code n0 k). rewrite A8. rewrite bool_decide_eq_false_2; [apply orb_false_r|]. done.
Qed.

Section tx.
Context (x : vtx) (acts : list act) (F : Z) (n : node).
Hypothesis Hsane : sane.
Hypothesis Hh : healthy n.
Hypothesis Hpk : packed x acts F.
Notation w := (s_w (nd_st n)).
Notation l0 := (Ledger (balance w fee) (s_sto (nd_st n)) (s_log (nd_st n))).
Notation R := (shows E fee w (supply w fee)).
Lemma payer_head : head (v_signers x) = Some (payer acts) /\ length (payer acts) = 20%nat.
Proof.
  pose proof (pk_many _ _ _ Hpk) as Hm. rewrite (pk_payer _ _ _ Hpk). unfold payer. pose proof (pk_msgs _ _ _ Hpk) as Hms.
  destruct acts as [|r l]; [cbn in Hm; lia|]. cbn. split; [done|]. inversion Hms as [|m r' ms l' Hmr _]; subst.
  destruct r as [a to d v|a b v]; cbn in *.
  - by destruct Hmr as (? & ? & ? & _ & ? & _).
  - by destruct Hmr as (? & _ & _ & ? & _).
Qed.
Lemma no_refund_m g nd : refund key_addr fee_denom B ratio x g nd = Some nd.
Proof.
  unfold refund. assert (is_eth key_addr fee_denom x = Some false) as ->; [|done]. unfold is_eth.
  pose proof (pk_many _ _ _ Hpk) as Hm. pose proof (Forall2_length _ _ _ (pk_msgs _ _ _ Hpk)) as Hl. destruct (v_msgs x) as [|m [|]]; cbn in Hl; try lia; done.
Qed.
(** The accounts after the ante handler. *)
Definition step_back (acts : list act) (y : bytes) (v : vacc) : vacc := if (calls_by y acts =? 0)%N then with_seq v (a_seq v + 1) else v.
Lemma ante_multi :
  (v_gas x <> 0%N /\ signatures_good n x /\ F <= balance w fee (payer acts) ->
     exists w1 m1 m2, sigs (nd_accs (sync n)) x = Some m1 /\ ante x (sync n) = Some (Node (st_world w1 (nd_st n)) m2) /\
       R (st_world w1 (nd_st n)) (pay l0 (payer acts) col F) /\
       (forall y, y ∉ v_signers x -> m2 !! y = nd_accs (sync n) !! y) /\
       (room n acts -> forall y, y ∈ v_signers x -> exists v v1, acct_of n y = Some v /\ keyed (zip (v_sigs x) (v_signers x)) y v v1 /\ a_key v1 <> None /\ m2 !! y = Some (step_back acts y v1))) /\
  (~ (v_gas x <> 0%N /\ signatures_good n x /\ F <= balance w fee (payer acts)) -> ante x (sync n) = None).
Proof.
  destruct (sn_col _ _ _ _ _ _ _ _ _ _ _ Hsane) as (ps & Hcol). destruct payer_head as [Hph H20]. destruct (hy_tok _ _ _ Hh) as (tk & Ht & Hok & Hk).
  pose proof (shows_start_ok E fee w tk (s_sto (nd_st n)) (s_log (nd_st n)) Ht Hok Hk) as HR0.
  assert (HR1 : R (nd_st n) l0) by by destruct (nd_st n).
  pose proof (pay_fee_shows E B fee w (supply w fee) fee_denom (sn_calls _ _ _ _ _ _ _ _ _ _ _ Hsane) (hy_den _ _ _ Hh) col ps
     (nd_st n) l0 (payer acts) x F (sn_restr _ _ _ _ _ _ _ _ _ _ _ Hsane) Hcol (sn_col20 _ _ _ _ _ _ _ _ _ _ _ Hsane) HR1 H20 (pk_amount _ _ _ Hpk) (pk_fee _ _ _ Hpk)) as Hp.
  specialize (Hp (shows_pos E fee _ _ _ _ (payer acts) HR1)). cbn [l_bal] in Hp.
  unfold ante_m. change (nd_st (sync n)) with (nd_st n). rewrite Hph. cbn [mbind option_bind].
  destruct (callers_are x acts Hsane (pk_msgs _ _ _ Hpk)) as (L & HL & Hnd & Hel).
  unfold signatures_good. split.
  - intros (H1 & H2 & H3). destruct (N.eqb_spec (v_gas x) 0); [done|]. rewrite decide_True in Hp by done.
    destruct Hp as (w1 & -> & HR). cbn [mbind option_bind]. destruct (sigs _ x) as [m1|] eqn:Es; [|done]. clear H2. cbn [mbind option_bind].
    rewrite HL. cbn [mbind option_bind]. destruct (sigs_facts _ _ _ Es) as (S1 & S2 & S3).
    eexists w1, m1, _. split; [done|]. split; [done|]. split; [done|]. split.
    + intros y Hy. rewrite fold_prev by done. rewrite bool_decide_eq_false_2; cycle 1.
      { intros Hc. apply Hel in Hc. apply Hy. apply (pk_signers _ _ _ Hpk). apply calls_by_0 in Hc as (r & Hr & Hcr).
        apply elem_of_list_fmap. exists r. split; [|done]. destruct r; [|done]. cbn in *. by apply bool_decide_eq_true in Hcr. }
      rewrite fold_next by apply (pk_nodup _ _ _ Hpk). rewrite bool_decide_eq_false_2 by done. by apply S1.
    + intros Hroom y Hy. pose proof Hy as Hya. apply (pk_signers _ _ _ Hpk) in Hya.
      pose proof Hy as Hi. apply elem_of_list_lookup in Hi as (i & Hi). destruct (S3 i y Hi) as (v1 & sg & Hv1 & _ & _ & Hkey).
      specialize (S2 y). rewrite sync_lookup in S2. destruct (acct_of n y) as [v|] eqn:Ev; [|congruence].
      destruct S2 as (v1' & Hv1' & Hkd). rewrite Hv1 in Hv1'. injection Hv1' as <-. exists v, v1. split; [done|]. split; [done|]. split; [done|].
      assert (Hb : (a_seq v1 + calls_by y acts + 1 < 2 ^ 64)%N).
      { destruct Hkd as (-> & _). apply Hroom; [done|]. unfold seq_of. by rewrite Ev. }
      rewrite fold_prev by done. rewrite fold_next by apply (pk_nodup _ _ _ Hpk). rewrite (bool_decide_eq_true_2 (y ∈ v_signers x)) by done. rewrite Hv1. cbn [fmap option_fmap option_map].
      assert (Hu : u64 (a_seq v1 + 1) = (a_seq v1 + 1)%N) by (unfold u64, two64; apply N.mod_small; lia). rewrite Hu.
      unfold step_back. destruct (N.eqb_spec (calls_by y acts) 0) as [H0|H0].
      * rewrite bool_decide_eq_false_2 by (rewrite Hel; lia). done.
      * rewrite bool_decide_eq_true_2 by (by rewrite Hel). cbn [fmap option_fmap option_map]. unfold with_seq. cbn [a_key a_seq a_num]. destruct v1 as [kk ss nn]. cbn [a_key a_seq a_num] in *. do 2 f_equal.
        unfold u64_sub, u64, two64. change (1 mod _)%N with 1%N.
        replace (ss + 1 + _ - 1)%N with (ss + 1 * 18446744073709551616)%N by lia. rewrite N.mod_add by done. apply N.mod_small. lia.
  - intros Hn. destruct (N.eqb_spec (v_gas x) 0); [done|].
    destruct (decide (F <= balance w fee (payer acts))) as [Hle|Hlt].
    + destruct Hp as (w1 & -> & _). cbn [mbind option_bind]. destruct (sigs _ x) as [m1|] eqn:Es; [|done]. exfalso. by apply Hn.
    + by rewrite Hp.
Qed.
End tx.

(** ** C141 *)
(** Taken into the block exactly when it carries gas, the signatures are good for the accounts, and
    the first signer can pay the fee. *)
Theorem C141_included_iff x acts F n used keep :
  sane -> healthy n -> packed x acts F ->
  deliver x used keep n <> Refused <->
  v_gas x <> 0%N /\ signatures_good n x /\ F <= balance (s_w (nd_st n)) fee (payer acts).
Proof.
  intros Hsane Hh Hpk. destruct (ante_multi x acts F n Hsane Hh Hpk) as [Hyes Hno]. unfold deliver_m, run_tx_m.
  split.
  - intros H. destruct (decide (v_gas x <> 0%N)) as [H1|H1]; cycle 1.
    { rewrite Hno in H by tauto. done. }
    destruct (decide (F <= balance (s_w (nd_st n)) fee (payer acts))) as [H3|H3]; cycle 1.
    { rewrite Hno in H by tauto. done. }
    split; [done|]. split; [|done]. intros H2. rewrite Hno in H; [done|]. intros (_ & Hs & _). done.
  - intros Ha. destruct (Hyes Ha) as (w1 & m1 & m2 & _ & -> & _). destruct used; [|done].
    destruct (exec_all _ _ _); try done. by destruct (refund _ _ _ _ _ _ _).
Qed.
Notation blocked n := (is_blocked E (s_w (nd_st n))).
Notation run_of n := (together (is_blocked E (s_w (nd_st n))) (code (s_w (nd_st n))) open_to).
(** What a signer's account has become: sequence [s]; the key is known now: the one it had, or the one
    its signature brings. *)
Definition now_at (x : vtx) (n n' : node) (y : bytes) (s : N -> N) : Prop :=
  exists v v', acct_of n y = Some v /\ acct_of n' y = Some v' /\ a_seq v' = s (a_seq v) /\ a_num v' = a_num v /\
    a_key v' <> None /\ (a_key v <> None -> a_key v' = a_key v) /\
    (a_key v' = a_key v \/ exists sg, (sg, y) ∈ zip (v_sigs x) (v_signers x) /\ v_key sg = a_key v').
Lemma keyed_now x n n' y v v1 v' s : acct_of n y = Some v -> keyed (zip (v_sigs x) (v_signers x)) y v v1 -> a_key v1 <> None ->
  nd_accs n' !! y = Some v' -> a_key v' = a_key v1 -> a_num v' = a_num v1 -> a_seq v' = s (a_seq v1) -> now_at x n n' y s.
Proof.
  intros H1 (K1 & K2 & K3 & K4) H2 H3 H4 H5 H6. exists v, v'. split; [done|]. split; [by apply acct_of_accs|].
  rewrite H6, K1, H5, K2, H4. split; [done|]. split; [done|]. split; [done|]. split; [exact K3|exact K4].
Qed.
Lemma effects_multi x acts F n used keep ok n' :
  sane -> healthy n -> packed x acts F -> room n acts -> Forall (code_ok (s_w (nd_st n))) acts ->
  deliver x used keep n = Included ok n' ->
  let g := only_fee (before n) (payer acts) col F in
  if ok then exists sup l', sup <= supply (s_w (nd_st n)) fee /\ after_all n (v_signers x) l' sup n' /\
      bounded_by (s_w (nd_st n)) acts g l' /\
      (forall y, y ∈ v_signers x -> now_at x n n' y (fun s => s + N.max 1 (calls_by y acts))%N) /\
      ((run_of n acts g).1.1 <> CatchesFailure -> sup = supply (s_w (nd_st n)) fee /\ run_of n acts g = (Told, true, l'))
  else after_all n (v_signers x) g (supply (s_w (nd_st n)) fee) n' /\
      (forall y, y ∈ v_signers x -> now_at x n n' y (fun s => s + (if calls_by y acts =? 0 then 1 else 0))%N \/ now_at x n n' y (fun s => s + 1)%N) /\
      (used <> None -> forall l', run_of n acts g <> (Told, true, l')).
Proof.
  intros Hsane Hh Hpk Hroom Hcode Hd g. destruct (ante_multi x acts F n Hsane Hh Hpk) as [Hyes Hno].
  unfold deliver_m, run_tx_m in Hd. destruct (ante x (sync n)) as [n1|] eqn:Han; [|done].
  assert (Ha : v_gas x <> 0%N /\ signatures_good n x /\ F <= balance (s_w (nd_st n)) fee (payer acts)).
  { apply (C141_included_iff x acts F n used keep Hsane Hh Hpk). unfold deliver_m, run_tx_m. rewrite Han.
    destruct used; [|done]. destruct (exec_all _ _ _); try done. by destruct (refund _ _ _ _ _ _ _). }
  destruct (Hyes Ha) as (w1 & m1 & m2 & Hsg & Han' & HR1 & Hm2 & Hm2s). injection Han' as ->. specialize (Hm2s Hroom).
  change (pay (Ledger (balance (s_w (nd_st n)) fee) (s_sto (nd_st n)) (s_log (nd_st n))) (payer acts) col F) with g in HR1.
  assert (Hfail : forall n0, nd_st n0 = st_world w1 (nd_st n) -> (forall y, y ∉ v_signers x -> nd_accs n0 !! y = m2 !! y) ->
     after_all n (v_signers x) g (supply (s_w (nd_st n)) fee) n0).
  { intros n0 Hst Hac. apply after_all_shows; [done|by rewrite Hst|]. intros y Hy. rewrite Hac by done. by apply Hm2. }
  assert (Hback : forall y, y ∈ v_signers x -> now_at x n (Node (st_world w1 (nd_st n)) m2) y (fun s => s + (if calls_by y acts =? 0 then 1 else 0))%N).
  { intros y Hy. destruct (Hm2s y Hy) as (v & v1 & H1 & H2 & H3 & H4). eapply keyed_now; [exact H1|exact H2|exact H3|exact H4|..]; unfold step_back; destruct (calls_by y acts =? 0)%N; cbn; lia || done. }
  assert (Hcallers : forall y r, r ∈ acts -> is_call_by y r = true -> y ∈ v_signers x /\ calls_by y acts <> 0%N).
  { intros y r Hr Hc. split; [|apply calls_by_0; by exists r]. apply (pk_signers _ _ _ Hpk), elem_of_list_fmap. exists r. split; [|done].
    destruct r; [|done]. cbn in *. by apply bool_decide_eq_true in Hc. }
  destruct used as [gas|]; cycle 1.
  { injection Hd as <- <-. split; [by apply Hfail|]. split; [by intros y Hy; left; apply Hback|]. done. }
  destruct (hy_tok _ _ _ Hh) as (tk & Ht & _ & _).
  pose proof (all_steps (s_w (nd_st n)) Hsane (pk_valid _ _ _ Hpk) (hy_den _ _ _ Hh) (ex_intro _ tk Ht) x _ _ (pk_msgs _ _ _ Hpk) Hcode _ _ _ m2 HR1) as He.
  specialize (He ltac:(intros y r Hr Hc; destruct (Hcallers y r Hr Hc) as [Hs _]; destruct (Hm2s y Hs) as (? & ? & _ & _ & _ & ->); by eexists)).
  destruct (exec_all x (v_msgs x) _) as [| |n2].
  - injection Hd as <- <-. split; [by apply Hfail|]. split; [by intros y Hy; left; apply Hback|].
    intros _ l' Hl'. rewrite Hl' in He. by specialize (He ltac:(done)).
  - injection Hd as <- <-. split; [|split].
    + apply Hfail.
      * destruct keep; [|done]. unfold post_failed_m. by destruct (callers _ _).
      * intros y Hy. destruct keep; [|done]. unfold post_failed_m. destruct (callers_are x acts Hsane (pk_msgs _ _ _ Hpk)) as (L & -> & Hnd & Hel).
        cbn [nd_accs]. rewrite fold_next by done. rewrite bool_decide_eq_false_2; [done|]. rewrite Hel. intros (r & Hr & Hc)%calls_by_0. by destruct (Hcallers y r Hr Hc).
    + intros y Hy. destruct keep; [|left; by apply Hback]. right. unfold post_failed_m.
      destruct (callers_are x acts Hsane (pk_msgs _ _ _ Hpk)) as (L & -> & Hnd & Hel).
      destruct (Hm2s y Hy) as (v & v1 & H1 & H2 & H3 & H4).
      assert (Hb : (a_seq v1 + calls_by y acts + 1 < 2 ^ 64)%N).
      { destruct H2 as (-> & _). apply Hroom; [by apply (pk_signers _ _ _ Hpk)|]. unfold seq_of. by rewrite H1. }
      assert (Hnow : fold_left next_seq L m2 !! y = Some (with_seq v1 (a_seq v1 + 1))).
      { rewrite fold_next, H4 by done. unfold step_back. destruct (N.eqb_spec (calls_by y acts) 0) as [H0|H0].
        - rewrite bool_decide_eq_false_2 by (rewrite Hel; lia). done.
        - rewrite bool_decide_eq_true_2 by (by rewrite Hel). cbn [fmap option_fmap option_map]. do 2 f_equal. unfold u64, two64. apply N.mod_small. lia. }
      eapply keyed_now; [exact H1|exact H2|exact H3|exact Hnow|done..].
    + intros _ l' Hl'. rewrite Hl' in He. by destruct (He ltac:(done)) as (? & ?).
  - destruct He as (Hacc & sup & l' & Hsup & HR2 & Hbd & Htold). rewrite (no_refund_m x acts F Hpk) in Hd. injection Hd as <- <-.
    exists sup, l'. split; [done|]. split.
    { apply after_all_shows; [done|done|]. intros y Hy. rewrite Hacc. rewrite fold_counted_none; [by apply Hm2|].
      destruct (decide (calls_by y acts = 0%N)) as [|Hne]; [done|]. exfalso. apply calls_by_0 in Hne as (r & Hr & Hc). by destruct (Hcallers y r Hr Hc). }
    split; [done|]. split; [|done].
    intros y Hy. destruct (Hm2s y Hy) as (v & v1 & H1 & H2 & H3 & H4).
    assert (Hb : (a_seq v1 + calls_by y acts + 1 < 2 ^ 64)%N).
    { destruct H2 as (-> & _). apply Hroom; [by apply (pk_signers _ _ _ Hpk)|]. unfold seq_of. by rewrite H1. }
    assert (Hs : a_seq (step_back acts y v1) = (a_seq v1 + (if calls_by y acts =? 0 then 1 else 0))%N).
    { unfold step_back. destruct (calls_by y acts =? 0)%N; cbn; lia. }
    assert (Hnow : nd_accs n2 !! y = Some (with_seq v1 (a_seq v1 + N.max 1 (calls_by y acts)))).
    { rewrite Hacc. rewrite (fold_counted acts m2 y _ H4); rewrite Hs.
      - unfold step_back. destruct (N.eqb_spec (calls_by y acts) 0) as [H0|H0]; unfold with_seq; cbn [a_key a_num]; f_equal; f_equal; lia.
      - destruct (N.eqb_spec (calls_by y acts) 0); lia. }
    eapply keyed_now; [exact H1|exact H2|exact H3|exact Hnow|done..].
Qed.
(** All or nothing: a transaction that succeeds has done, after the fee, everything it asks for in
    order, each request starting where the one before ended; one that fails has paid its fee and
    done nothing else, and (unless it ran out of gas) what it asks for, done in order on the plain
    ledger, fails. *)
Theorem C141_effects x acts F n used keep ok n' :
  sane -> healthy n -> packed x acts F -> room n acts -> Forall (code_ok (s_w (nd_st n))) acts ->
  deliver x used keep n = Included ok n' ->
  let g := only_fee (before n) (payer acts) col F in
  if ok then
      (run_of n acts g).1.1 <> CatchesFailure ->
      exists l', run_of n acts g = (Told, true, l') /\ after_all n (v_signers x) l' (supply (s_w (nd_st n)) fee) n'
  else after_all n (v_signers x) g (supply (s_w (nd_st n)) fee) n' /\
      (used <> None -> forall l', run_of n acts g <> (Told, true, l')).
Proof.
  intros Hsane Hh Hpk Hroom Hcode Hd g.
  pose proof (effects_multi x acts F n used keep ok n' Hsane Hh Hpk Hroom Hcode Hd) as H. cbv zeta in H. fold g in H. destruct ok.
  - intros Hs. destruct H as (sup & l' & _ & Ha & _ & _ & Ht). destruct (Ht Hs) as [-> Hl]. by exists l'.
  - by destruct H as (H1 & _ & H3).
Qed.
(** Whose sequence moves, and how far: on success by one for every call (one for a signer who calls
    nothing); on failure by one at most, and by one for signers who call nothing. *)
Theorem C141_sequences x acts F n used keep ok n' y :
  sane -> healthy n -> packed x acts F -> room n acts -> Forall (code_ok (s_w (nd_st n))) acts ->
  deliver x used keep n = Included ok n' -> y ∈ map actor acts ->
  if ok then now_at x n n' y (fun s => s + N.max 1 (calls_by y acts))%N
  else now_at x n n' y (fun s => s + (if calls_by y acts =? 0 then 1 else 0))%N \/ now_at x n n' y (fun s => s + 1)%N.
Proof.
  intros Hsane Hh Hpk Hroom Hcode Hd Hy. apply (pk_signers _ _ _ Hpk) in Hy.
  pose proof (effects_multi x acts F n used keep ok n' Hsane Hh Hpk Hroom Hcode Hd) as H. cbv zeta in H. destruct ok.
  - destruct H as (sup & l' & _ & _ & _ & H & _). by apply H.
  - destruct H as (_ & H & _). by apply H.
Qed.
Theorem C141_succeeds_iff x acts F n used keep :
  sane -> healthy n -> packed x acts F -> room n acts -> Forall (code_ok (s_w (nd_st n))) acts ->
  let g := only_fee (before n) (payer acts) col F in
  (run_of n acts g).1.1 <> CatchesFailure ->
  (exists n', deliver x used keep n = Included true n') <->
  (v_gas x <> 0%N /\ signatures_good n x /\ F <= balance (s_w (nd_st n)) fee (payer acts)) /\
  used <> None /\ exists l', run_of n acts g = (Told, true, l').
Proof.
  intros Hsane Hh Hpk Hroom Hcode g Hs. pose proof (C141_included_iff x acts F n used keep Hsane Hh Hpk) as Hi. split.
  - intros (n' & Hd). split; [apply Hi; by rewrite Hd|]. split.
    + intros ->. unfold deliver_m, run_tx_m in Hd. by destruct (ante _ _).
    + pose proof (C141_effects x acts F n used keep true n' Hsane Hh Hpk Hroom Hcode Hd Hs) as (l' & Hl & _). by exists l'.
  - intros (Ha & Hu & l' & Hl). apply Hi in Ha. destruct (deliver x used keep n) as [|[|] n'] eqn:Hd; [done|by exists n'|].
    destruct (C141_effects x acts F n used keep false n' Hsane Hh Hpk Hroom Hcode Hd) as [_ H]. by destruct (H Hu l').
Qed.
(** Whatever the code does and catches: no supply grows, no other token, no other account's key or
    sequence and no code changes; who neither acts nor pays in the code does not lose, the
    collector keeps the whole fee, storage that no code run here owns is kept, no log is lost. *)
Theorem C141_any x acts F n used keep n' :
  sane -> healthy n -> packed x acts F -> room n acts -> Forall (code_ok (s_w (nd_st n))) acts ->
  deliver x used keep n = Included true n' ->
  (exists l' sup, sup <= supply (s_w (nd_st n)) fee /\ after_all n (v_signers x) l' sup n') /\
  (forall y, y <> col -> Forall (keeps (s_w (nd_st n)) y) acts -> balance (s_w (nd_st n)) fee y <= balance (s_w (nd_st n')) fee y) /\
  (Forall (keeps (s_w (nd_st n)) col) acts -> balance (s_w (nd_st n)) fee col + F <= balance (s_w (nd_st n')) fee col) /\
  (forall y, Forall (writes_not (s_w (nd_st n)) y) acts -> forall j, s_sto (nd_st n') !! (y, j) = s_sto (nd_st n) !! (y, j)) /\
  s_log (nd_st n) `prefix_of` s_log (nd_st n').
Proof.
  intros Hsane Hh Hpk Hroom Hcode Hd.
  pose proof (effects_multi x acts F n used keep true n' Hsane Hh Hpk Hroom Hcode Hd) as (sup & l' & Hsup & Ha & (B1 & B2 & B3) & _).
  assert (Hpayer : forall y, Forall (keeps (s_w (nd_st n)) y) acts -> y <> payer acts).
  { intros y Hy. pose proof (pk_many _ _ _ Hpk) as Hm. unfold payer. destruct acts as [|r l]; [cbn in Hm; lia|]. apply Forall_inv in Hy as [Hy _]. done. }
  split; [by exists l', sup|]. destruct Ha as (A1 & A2 & A3 & _). split_and!.
  - intros y Hyc Hy. specialize (B1 y Hy). rewrite A1. cbn [only_fee pay l_bal before] in B1.
    rewrite (bool_decide_eq_false_2 (y = payer acts)), (bool_decide_eq_false_2 (y = col)) in B1 by (done || by apply Hpayer).
    unfold EthDeliverProps.before in B1. cbn [l_bal] in B1. lia.
  - intros Hy. specialize (B1 col Hy). rewrite A1. cbn [only_fee pay l_bal before] in B1.
    rewrite (bool_decide_eq_false_2 (col = payer acts)), (bool_decide_eq_true_2 (col = col)) in B1 by (done || by apply Hpayer).
    unfold EthDeliverProps.before in B1. cbn [l_bal] in B1. lia.
  - intros y Hy j. rewrite A2. by apply B2.
  - rewrite A3. exact B3.
Qed.
(** A signature for another sequence than the account's is refused, whatever the transaction. *)
Lemma wrong_sequence x n used keep i y sg s : v_signers x !! i = Some y -> v_sigs x !! i = Some sg ->
  seq_of n y = Some s -> v_seq sg <> s -> deliver x used keep n = Refused.
Proof.
  intros Hy Hsg Hs Hne. unfold deliver_m, run_tx_m. assert (ante x (sync n) = None) as ->; [|done]. unfold ante_m.
  destruct (v_gas x =? 0)%N; [done|]. destruct (head (v_signers x)); [|done]. cbn [mbind option_bind].
  destruct (pay_fee _ _ _ _); [|done]. cbn [mbind option_bind]. destruct (sigs _ x) as [m1|] eqn:Es; [|done]. exfalso.
  destruct (sigs_facts _ _ _ Es) as (_ & S2 & S3). destruct (S3 i y Hy) as (v1 & sg' & H1 & H2 & H3 & _).
  rewrite Hsg in H2. injection H2 as <-. specialize (S2 y). rewrite sync_lookup in S2. unfold seq_of in Hs.
  destruct (acct_of n y) as [v|]; [|done]. destruct S2 as (v1' & H4 & (K1 & _)). rewrite H1 in H4. injection H4 as <-.
  cbn in Hs. injection Hs as Hs. congruence.
Qed.
(** The sequence a transaction is signed with. *)
Definition signed_with (x : vtx) (y : bytes) (s : N) : Prop := exists i sg, v_signers x !! i = Some y /\ v_sigs x !! i = Some sg /\ v_seq sg = s.
(** Once it has succeeded it is not taken again: not now, and not after anything that leaves the
    sequence of one of its signers where it is or further. *)
Theorem C141_once x acts F n used keep n' n2 y s s2 used2 keep2 :
  sane -> healthy n -> packed x acts F -> room n acts -> Forall (code_ok (s_w (nd_st n))) acts ->
  deliver x used keep n = Included true n' -> y ∈ map actor acts ->
  seq_of n' y = Some s -> seq_of n2 y = Some s2 -> (s <= s2)%N ->
  deliver x used2 keep2 n2 = Refused.
Proof.
  intros Hsane Hh Hpk Hroom Hcode Hd Hy Hs Hs2 Hle.
  destruct (C141_sequences x acts F n used keep true n' y Hsane Hh Hpk Hroom Hcode Hd Hy) as (v & v' & H1 & H2 & H3 & _).
  assert (Hin : deliver x used keep n <> Refused) by by rewrite Hd. apply (C141_included_iff x acts F n used keep Hsane Hh Hpk) in Hin as (_ & Hsg & _).
  unfold signatures_good in Hsg. destruct (sigs (nd_accs (sync n)) x) as [m1|] eqn:Es; [|done].
  destruct (sigs_facts _ _ _ Es) as (_ & S2 & S3).
  pose proof Hy as Hyx. apply (pk_signers _ _ _ Hpk), elem_of_list_lookup in Hyx as (i & Hi).
  destruct (S3 i y Hi) as (v1 & sg & G1 & G2 & G3 & _). specialize (S2 y). rewrite sync_lookup, H1 in S2.
  destruct S2 as (v1' & G4 & (K1 & _)). rewrite G1 in G4. injection G4 as <-.
  eapply (wrong_sequence x n2 used2 keep2 i y sg s2); [done|done|done|].
  unfold seq_of in Hs. rewrite H2 in Hs. cbn in Hs. injection Hs as Hs. lia.
Qed.
(** The expectation that a transaction uses one sequence number of each signer, so that the next one
    is signed with the next number, is false: after one in which an account makes two calls or
    more, the next number is refused. *)
Theorem C141_next_number_refuted x acts F n used keep n' y s x2 used2 keep2 :
  sane -> healthy n -> packed x acts F -> room n acts -> Forall (code_ok (s_w (nd_st n))) acts ->
  deliver x used keep n = Included true n' -> (2 <= calls_by y acts)%N -> seq_of n y = Some s ->
  signed_with x2 y (s + 1) -> deliver x2 used2 keep2 n' = Refused.
Proof.
  intros Hsane Hh Hpk Hroom Hcode Hd Hc Hs (i & sg & H1 & H2 & H3).
  assert (Hy : y ∈ map actor acts).
  { assert (calls_by y acts <> 0%N) as (r & Hr & Hcr)%calls_by_0 by lia. apply elem_of_list_fmap. exists r. split; [|done].
    destruct r; [|done]. cbn in *. by apply bool_decide_eq_true in Hcr. }
  destruct (C141_sequences x acts F n used keep true n' y Hsane Hh Hpk Hroom Hcode Hd Hy) as (v & v' & G1 & G2 & G3 & _).
  unfold seq_of in Hs. rewrite G1 in Hs. cbn in Hs. injection Hs as Hs.
  eapply (wrong_sequence x2 n' used2 keep2 i y sg (a_seq v')); [done|done|unfold seq_of; by rewrite G2|]. rewrite G3. lia.
Qed.
(** With one message, this is the transaction of C117, C120 and C139. *)
Theorem C141_single x m s used keep n a :
  v_msgs x = [m] -> match m with CCall t _ _ _ _ | CCreate t _ _ _ => t = s | _ => False end -> bech_dec s = Some a ->
  deliver x used keep n = deliver_1 x used keep n.
Proof.
  intros Hm Hs Ha. assert (Hc : callers bech_dec x = Some [a]).
  { unfold callers. rewrite Hm. destruct m; try done; cbn; rewrite Hs, Ha; done. }
  assert (Hc1 : call_senders bech_dec x = [a]) by (unfold call_senders; rewrite Hm; destruct m; try done; rewrite Hs, Ha; done).
  unfold deliver_m, EthDeliver.deliver, run_tx_m, run_tx, ante_m, EthDeliver.ante, ante_seqs, post_failed_m, post_failed.
  rewrite Hc, Hc1. cbn [mbind option_bind]. destruct (v_gas x =? 0)%N; [done|]. destruct (head (v_signers x)); [|done]. cbn [mbind option_bind].
  destruct (pay_fee _ _ _ _); [|done]. cbn [mbind option_bind]. destruct (sigs _ x) as [m1|]; [|done]. cbn [mbind option_bind].
  destruct used; [|done].
  assert (Hx : forall nd, exec_all x (v_msgs x) nd = EthDeliver.exec bech_dec E fee code_at publishers create_addr init_of x nd).
  { intros nd. rewrite Hm. cbn [MultiMsg.exec_all].
    assert (exec_msg x m nd = EthDeliver.exec bech_dec E fee code_at publishers create_addr init_of x nd) as ->.
    { destruct m; try done; unfold EthDeliver.exec; rewrite Hm; done. }
    by destruct (EthDeliver.exec _ _ _ _ _ _ _ _ _). }
  rewrite Hx. done.
Qed.
End props.

(** Alice (60, sequence 3) calls bob with 10 and again with 5, and bob (sequence 7) sends carol [v]
    of it; alice pays the fee of 21. Bob has nothing before. *)
Definition m_params : bank_params := BankParams true ∅.
Definition m_send (body : bytes) : option (option bytes * option bytes * list coin) :=
  match body with [v] => Some (Some x_bob, Some x_carol, [Coin x_stake (Z.of_N v)]) | _ => None end.
Definition m_tx (v : N) (sa sb : N) : vtx :=
  VTx [CCall (w_benc x_alice) (address_hex w_ck x_bob) (hexutil_encode []) 10 []; COther [v];
       CCall (w_benc x_alice) (address_hex w_ck x_bob) (hexutil_encode []) 5 []] None
      [VSig (Some (KEth x_alice)) (SSingle 1 ([40; sa; 20] ++ x_alice)%N) sa; VSig (Some (KEth x_bob)) (SSingle 1 ([41; sb; 20] ++ x_bob)%N) sb]
      [(x_stake, 21)] 20 [x_alice; x_bob] [].
Definition m_acts (v : Z) : list act := [ACall x_alice x_bob [] 10; ASend x_bob x_carol v; ACall x_alice x_bob [] 5].
Definition m_node : node := Node (St x_w2 ∅ []) (<[x_bob := VAcc None 7 41]> {[ x_alice := VAcc None 3 40 ]}).
Notation m_deliver := (deliver_m w_kc w_bdec y_rec y_key k_ver k_doc x_stake 18 [] 1000 500 10000
                       x_env (x_bank None) x_stake_at (fun _ _ => PStop) dec_one [] y_create (fun _ _ => PStop) m_params m_send).
Lemma m_packed v sa sb : (v = 4 \/ v = 12)%N -> packed w_benc w_bdec x_stake m_send (m_tx v sa sb) (m_acts (Z.of_N v)) 21.
Proof.
  assert (Hcall : forall z, amount_ok z -> means w_benc w_bdec x_stake m_send (CCall (w_benc x_alice) (address_hex w_ck x_bob) (hexutil_encode []) z []) (ACall x_alice x_bob [] z)).
  { intros z Hz. eexists _, _, _. split; [reflexivity|]. split; [done|]. split; [split; [done|]; repeat constructor; cbn; lia|]. split; [by vm_compute|]. split; [by vm_compute|done]. }
  intros Hv. split.
  - repeat constructor; try by apply Hcall. eexists. split; [reflexivity|]. cbn [m_send]. split; [done|]. split; [done|]. split; [done|].
    destruct Hv as [-> | ->]; done.
  - cbn. lia.
  - cbn [v_signers m_tx]. apply NoDup_cons_2; [|apply NoDup_singleton]. by intros ?%elem_of_list_singleton.
  - intros y. cbn. rewrite !elem_of_cons, !elem_of_nil. tauto.
  - done.
  - done.
  - done.
  - by vm_compute.
Qed.
Lemma m_healthy : healthy x_stake x_stake_at m_node.
Proof. destruct y_healthy. by split. Qed.
Example C141_example :
  sane w_benc w_bdec y_rec 18 1000 10000 x_env (x_bank None) x_stake_at dec_one x_collector /\
  healthy x_stake x_stake_at m_node /\ packed w_benc w_bdec x_stake m_send (m_tx 4 3 7) (m_acts 4) 21 /\ room m_node (m_acts 4) /\
  Forall (code_ok (fun _ _ => PStop) (s_w (nd_st m_node))) (m_acts 4) /\
  match m_deliver (m_tx 4 3 7) (Some 15%N) false m_node with
  | Included true n' =>
      balance (s_w (nd_st n')) x_stake_at x_alice = 24 /\ balance (s_w (nd_st n')) x_stake_at x_bob = 11 /\
      balance (s_w (nd_st n')) x_stake_at x_carol = 4 /\ balance (s_w (nd_st n')) x_stake_at x_collector = 21 /\
      seq_of n' x_alice = Some 5%N /\ seq_of n' x_bob = Some 8%N /\
      (* not again, and alice's next number is not 4 *)
      m_deliver (m_tx 4 3 7) (Some 15%N) false n' = Refused /\ m_deliver (m_tx 4 4 8) (Some 15%N) false n' = Refused /\
      included (m_deliver (m_tx 4 5 8) (Some 15%N) false n') = true
  | _ => False
  end /\
  (* bob has 10 when he is to send 12: nothing happens but the fee *)
  match m_deliver (m_tx 12 3 7) (Some 15%N) true m_node with
  | Included false n' =>
      balance (s_w (nd_st n')) x_stake_at x_alice = 39 /\ balance (s_w (nd_st n')) x_stake_at x_bob = 0 /\
      balance (s_w (nd_st n')) x_stake_at x_carol = 0 /\ seq_of n' x_alice = Some 4%N /\ seq_of n' x_bob = Some 8%N
  | _ => False
  end.
Proof.
  split; [exact y_sane|]. split; [exact m_healthy|]. split; [apply (m_packed 4 3 7); by left|]. split; [|split].
  - intros y s Hy Hs. cbn in Hy. rewrite !elem_of_cons, elem_of_nil in Hy. destruct Hy as [->|[->|[->|[]]]]; vm_compute in Hs; injection Hs as <-; vm_compute; done.
  - apply Forall_forall. intros r _. destruct r as [a to d v|a b v]; [|exact I]. unfold code_ok, code. destruct (w_code (s_w (nd_st m_node)) !! to); exact I.
  - vm_compute. done.
Qed.
