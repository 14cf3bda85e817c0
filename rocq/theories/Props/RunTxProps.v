(** C100, C101: what is left of a transaction however it ends. *)
From Verif.Base Require Import Prelude Hex.
From Verif.Model Require Import Sequence RunTx EthTx SigVerify.
From Verif.Spec Require Import SequenceSpec.
From Verif.Proofs Require Import SequenceP.
From Verif.Props Require Import SequenceProps.
Local Open Scope Z_scope.

Section props.
(** The address codec; nothing is assumed about it. *)
Variable decode : string -> bytes.
Notation deliver := (deliver decode).
Notation run_tx := (run_tx decode).
Notation run_again := (run_again decode).

(** ** C100 *)
(** A transaction without EVM messages uses up the sequence of every signer however it ends:
    success, error, panic, refund failure, full block. *)
Theorem C100_cosmos_transactions st bal t payer fee e st' bal' b :
  (forall m, m ∈ t_msgs t -> evm_sender m = None) ->
  (forall extras, en_msgs e = MsgsOk extras -> length extras = length (t_msgs t)) ->
  run_tx st bal t payer fee e = Some (st', bal') -> b ∈ signers decode t ->
  seqv st b + 1 <= seqv st' b.
Proof.
  intros Hno Hfit Hr Hb. unfold RunTx.run_tx in Hr. destruct (balv bal payer <? fee); [done|].
  destruct (deliver st t (outcome_of e)) as [[s1 ds]|] eqn:Hd; [|done]. injection Hr as -> _.
  assert (Ho : omap evm_sender (t_msgs t) = []).
  { revert Hno. generalize (t_msgs t) as l. induction l as [|m l IH]; intros Hno; [done|]. cbn. rewrite (Hno m (elem_of_list_here _ _)). apply IH. intros m' Hm'. apply Hno. right. done. }
  assert (H20 : senders20 decode t). { intros m s Hm Hs. rewrite (Hno m Hm) in Hs. done. }
  assert (Hc : canonical decode t). { intros s s' Hs. rewrite Ho in Hs. inversion Hs. }
  assert (Hf : outcome_fits t (outcome_of e)).
  { unfold outcome_of. destruct (en_msgs e) as [ex| |] eqn:E; try done. destruct (en_refund e); try done. destruct (en_block e); try done. cbn. auto. }
  pose proof (C20_delivered_exact decode st t (outcome_of e) st' ds b H20 Hc Hf Hd) as H. cbn zeta in H. specialize (H Hb).
  rewrite Ho in H. cbn in H. rewrite H. destruct (outcome_of e) as [ex|[]]; [|lia|case_decide; [lia|done]].
  pose proof (count_nonneg b (map eff_addr (concat ex))). lia.
Qed.
(** An EVM message from an ordinary account: its sequence advances if and only if the
    messages ended in an error the post handler could repair, or everything, the refund and
    the block gas included, succeeded. *)
Theorem C100_evm_exact st bal m s q payer fee e st' bal' :
  evm_sender m = Some s -> length (decode s) = 20%nat ->
  match en_msgs e with MsgsOk [ex] => decode s ∉ map eff_addr ex | MsgsOk _ => False | _ => True end ->
  run_tx st bal (Tx [m] None [q]) payer fee e = Some (st', bal') ->
  seqv st' (decode s) =
    match en_msgs e, en_refund e with
    | MsgsOk _, RefundDone _ => if en_block e then q + 1 else q
    | MsgsOk _, _ => q
    | MsgsError, _ => if en_keep e then q + 1 else q
    | MsgsPanic, _ => q
    end.
Proof.
  intros Hm H20 Hex Hr. unfold RunTx.run_tx in Hr. destruct (balv bal payer <? fee); [done|].
  destruct (deliver st (Tx [m] None [q]) (outcome_of e)) as [[s1 ds]|] eqn:Hd; [|done]. injection Hr as -> _.
  assert (Hnot : outcome_of e = Failed false -> seqv st' (decode s) = q).
  { intros Ho. rewrite Ho in Hd.
    assert (Hc : canonical decode (Tx [m] None [q])).
    { intros x x' Hx Hx' _. cbn in Hx, Hx'. rewrite Hm in Hx, Hx'. apply elem_of_list_singleton in Hx, Hx'. congruence. }
    assert (H2 : senders20 decode (Tx [m] None [q])).
    { intros m' x Hm' Hx. cbn in Hm'. apply elem_of_list_singleton in Hm'. subst m'. rewrite Hm in Hx. injection Hx as <-. done. }
    assert (Hs : signers decode (Tx [m] None [q]) = [decode s]) by (destruct m; cbn in *; try done; injection Hm as ->; done).
    pose proof (C20_delivered_exact decode st _ (Failed false) st' ds (decode s) H2 Hc I Hd) as H. cbn zeta in H.
    rewrite Hs in H. specialize (H (elem_of_list_here _ _)). cbn [t_msgs omap list_omap] in H. rewrite Hm in H. cbn [map] in H.
    assert (Hk : count (decode s) [decode s] <> 0).
    { assert (1 <= count (decode s) [decode s]) by (apply count_pos; left). lia. }
    rewrite decide_False in H by exact Hk.
    assert (Hok : sigs_ok decode st (Tx [m] None [q]) = true) by (unfold Sequence.deliver, ante in Hd; destruct (sigs_ok decode st _); done).
    destruct (sigs_ok_first decode st _ (decode s) Hok) as (q' & Hq & Hst); [rewrite Hs; done|]. cbn in Hq. injection Hq as <-.
    unfold seqv at 2 in H. rewrite Hst in H. cbn in H. lia. }
  unfold outcome_of in *. destruct (en_msgs e) as [ex| |]; [|destruct (en_keep e)|]; try (apply Hnot; done).
  - destruct (en_refund e); try (apply Hnot; done). destruct (en_block e); [|apply Hnot; done].
    destruct ex as [|ex [|]]; try done. apply (C20_single_message_success decode st m s ex q st' ds); done.
  - apply (C20_single_message_failure decode st m s q st' ds); done.
Qed.
(** So "an included transaction cannot be included again" is refuted. Whenever the messages
    panic, the refund fails or the block is full, the same signed transaction is accepted
    again, as often as the payer's balance allows, and every time the fee is taken. *)
Definition leaves_sequence (e : ending) : Prop :=
  en_msgs e = MsgsPanic \/
  exists ex, en_msgs e = MsgsOk ex /\ (en_refund e = RefundError \/ en_refund e = RefundPanic \/ en_block e = false).
Theorem C100_replay_refuted s payer fee e n st bal q funds :
  leaves_sequence e -> 0 <= fee -> st !! decode s = Some q -> bal !! payer = Some funds -> Z.of_nat n * fee <= funds ->
  exists st' bal', run_again n st bal (Tx [MCall s] None [q]) payer fee e = Some (st', bal') /\
    st' !! decode s = Some q /\ bal' !! payer = Some (funds - Z.of_nat n * fee).
Proof.
  intros He Hfee. assert (Ho : outcome_of e = Failed false /\ refunded e = 0).
  { unfold outcome_of, refunded. destruct He as [->|(ex & -> & [->|[->| ->]])]; try done. destruct (en_refund e); done. }
  destruct Ho as [Ho Hz]. revert st bal funds. induction n as [|n IH]; intros st bal funds Hq Hp Hb.
  - exists st, bal. cbn [RunTx.run_again]. split; [done|]. split; [done|]. rewrite Hp. f_equal. lia.
  - cbn [RunTx.run_again]. unfold RunTx.run_tx. assert (Hv : balv bal payer = funds) by (unfold balv; by rewrite Hp). rewrite Hv.
    destruct (Z.ltb_spec funds fee); [lia|]. rewrite Ho, Hz.
    assert (Hd : exists st1, deliver st (Tx [MCall s] None [q]) (Failed false) = Some (st1, []) /\ st1 !! decode s = Some q).
    { unfold Sequence.deliver, ante, sigs_ok. cbn. rewrite Hq. cbn. rewrite Z.eqb_refl. cbn. eexists. split; [done|].
      unfold increment. cbn. rewrite lookup_bump, decide_True by done. rewrite seqv_bump, decide_True by done. unfold seqv. rewrite Hq. cbn. f_equal. lia. }
    destruct Hd as (st1 & -> & Hq1).
    destruct (IH st1 (<[payer := funds - fee + 0]> bal) (funds - fee + 0) Hq1) as (st' & bal' & Hr & Hq' & Hb'); [by rewrite lookup_insert|lia|].
    exists st', bal'. split; [done|]. split; [done|]. rewrite Hb'. f_equal. lia.
Qed.
(** Worse, with two spellings of one address (bech32 also has an all-upper-case one): a
    transaction that succeeded is included a second time, because one in between, ended by a
    panic (out of gas), puts the sequence back. *)
Theorem C100_earlier_replay_refuted s s' q st bal payer fee r funds :
  s <> s' -> decode s = decode s' -> 0 <= fee -> 0 <= r -> st !! decode s = Some q -> bal !! payer = Some funds -> 3 * fee <= funds ->
  let first := Tx [MCall s] None [q] in
  let winding := Tx [MCall s; MCall s'] None [q + 1] in
  let success := Ending (MsgsOk [[]]) (RefundDone r) true true in
  exists st1 bal1 st2 bal2 st3 bal3,
    run_tx st bal first payer fee success = Some (st1, bal1) /\ st1 !! decode s = Some (q + 1) /\
    run_tx st1 bal1 winding payer fee (Ending MsgsPanic (RefundDone 0) true true) = Some (st2, bal2) /\ st2 !! decode s = Some q /\
    run_tx st2 bal2 first payer fee success = Some (st3, bal3) /\ st3 !! decode s = Some (q + 1).
Proof.
  intros Hss Hd Hfee Hr0 Hq Hp Hb. cbn zeta.
  assert (D1 : forall t, t !! decode s = Some q -> exists t1, deliver t (Tx [MCall s] None [q]) (Succeeded [[]]) = Some (t1, []) /\ t1 !! decode s = Some (q + 1)).
  { intros t Ht. unfold Sequence.deliver, ante, sigs_ok. cbn. rewrite Ht. cbn. rewrite Z.eqb_refl. cbn. eexists. split; [reflexivity|].
    unfold increment. cbn. rewrite !lookup_bump, !decide_True by done. rewrite !seqv_bump, !decide_True by done. unfold seqv. rewrite Ht. cbn. f_equal. lia. }
  assert (Hs : signers decode (Tx [MCall s; MCall s'] None [q + 1]) = [decode s]).
  { unfold signers. cbn. rewrite <- Hd. rewrite bool_decide_eq_true_2 by done. done. }
  assert (He : evm_senders (Tx [MCall s; MCall s'] None [q + 1]) = [s; s']).
  { unfold evm_senders. cbn. rewrite bool_decide_eq_false_2 by congruence. done. }
  assert (D2 : forall t, t !! decode s = Some (q + 1) -> exists t1, deliver t (Tx [MCall s; MCall s'] None [q + 1]) (Failed false) = Some (t1, []) /\ t1 !! decode s = Some q).
  { intros t Ht. unfold Sequence.deliver, ante, sigs_ok, increment. rewrite Hs, He. cbn. rewrite Ht. cbn. rewrite Z.eqb_refl. cbn. eexists. split; [reflexivity|].
    rewrite <- Hd. rewrite !lookup_bump, !decide_True by done. rewrite !seqv_bump, !decide_True by done. unfold seqv. rewrite Ht. cbn. f_equal. lia. }
  destruct (D1 st Hq) as (st1 & E1 & Q1). destruct (D2 st1 Q1) as (st2 & E2 & Q2). destruct (D1 st2 Q2) as (st3 & E3 & Q3).
  assert (Hv : balv bal payer = funds) by (unfold balv; by rewrite Hp).
  exists st1, (<[payer := funds - fee + r]> bal), st2, (<[payer := funds - fee + r - fee + 0]> (<[payer := funds - fee + r]> bal)), st3. eexists.
  unfold RunTx.run_tx, outcome_of, refunded. cbn [en_msgs en_refund en_block en_keep].
  assert (Hv1 : balv (<[payer:=funds - fee + r]> bal) payer = funds - fee + r) by (unfold balv; by rewrite lookup_insert).
  assert (Hv2 : balv (<[payer := funds - fee + r - fee + 0]> (<[payer := funds - fee + r]> bal)) payer = funds - fee + r - fee + 0) by (unfold balv; by rewrite lookup_insert).
  rewrite Hv. destruct (Z.ltb_spec funds fee); [lia|]. rewrite E1. split; [reflexivity|]. split; [exact Q1|].
  rewrite Hv1. destruct (Z.ltb_spec (funds - fee + r) fee); [lia|]. rewrite E2. split; [reflexivity|]. split; [exact Q2|].
  rewrite Hv2. destruct (Z.ltb_spec (funds - fee + r - fee + 0) fee); [lia|]. rewrite E3. split; [reflexivity|]. exact Q3.
Qed.
(** What remains: over histories in which no transaction ends in one of those ways, no
    transaction is included twice. [runs]: included transactions with their endings. *)
Inductive runs (P : ending -> Prop) : seqs -> balances -> seqs -> balances -> Prop :=
| runs_nil st bal : runs P st bal st bal
| runs_step st bal t payer fee e st1 bal1 st2 bal2 :
    P e -> senders20 decode t -> (forall extras, en_msgs e = MsgsOk extras -> length extras = length (t_msgs t)) ->
    run_tx st bal t payer fee e = Some (st1, bal1) -> runs P st1 bal1 st2 bal2 -> runs P st bal st2 bal2.
Definition repaired (e : ending) : Prop :=
  match en_msgs e with
  | MsgsPanic => False
  | MsgsError => en_keep e = true
  | MsgsOk _ => en_block e = true /\ exists n, en_refund e = RefundDone n
  end.
Lemma repaired_outcome e : repaired e -> outcome_of e <> Failed false.
Proof.
  unfold repaired, outcome_of. destruct (en_msgs e); [|intros ->; done|done]. intros [-> [n ->]]. done.
Qed.
Lemma runs_hist st bal st' bal' : runs repaired st bal st' bal' -> exists ds, hist decode (senders20 decode) st st' ds.
Proof.
  induction 1 as [st bal|st bal t payer fee e st1 bal1 st2 bal2 Hp H20 Hf Hr _ [ds IH]]; [exists []; constructor|].
  unfold RunTx.run_tx in Hr. destruct (balv bal payer <? fee); [done|]. destruct (deliver st t (outcome_of e)) as [[s1 d1]|] eqn:Hd; [|done].
  injection Hr as -> _. exists (d1 ++ ds). econstructor; [done| |apply repaired_outcome; done|done|done].
  unfold outcome_of. destruct (en_msgs e); try done. destruct (en_refund e); try done. destruct (en_block e); try done. cbn. auto.
Qed.
Theorem C100_no_replay_partial st bal t payer fee e st1 bal1 st2 bal2 :
  repaired e -> senders20 decode t -> signers decode t <> [] ->
  (forall extras, en_msgs e = MsgsOk extras -> length extras = length (t_msgs t)) ->
  run_tx st bal t payer fee e = Some (st1, bal1) -> runs repaired st1 bal1 st2 bal2 ->
  forall bal3 payer' fee' e', run_tx st2 bal3 t payer' fee' e' = None.
Proof.
  intros Hp H20 Hne Hf Hr Hh bal3 payer' fee' e'. destruct (runs_hist _ _ _ _ Hh) as [ds Hh'].
  unfold RunTx.run_tx in Hr. destruct (balv bal payer <? fee); [done|]. destruct (deliver st t (outcome_of e)) as [[s1 d1]|] eqn:Hd; [|done].
  injection Hr as -> _. unfold RunTx.run_tx. destruct (balv bal3 payer' <? fee'); [done|].
  assert (Hfit : outcome_fits t (outcome_of e)).
  { unfold outcome_of. destruct (en_msgs e) as [ex| |] eqn:E; try done. destruct (en_refund e); try done. destruct (en_block e); try done. cbn. auto. }
  destruct (C21_no_replay_partial decode st t (outcome_of e) st1 d1 st2 ds H20 Hfit (repaired_outcome e Hp) Hne Hd Hh' (outcome_of e')) as [-> _]. done.
Qed.
(** ** C101 *)
(** Fees: whatever the ending, an included transaction costs the payer the fee less the
    refund, nobody else's balance is touched by fee handling, and a transaction whose payer
    cannot pay is not included. *)
Theorem C101_fee_always_paid st bal t payer fee e st' bal' :
  run_tx st bal t payer fee e = Some (st', bal') ->
  fee <= balv bal payer /\ balv bal' payer = balv bal payer - fee + refunded e /\
  (forall b, b <> payer -> balv bal' b = balv bal b) /\
  (refunded e <> 0 -> exists ex n, en_msgs e = MsgsOk ex /\ en_refund e = RefundDone n /\ en_block e = true /\ refunded e = n).
Proof.
  unfold RunTx.run_tx. destruct (Z.ltb_spec (balv bal payer) fee); [done|]. destruct (deliver st t (outcome_of e)) as [[s1 ds]|]; [|done].
  intros [= <- <-]. split; [lia|]. split; [unfold balv at 1; rewrite lookup_insert; done|]. split.
  - intros b Hb. unfold balv. rewrite lookup_insert_ne by done. done.
  - unfold refunded. destruct (en_msgs e) as [ex| |]; try done. destruct (en_refund e) as [n| |]; try done. destruct (en_block e); [|done]. eauto 10.
Qed.
End props.

(** The refund panics exactly for a single call or creation message with metadata in the memo
    and one signature without a key, paid in the fee denomination or not at all: such a
    transaction, valid in any Cosmos sign mode (C98, C99), always fails after paying and can
    be repeated by anyone. *)
Theorem C100_refund_panics_iff key_addr fee_denom x :
  is_eth key_addr fee_denom x = None <->
  exists m md sg, v_msgs x = [m] /\ v_memo x = Some md /\ v_sigs x = [sg] /\ v_key sg = None /\
    match m with CCall _ _ _ _ _ | CCreate _ _ _ _ => True | _ => False end /\
    (v_fee x = [] \/ exists amount rest, v_fee x = (fee_denom, amount) :: rest).
Proof.
  unfold is_eth. split.
  - destruct (v_msgs x) as [|m [|]]; try done. destruct (v_memo x) as [md|]; [|done]. destruct (v_sigs x) as [|sg [|]]; try done.
    destruct (fee_ok fee_denom x) eqn:Ef; cbn [negb]; [|done]. intros Hx. exists m, md, sg.
    assert (Hfee : v_fee x = [] \/ exists amount rest, v_fee x = (fee_denom, amount) :: rest).
    { unfold fee_ok in Ef. destruct (v_fee x) as [|[d am] rest]; [left; done|right]. apply bool_decide_eq_true in Ef. subst d. eauto. }
    destruct m; try done; destruct (v_key sg); try done.
  - intros (m & md & sg & -> & -> & -> & Hk & Hm & Hf). rewrite Hk.
    assert (fee_ok fee_denom x = true) as ->.
    { unfold fee_ok. destruct Hf as [->|(am & rest & ->)]; [done|]. apply bool_decide_eq_true. done. }
    destruct m; done.
Qed.
(** A concrete case: a call that runs out of gas, included three times; 300 of 1000 paid,
    sequence still 7. And one that fails with an error: included once, refused after. *)
Definition ex_decode (s : string) : bytes := replicate 20 1%N.
Example C100_example :
  let st := {[ replicate 20 1%N := 7 ]} : seqs in let bal := {[ [9%N] := 1000 ]} : balances in
  let t := Tx [MCall "a"] None [7] in
  let oog := Ending MsgsPanic (RefundDone 0) true true in
  let err := Ending MsgsError (RefundDone 0) true true in
  match run_again ex_decode 3 st bal t [9%N] 100 oog with
  | Some (st', bal') => seqv st' (replicate 20 1%N) = 7 /\ balv bal' [9%N] = 700
  | None => False
  end /\
  is_Some (run_again ex_decode 1 st bal t [9%N] 100 err) /\ run_again ex_decode 2 st bal t [9%N] 100 err = None.
Proof. vm_compute. split; [done|]. split; [eauto|done]. Qed.
(** A call that succeeds gets 30 of its fee of 100 back; one that runs out of gas nothing. *)
Example C101_example :
  let st := {[ replicate 20 1%N := 7 ]} : seqs in let bal := {[ [9%N] := 1000 ]} : balances in
  let t := Tx [MCall "a"] None [7] in
  match run_tx ex_decode st bal t [9%N] 100 (Ending (MsgsOk [[]]) (RefundDone 30) true true) with
  | Some (st', bal') => balv bal' [9%N] = 930
  | None => False
  end /\
  match run_tx ex_decode st bal t [9%N] 100 (Ending MsgsPanic (RefundDone 30) true true) with
  | Some (st', bal') => balv bal' [9%N] = 900
  | None => False
  end.
Proof. vm_compute. auto. Qed.
