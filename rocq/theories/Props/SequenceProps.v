(** C20, C21, C57: account sequences, replay, deployment nonces. *)
From Verif.Base Require Import Prelude.
From Verif.Model Require Import Sequence.
From Verif.Spec Require Import SequenceSpec.
From Verif.Proofs Require Import SequenceP.
Local Open Scope Z_scope.

Section props.
(** The address codec; nothing is assumed about it. *)
Variable decode : string -> bytes.

(** ** C20 *)
(** A delivered transaction with one EVM message from an ordinary (20-byte) account [s],
    whose execution does not itself create contracts from [s] or send messages of [s]
    ([ex] lists what it does to sequences): the sequence advances by exactly one when it
    succeeds, and by exactly one when it fails (with the writes of the post handler kept). *)
Theorem C20_single_message_success st m s ex q st' ds :
  evm_sender m = Some s -> length (decode s) = 20%nat -> decode s ∉ map eff_addr ex ->
  deliver decode st (Tx [m] None [q]) (Succeeded [ex]) = Some (st', ds) ->
  st !! decode s = Some q /\ seqv st' (decode s) = q + 1.
Proof.
  intros Hm H20 Hex Hd.
  pose proof (deliver_seq decode st (Tx [m] None [q]) (Succeeded [ex]) st' ds (decode s) eq_refl Hd) as H.
  assert (Hs : signers decode (Tx [m] None [q]) = [decode s]) by (destruct m; cbn in *; try done; injection Hm as ->; done).
  assert (He : evm_senders (Tx [m] None [q]) = [s]) by (destruct m; cbn in *; try done; injection Hm as ->; done).
  assert (Ho : concat (map (own decode) [m]) = [decode s]).
  { destruct m; cbn in *; try done; injection Hm as ->; unfold evm_addr; try rewrite decide_True by done; done. }
  cbn [t_msgs] in H. rewrite Hs, He, Ho in H. cbn in H. rewrite app_nil_r in H. rewrite (count_zero _ _ Hex) in H.
  rewrite !decide_True in H by done.
  assert (Hok : sigs_ok decode st (Tx [m] None [q]) = true).
  { unfold deliver, ante in Hd. destruct (sigs_ok decode st _); done. }
  destruct (sigs_ok_first decode st _ (decode s) Hok) as (q' & Hq & Hst); [rewrite Hs; done|].
  cbn in Hq. injection Hq as <-. split; [done|]. unfold seqv at 2 in H. rewrite Hst in H. cbn in H. lia.
Qed.
Theorem C20_single_message_failure st m s q st' ds :
  evm_sender m = Some s ->
  deliver decode st (Tx [m] None [q]) (Failed true) = Some (st', ds) ->
  st !! decode s = Some q /\ seqv st' (decode s) = q + 1 /\ ds = [].
Proof.
  intros Hm Hd.
  pose proof (deliver_seq decode st (Tx [m] None [q]) (Failed true) st' ds (decode s) I Hd) as H.
  assert (Hs : signers decode (Tx [m] None [q]) = [decode s]) by (destruct m; cbn in *; try done; injection Hm as ->; done).
  rewrite Hs in H. cbn in H. rewrite decide_True in H by done.
  assert (Hok : sigs_ok decode st (Tx [m] None [q]) = true).
  { unfold deliver, ante in Hd. destruct (sigs_ok decode st _); done. }
  destruct (sigs_ok_first decode st _ (decode s) Hok) as (q' & Hq & Hst); [rewrite Hs; done|].
  cbn in Hq. injection Hq as <-. split; [done|].
  unfold deliver in Hd. destruct (ante _ _ _ _); [|done]. injection Hd as _ <-.
  split; [|done]. unfold seqv at 2 in H. rewrite Hst in H. cbn in H. lia.
Qed.
(** Nobody else's sequence moves. *)
Theorem C20_others_unchanged st m s q o st' ds b :
  evm_sender m = Some s -> length (decode s) = 20%nat -> b <> decode s ->
  match o with Succeeded [ex] => b ∉ map eff_addr ex | Succeeded _ => False | Failed _ => True end ->
  deliver decode st (Tx [m] None [q]) o = Some (st', ds) -> seqv st' b = seqv st b.
Proof.
  intros Hm H20 Hb Ho Hd.
  assert (Hf : outcome_fits (Tx [m] None [q]) o) by (destruct o as [[|? [|]]|]; done).
  pose proof (deliver_seq decode st (Tx [m] None [q]) o st' ds b Hf Hd) as H.
  assert (Hs : signers decode (Tx [m] None [q]) = [decode s]) by (destruct m; cbn in *; try done; injection Hm as ->; done).
  assert (He : evm_senders (Tx [m] None [q]) = [s]) by (destruct m; cbn in *; try done; injection Hm as ->; done).
  assert (Hw : concat (map (own decode) [m]) = [decode s]).
  { destruct m; cbn in *; try done; injection Hm as ->; unfold evm_addr; try rewrite decide_True by done; done. }
  cbn [t_msgs] in H. rewrite Hs, He, Hw in H. cbn in H. rewrite decide_False in H by done.
  destruct o as [[|ex [|]]|[]]; try done; [|lia|lia].
  cbn in H. rewrite app_nil_r, (count_zero _ _ Ho) in H. lia.
Qed.
(** Any transaction, any signers, any number of messages: in CheckTx every signer advances
    by exactly one, and nobody else moves. *)
Theorem C20_check_tx st t st' b :
  check_tx decode st t = Some st' ->
  seqv st' b = seqv st b + if decide (b ∈ signers decode t) then 1 else 0.
Proof.
  unfold check_tx, ante. destruct (sigs_ok decode st t); [|done]. intros [= <-]. unfold increment.
  rewrite seqv_bumps. rewrite (count_nodup b (signers decode t)) by apply NoDup_dedup. case_decide; lia.
Qed.
(** Any delivered transaction: with [k] EVM messages of [b] the sequence of a signer [b]
    advances by max(k,1), plus what execution adds; a failed one by one. *)
Theorem C20_delivered_exact st t o st' ds b :
  senders20 decode t -> canonical decode t -> outcome_fits t o ->
  deliver decode st t o = Some (st', ds) ->
  let k := count b (map decode (omap evm_sender (t_msgs t))) in
  b ∈ signers decode t ->
  seqv st' b = seqv st b +
    match o with
    | Succeeded extras => Z.max k 1 + count b (map eff_addr (concat extras))
    | Failed true => 1
    | Failed false => if decide (k = 0) then 1 else 0
    end.
Proof.
  intros H20 Hc Hf Hd k Hb. pose proof (deliver_seq decode st t o st' ds b Hf Hd) as H.
  assert (Hn : NoDup (map decode (evm_senders t))) by (apply NoDup_evm_senders; done).
  rewrite (count_nodup b _ Hn) in H.
  rewrite (count_nodup b (signers decode t)) in H by apply NoDup_dedup. rewrite decide_True in H by done.
  rewrite (own_senders decode t H20) in H.
  assert (Hk : (b ∈ map decode (evm_senders t)) <-> 1 <= k).
  { split; intros Hx.
    - apply count_pos. apply elem_of_list_In, in_map_iff in Hx as (s & <- & Hs). apply elem_of_list_In in Hs.
      apply elem_of_list_In, in_map, elem_of_list_In. unfold evm_senders in Hs. rewrite elem_of_dedup in Hs. done.
    - destruct (decide (b ∈ map decode (omap evm_sender (t_msgs t)))) as [Hy|Hy].
      + apply elem_of_list_In, in_map_iff in Hy as (s & <- & Hs). apply elem_of_list_In in Hs.
        apply elem_of_list_In, in_map, elem_of_list_In. unfold evm_senders. rewrite elem_of_dedup. done.
      + apply count_zero in Hy. unfold k in Hx. lia. }
  assert (0 <= k) by apply count_nonneg. fold k in H.
  destruct (decide (b ∈ map decode (evm_senders t))) as [Hi|Hi].
  - apply Hk in Hi. destruct o as [ex|[]]; try case_decide; lia.
  - assert (~ 1 <= k) by tauto. destruct o as [ex|[]]; try case_decide; lia.
Qed.
(** A transaction the ante handler rejects changes nothing (the delivery result is [None]);
    this happens exactly when a sequence does not match. *)
Theorem C20_accept_iff st t evm :
  ante decode evm st t <> None <->
  length (t_seqs t) = length (signers decode t) /\
  forall i a q, signers decode t !! i = Some a -> t_seqs t !! i = Some q -> st !! a = Some q.
Proof. apply sigs_ok_iff. Qed.

(** The full claim for failed transactions needs the post handler's writes to be kept. If
    the SDK drops them, the sequence of the sender of a failed EVM transaction does not move
    and the same signed transaction is accepted again. *)
Theorem C20_post_handler_writes_needed s :
  let t := Tx [MCall s] None [7] in let st := {[ decode s := 7 ]} in
  exists st', deliver decode st t (Failed false) = Some (st', []) /\
    seqv st' (decode s) = 7 /\ ante decode true st' t <> None.
Proof.
  cbn zeta. unfold deliver. destruct (ante decode true {[decode s := 7]} (Tx [MCall s] None [7])) as [st1|] eqn:E.
  - exists st1. split; [done|]. assert (Hv : seqv st1 (decode s) = 7).
    { rewrite (seqv_ante decode _ _ _ (decode s) E). cbn. unfold seqv. rewrite lookup_singleton. rewrite ?decide_True by done. done. }
    split; [done|]. unfold ante in E. destruct (sigs_ok _ _ _) eqn:E1; [|done]. injection E as <-.
    unfold ante. replace (sigs_ok decode _ (Tx [MCall s] None [7])) with true; [done|]. symmetry.
    unfold sigs_ok. cbn. unfold increment. cbn. unfold bump. rewrite lookup_insert. unfold seqv.
    rewrite !lookup_insert. simplify_map_eq. done.
  - exfalso. unfold ante in E. unfold sigs_ok in E. cbn in E. simplify_map_eq.
Qed.

(** ** C21 *)
(** Full statement: for every history, sequences never decrease and a delivered transaction
    is never accepted again. It fails for senders whose address is not 20 bytes long
    ([C21_replay_refuted]); proved for all histories of transactions whose EVM senders
    have ordinary addresses. Missing: other senders. *)
Theorem C21_sequences_monotone_partial st st' ds :
  hist decode (senders20 decode) st st' ds -> forall b, seqv st b <= seqv st' b.
Proof. apply hist_mono. Qed.
Theorem C21_no_replay_partial st t o st1 d1 st2 d2 :
  senders20 decode t -> outcome_fits t o -> o <> Failed false -> signers decode t <> [] ->
  deliver decode st t o = Some (st1, d1) ->
  hist decode (senders20 decode) st1 st2 d2 ->
  forall o2, deliver decode st2 t o2 = None /\ check_tx decode st2 t = None.
Proof.
  intros H20 Hf Ho Hs Hd Hh o2. pose proof (no_replay decode st t o st1 d1 st2 d2 H20 Hf Ho Hs Hd Hh) as Hn.
  unfold deliver, check_tx. rewrite !Hn. done.
Qed.
(** Also two different transactions of one signer with the same sequence cannot both be
    delivered. *)
Theorem C21_one_per_sequence_partial st t o st1 d1 st2 d2 t' a q i j :
  senders20 decode t -> outcome_fits t o -> o <> Failed false ->
  deliver decode st t o = Some (st1, d1) ->
  hist decode (senders20 decode) st1 st2 d2 ->
  signers decode t !! i = Some a -> t_seqs t !! i = Some q ->
  signers decode t' !! j = Some a -> t_seqs t' !! j = Some q ->
  forall o', deliver decode st2 t' o' = None.
Proof.
  intros H20 Hf Ho Hd Hh Hi Hqi Hj Hqj o'. unfold deliver. destruct (ante decode true st2 t') as [s2|] eqn:E; [|done].
  exfalso. assert (E' : ante decode true st2 t' <> None) by congruence. apply C20_accept_iff in E' as [_ E'].
  specialize (E' j a q Hj Hqj).
  assert (E1 : ante decode true st t <> None) by (unfold deliver in Hd; destruct (ante decode true st t); done).
  apply C20_accept_iff in E1 as [_ E1]. specialize (E1 i a q Hi Hqi).
  pose proof (deliver_mono decode st t o st1 d1 a H20 Hf Ho Hd) as Hm. pose proof (hist_mono decode _ _ _ Hh a) as Hm2.
  assert (1 <= count a (signers decode t)) by (apply count_pos; eapply elem_of_list_lookup_2; done).
  unfold seqv in *. rewrite E1 in Hm. rewrite E' in Hm2. cbn in *. lia.
Qed.
(** A contract creation from an account with a 32-byte address: delivered, and accepted
    again afterwards. *)
Theorem C21_replay_refuted s :
  length (decode s) = 32%nat ->
  let t := Tx [MCreate s] None [0] in let st := {[ decode s := 0 ]} in
  exists st' ds, deliver decode st t (Succeeded [[]]) = Some (st', ds) /\
    exists st'' ds', deliver decode st' t (Succeeded [[]]) = Some (st'', ds').
Proof.
  intros Hl. cbn zeta.
  assert (Hne : evm_addr (decode s) <> decode s).
  { intros He. assert (Hx : length (evm_addr (decode s)) = 32%nat) by (rewrite He; done).
    unfold evm_addr in Hx. rewrite decide_False in Hx by lia. unfold bytes_to_address in Hx.
    rewrite decide_True in Hx by lia. rewrite drop_length in Hx. lia. }
  unfold deliver at 1. unfold ante, sigs_ok. cbn. rewrite lookup_singleton. cbn. do 2 eexists. split; [done|].
  unfold deliver, ante, sigs_ok. cbn. rewrite lookup_bump, decide_False by done. rewrite lookup_bump, decide_True by done.
  replace (seqv (bump 1 {[decode s := 0]} (decode s)) (decode s) + -1) with 0.
  2:{ rewrite seqv_bump, decide_True by done. unfold seqv. rewrite lookup_singleton. done. }
  cbn. do 2 eexists. done.
Qed.

(** ** C57 *)
(** Full statement: over every history, an account's deployments use distinct nonces, each
    at or above its sequence when the history starts and below its sequence at the end. It
    fails when one transaction writes a sender in two ways ([C57_two_spellings_refuted]);
    proved for all histories of transactions that do not, with 20-byte senders. *)
Theorem C57_deployment_nonces_partial st st' ds :
  hist decode (fun t => senders20 decode t /\ canonical decode t) st st' ds ->
  (forall a n, (a, n) ∈ ds -> seqv st a <= n < seqv st' a) /\ NoDup ds.
Proof. apply hist_deploy. Qed.
(** The address predicted from the current sequence is the one used by the next single
    create. *)
Theorem C57_prediction st s q ex st' ds :
  length (decode s) = 20%nat ->
  deliver decode st (Tx [MCreate s] None [q]) (Succeeded [ex]) = Some (st', ds) ->
  exists ds', ds = (decode s, seqv st (decode s)) :: ds'.
Proof.
  intros H20 Hd. unfold deliver in Hd. destruct (ante decode true st _) as [st1|] eqn:E; [|done].
  pose proof (seqv_ante decode _ _ _ (decode s) E) as Hv. cbn in Hv. rewrite !decide_True in Hv by done.
  unfold all_effects in Hd. cbn [t_msgs zip_with concat] in Hd. rewrite app_nil_r in Hd.
  assert (Ha : evm_addr (decode s) = decode s) by (unfold evm_addr; rewrite decide_True; done).
  cbn [msg_effects run_effects run_effect] in Hd. rewrite Ha in Hd.
  destruct (run_effects (bump 1 st1 (decode s)) ex) as [st2 d2]. injection Hd as _ <-. exists d2.
  cbn. f_equal. f_equal. lia.
Qed.
(** With two spellings of one address (bech32 allows all-upper-case) a transaction deploys
    at a nonce below the account's sequence, one that was used before. *)
Theorem C57_two_spellings_refuted s s' :
  s <> s' -> decode s = decode s' -> length (decode s) = 20%nat ->
  exists st t1 st1 d1 t2 st2 d2,
    deliver decode st t1 (Succeeded [[]]) = Some (st1, d1) /\
    deliver decode st1 t2 (Succeeded [[]; []]) = Some (st2, d2) /\
    exists x, x ∈ d1 /\ x ∈ d2.
Proof.
  intros Hss Hd H20. exists {[ decode s := 0 ]}, (Tx [MCreate s] None [0]).
  assert (Ha : evm_addr (decode s) = decode s) by (unfold evm_addr; rewrite decide_True; done).
  assert (E1 : exists st1, deliver decode {[decode s := 0]} (Tx [MCreate s] None [0]) (Succeeded [[]]) = Some (st1, [(decode s, 0)]) /\ st1 !! decode s = Some 1).
  { unfold deliver, ante, sigs_ok. cbn. rewrite lookup_singleton. cbn. rewrite (bool_decide_eq_true_2 (1%nat = 1%nat)) by done. cbn. rewrite Ha.
    unfold bump, seqv. rewrite ?lookup_insert, ?lookup_singleton. cbn. rewrite ?lookup_insert. cbn.
    eexists. split; [reflexivity|]. rewrite ?lookup_insert. cbn. reflexivity. }
  destruct E1 as (st1 & Hd1 & Hv1).
  exists st1, [(decode s, 0)], (Tx [MCreate s; MCreate s'] None [1]).
  assert (Hs : signers decode (Tx [MCreate s; MCreate s'] None [1]) = [decode s]).
  { unfold signers. cbn. rewrite <- Hd. rewrite bool_decide_eq_true_2 by done. done. }
  assert (He : evm_senders (Tx [MCreate s; MCreate s'] None [1]) = [s; s']).
  { unfold evm_senders. cbn. rewrite bool_decide_eq_false_2 by congruence. done. }
  assert (E2 : exists st2 d2, deliver decode st1 (Tx [MCreate s; MCreate s'] None [1]) (Succeeded [[]; []]) = Some (st2, (decode s, 0) :: d2)).
  { unfold deliver, ante, sigs_ok, increment. rewrite Hs, He. cbn. rewrite Hv1. cbn. rewrite (bool_decide_eq_true_2 (1%nat = 1%nat)) by done. cbn. rewrite <- Hd, Ha.
  unfold bump, seqv. rewrite ?lookup_insert. rewrite Hv1. cbn. rewrite ?lookup_insert. cbn. rewrite ?lookup_insert. cbn.
    do 2 eexists. reflexivity. }
  destruct E2 as (st2 & d2 & E2). exists st2, ((decode s, 0) :: d2). split; [exact Hd1|]. split; [exact E2|]. exists (decode s, 0). split; left.
Qed.
End props.

(** Non-vacuity: a history of two transactions (a call, then a failing create), and a
    codec for which the refuted cases arise. *)
Definition dec1 (s : string) : bytes :=
  if decide (s = "r1"%string) then replicate 32 9%N
  else if decide (s = "a"%string \/ s = "A"%string) then replicate 20 1%N else replicate 20 2%N.
Example C21_history_exists : exists st' ds,
  hist dec1 (fun t => senders20 dec1 t /\ canonical dec1 t) {[ replicate 20 1%N := 5 ]} st' ds /\
  seqv st' (replicate 20 1%N) = 8 /\ ds = [(replicate 20 1%N, 6)].
Proof.
  assert (H1 : senders20 dec1 (Tx [MCall "a"; MCreate "a"] None [5]) /\ canonical dec1 (Tx [MCall "a"; MCreate "a"] None [5])).
  { split.
    - intros m s Hm Hs. apply elem_of_cons in Hm as [->|Hm]; [injection Hs as <-; done|].
      apply elem_of_list_singleton in Hm as ->. injection Hs as <-. done.
    - intros s s' Hs Hs' _. cbn in Hs, Hs'. apply elem_of_cons in Hs as [->|Hs], Hs' as [->|Hs'];
        repeat match goal with H : _ ∈ [_] |- _ => apply elem_of_list_singleton in H end; congruence. }
  assert (H2 : senders20 dec1 (Tx [MCall "A"] None [7]) /\ canonical dec1 (Tx [MCall "A"] None [7])).
  { split.
    - intros m s Hm Hs. apply elem_of_list_singleton in Hm as ->. injection Hs as <-. done.
    - intros s s' Hs Hs' _. cbn in Hs, Hs'. apply elem_of_list_singleton in Hs, Hs'. congruence. }
  assert (E1 : exists st1, deliver dec1 {[ replicate 20 1%N := 5 ]} (Tx [MCall "a"; MCreate "a"] None [5]) (Succeeded [[];[]]) = Some (st1, [(replicate 20 1%N, 6)]) /\
     exists st2, deliver dec1 st1 (Tx [MCall "A"] None [7]) (Failed true) = Some (st2, []) /\ seqv st2 (replicate 20 1%N) = 8).
  { eexists. split; [vm_compute; reflexivity|]. eexists. split; [vm_compute; reflexivity|]. vm_compute. reflexivity. }
  destruct E1 as (st1 & E1 & st2 & E2 & Hv). exists st2, [(replicate 20 1%N, 6)]. split; [|done].
  change [(replicate 20 1%N, 6)] with ([(replicate 20 1%N, 6)] ++ [] ++ []).
  eapply hist_step; [exact H1| | |exact E1|]; [done|discriminate|].
  eapply hist_step; [exact H2| | |exact E2|]; [done|discriminate|]. constructor.
Qed.
Example dec1_cases : length (dec1 "r1") = 32%nat /\ "a"%string <> "A"%string /\ dec1 "a" = dec1 "A" /\ length (dec1 "a") = 20%nat.
Proof. done. Qed.
(** A call and a creation by [a] in one transaction, with success, and a failed one; the account is
    at 5. *)
Example C20_example :
  let st := {[ replicate 20 1%N := 5 ]} : seqs in
  match deliver dec1 st (Tx [MCreate "a"] None [5]) (Succeeded [[]]) with
  | Some (st', ds) => seqv st' (replicate 20 1%N) = 6 /\ ds = [(replicate 20 1%N, 5)]
  | None => False
  end /\
  match deliver dec1 st (Tx [MCall "a"] None [5]) (Failed true) with
  | Some (st', ds) => seqv st' (replicate 20 1%N) = 6 /\ ds = []
  | None => False
  end /\
  deliver dec1 st (Tx [MCall "a"] None [6]) (Succeeded [[]]) = None.
Proof. vm_compute. auto. Qed.
