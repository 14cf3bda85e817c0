(** C145: the data a contract reverted with can be read out of the error. *)
From Verif.Base Require Import Prelude Hex.
From Verif.Model Require Import RevertText.
From Verif.Spec Require Import RevertSpec.
From Verif.Proofs Require Import HexP BytesP.
Open Scope N_scope.

Lemma strip_end_app p s : strip_end s (p ++ s) = Some p.
Proof.
  unfold strip_end. rewrite app_length. replace (length p + length s - length s)%nat with (length p) by lia.
  rewrite drop_app, bool_decide_true by done. by rewrite take_app.
Qed.
Lemma strip_end_inv s t p : strip_end s t = Some p → t = p ++ s.
Proof.
  unfold strip_end. case_bool_decide as H; [|done]. intros [= <-]. rewrite <- H at 2. by rewrite take_drop.
Qed.
Lemma last_word_none acc t : Forall (λ c, c ≠ 32) t → last_word acc t = acc.
Proof.
  induction 1 as [|c t Hc _ IH]; [done|]. cbn [last_word]. destruct (N.eqb_spec c 32); [done|exact IH].
Qed.
Lemma last_word_app : ∀ p acc w, Forall (λ c, c ≠ 32) w → last_word acc (p ++ 32 :: w) = w.
Proof.
  induction p as [|c p IH]; intros acc w Hw; cbn [app last_word].
  - change (32 =? 32) with true. cbn iota. by apply last_word_none.
  - destruct (c =? 32); by apply IH.
Qed.
Lemma hexd_not_space n : n < 16 → hexd false n ≠ 32.
Proof. intros H. unfold hexd. destruct (N.ltb_spec n 10); lia. Qed.
Lemma hex_no_space b : ∀ up, bytes_ok b → (∀ i, up i = false) → Forall (λ c, c ≠ 32) (hex_enc up b).
Proof.
  induction b as [|x b IH]; intros up Hb Hu; [constructor|]. inversion Hb; subst. cbn [hex_enc].
  destruct (byte_split x) as (A & B & _); [done|]. rewrite !Hu. constructor; [by apply hexd_not_space|]. constructor; [by apply hexd_not_space|].
  apply IH; [done|]. intros i. apply Hu.
Qed.
Lemma encode_no_space b : bytes_ok b → Forall (λ c, c ≠ 32) (hexutil_encode b).
Proof. intros H. unfold hexutil_encode. constructor; [done|]. constructor; [done|]. by apply hex_no_space. Qed.

(** The error of a revert with gas left: some text, a space, the data, the ending. *)
Lemma exec_error_shape up create d remaining : remaining ≠ 0 →
  ∃ q, exec_error up create d VMReverted remaining = q ++ 32 :: hexutil_encode d ++
    (if create then txt ": Reverted: EVMCreate failed" else txt ": Reverted: EVMCall failed").
Proof.
  intros Hr. unfold exec_error. rewrite (proj2 (N.eqb_neq _ _) Hr). unfold new_revert_error, wrap.
  destruct (unpack_revert up d) as [r|].
  - exists (txt "reason: " ++ r ++ txt ", revert:"). destruct create; rewrite <- !app_assoc; reflexivity.
  - exists (txt "revert:"). destruct create; rewrite <- !app_assoc; reflexivity.
Qed.

(** C145: with gas left, whatever the contract reverted with, whatever the reason in it says and
    whatever was put before the error on its way, the data is read back exactly. *)
Theorem C145_read_back up create pre d remaining :
  bytes_ok d → remaining ≠ 0 → read_revert create (pre ++ exec_error up create d VMReverted remaining) = Some d.
Proof.
  intros Hd Hr. destruct (exec_error_shape up create d remaining Hr) as (q & ->). unfold read_revert.
  change (32 :: hexutil_encode d ++ ?s) with ((32 :: hexutil_encode d) ++ s).
  rewrite (app_assoc q), (app_assoc pre), strip_end_app. cbn [mbind option_bind]. rewrite app_assoc.
  rewrite last_word_app by by apply encode_no_space. by apply hexutil_decode_encode.
Qed.
(** Different data are never told the same way. *)
Theorem C145_distinct up create pre d1 d2 r1 r2 : bytes_ok d1 → bytes_ok d2 → r1 ≠ 0 → r2 ≠ 0 →
  pre ++ exec_error up create d1 VMReverted r1 = pre ++ exec_error up create d2 VMReverted r2 → d1 = d2.
Proof.
  intros H1 H2 Hr1 Hr2 E. pose proof (C145_read_back up create pre d1 r1 H1 Hr1) as A.
  rewrite E, C145_read_back in A by done. by injection A.
Qed.

(** Nothing else is read as data: if data is read out of an execution's error, it was a revert
    with gas left and with that data (the machine's own errors do not end in "Reverted"). *)
Theorem C145_only_reverts up create ret e remaining d :
  bytes_ok ret →
  (∀ t, e = VMError t → ∀ p, t ≠ p ++ txt ": Reverted") →
  read_revert create (exec_error up create ret e remaining) = Some d →
  e = VMReverted ∧ remaining ≠ 0 ∧ d = ret.
Proof.
  intros Hret He Hread.
  assert (Hno : ∀ t, (∀ p, t ≠ p ++ txt ": Reverted") → read_revert create (wrap t (failed_text create)) ≠ Some d).
  { intros t Ht H. unfold read_revert in H. apply bind_Some in H as (t' & Hs & _). apply strip_end_inv in Hs.
    unfold wrap in Hs. apply (Ht t').
    assert (t ++ (txt ": " ++ failed_text create) = (t' ++ txt ": Reverted") ++ (txt ": " ++ failed_text create)) as H.
    { rewrite Hs. rewrite <- app_assoc. f_equal. by destruct create. }
    by apply app_inv_tail in H. }
  destruct e as [| |t].
  - destruct (decide (remaining = 0)) as [->|Hr].
    + exfalso. revert Hread. unfold exec_error. rewrite N.eqb_refl. apply Hno. intros p Hp. apply (f_equal (strip_end (txt ": Reverted"))) in Hp. rewrite strip_end_app in Hp. vm_compute in Hp. discriminate.
    + split; [done|]. split; [done|]. pose proof (C145_read_back up create [] ret remaining Hret Hr) as A. cbn [app] in A. congruence.
  - exfalso. revert Hread. apply Hno. intros p Hp. apply (f_equal (strip_end (txt ": Reverted"))) in Hp. rewrite strip_end_app in Hp. vm_compute in Hp. discriminate.
  - exfalso. revert Hread. apply Hno. by apply He.
Qed.

(** ** The reason *)
Lemma be_len k n : length (be k n) = k.
Proof. revert n. induction k as [|k IH]; intros n; [done|]. cbn [be]. rewrite app_length, IH. cbn [length]. lia. Qed.
(** C145: the reason of Solidity's revert(reason) stands in the error, word for word. *)
Theorem C145_reason up create reason remaining : N.of_nat (length reason) < 2 ^ 256 → remaining ≠ 0 →
  exec_error up create (error_string reason) VMReverted remaining =
  txt "reason: " ++ reason ++ txt ", revert: " ++ hexutil_encode (error_string reason) ++
  (if create then txt ": Reverted: EVMCreate failed" else txt ": Reverted: EVMCall failed").
Proof.
  intros Hlen Hr. unfold exec_error. rewrite (proj2 (N.eqb_neq _ _) Hr). unfold new_revert_error.
  assert (unpack_revert up (error_string reason) = Some reason) as ->.
  { unfold error_string. set (body := be 32 32 ++ _). change (unpack_revert up ([8; 195; 121; 160] ++ body)) with (unpack_string body).
    subst body. unfold unpack_string. rewrite !app_length, !be_len, replicate_length.
    set (pad := ((32 - _) mod 32)%nat).
    destruct (Nat.ltb_spec (32 + (32 + (length reason + pad))) 32); [lia|].
    assert (∀ n (r : bytes), take 32 (be 32 n ++ r) = be 32 n) as T by (intros n r; apply take_app_alt; by rewrite be_len).
    assert (∀ n (r : bytes), drop 32 (be 32 n ++ r) = r) as D by (intros n r; apply drop_app_alt; by rewrite be_len).
    rewrite T. rewrite (of_be_be_small 32 32) by done. change (N.to_nat 32) with 32%nat.
    rewrite D, T. rewrite of_be_be_small by done.
    destruct (N.ltb_spec (N.of_nat (32 + (32 + (length reason + pad)))) (32 + 32)); [lia|].
    destruct (N.ltb_spec (N.of_nat (32 + (32 + (length reason + pad)))) (32 + 32 + N.of_nat (length reason))); [lia|].
    rewrite D, Nat2N.id. f_equal. apply take_app. }
  unfold wrap. destruct create; cbn [failed_text]; rewrite <- !app_assoc; reflexivity.
Qed.

Lemma be_inj32 n m : n < 2 ^ 256 → m < 2 ^ 256 → be 32 n = be 32 m → n = m.
Proof. intros Hn Hm E. apply (f_equal of_be) in E. by rewrite !(of_be_be_small 32) in E by done. Qed.
Lemma word_value b : bytes_ok b → (32 ≤ length b)%nat → be 32 (of_be (take 32 b)) = take 32 b.
Proof.
  intros Hb Hl. pose proof (be_of_be (take 32 b)) as H. rewrite take_length_le in H by done. apply H.
  apply Forall_take. exact Hb.
Qed.
Lemma unpack_string_iff b r : bytes_ok b → N.of_nat (length b) < 2 ^ 256 → unpack_string b = Some r ↔ holds_string b r.
Proof.
  intros Hb Hlen. unfold unpack_string, holds_string. split.
  - destruct (Nat.ltb_spec (length b) 32) as [|H1]; [done|]. set (off := of_be (take 32 b)).
    destruct (N.ltb_spec (N.of_nat (length b)) (off + 32)) as [|H2]; [done|]. set (s := drop (N.to_nat off) b).
    set (len := of_be (take 32 s)).
    destruct (N.ltb_spec (N.of_nat (length b)) (off + 32 + len)) as [|H3]; [done|]. intros [= <-].
    assert (length s = length b - N.to_nat off)%nat as Hs by apply drop_length.
    exists (N.to_nat off), (drop (N.to_nat len) (drop 32 s)). rewrite N2Nat.id. split; [subst off; by rewrite word_value|].
    fold s. rewrite take_length_le by (rewrite drop_length; lia). rewrite N2Nat.id. subst len. rewrite take_drop, word_value; [by rewrite take_drop| |lia].
    apply Forall_drop. exact Hb.
  - intros (k & rest & H1 & H2).
    assert (32 ≤ length b)%nat as Hb1. { apply (f_equal length) in H1. rewrite be_len, take_length in H1. lia. }
    assert (length b - k = 32 + (length r + length rest))%nat as Hl.
    { apply (f_equal length) in H2. rewrite drop_length, !app_length, be_len in H2. exact H2. }
    destruct (Nat.ltb_spec (length b) 32); [lia|]. rewrite H1. rewrite (of_be_be_small 32) by (change (256 ^ N.of_nat 32) with (2 ^ 256); lia).
    destruct (N.ltb_spec (N.of_nat (length b)) (N.of_nat k + 32)); [lia|]. rewrite Nat2N.id, H2.
    rewrite take_app_alt by by rewrite be_len. rewrite drop_app_alt by by rewrite be_len.
    rewrite (of_be_be_small 32) by (change (256 ^ N.of_nat 32) with (2 ^ 256); lia).
    destruct (N.ltb_spec (N.of_nat (length b)) (N.of_nat k + 32 + N.of_nat (length r))); [lia|]. rewrite Nat2N.id. f_equal. apply take_app.
Qed.
(** C145: a reason stands in the error exactly if the data, after the selector of Error(string),
    holds it as the ABI writes it, however it lays it out; on other data of that selector, on data of
    a selector that is neither of the two, and on data without a selector, there is none. *)
Theorem C145_reasons up (create : bool) d remaining : bytes_ok d → N.of_nat (length d) < 2 ^ 256 → remaining ≠ 0 →
  let tail := hexutil_encode d ++ (if create then txt ": Reverted: EVMCreate failed" else txt ": Reverted: EVMCall failed") in
  let told := exec_error up create d VMReverted remaining in
  let with_reason r := txt "reason: " ++ r ++ txt ", revert: " ++ tail in
  let plain := txt "revert: " ++ tail in
  (∀ b, d = [0x08; 0xc3; 0x79; 0xa0] ++ b → (∀ r, holds_string b r → told = with_reason r) ∧ ((∀ r, ¬ holds_string b r) → told = plain)) ∧
  (∀ b, d = [0x4e; 0x48; 0x7b; 0x71] ++ b → told = match up b with Some r => with_reason r | None => plain end) ∧
  ((∀ b, d ≠ [0x08; 0xc3; 0x79; 0xa0] ++ b ∧ d ≠ [0x4e; 0x48; 0x7b; 0x71] ++ b) → told = plain).
Proof.
  intros Hd Hlen Hr tail told with_reason plain.
  assert (Htold : told = match unpack_revert up d with Some r => with_reason r | None => plain end).
  { subst told with_reason plain tail. unfold exec_error. rewrite (proj2 (N.eqb_neq _ _) Hr). unfold new_revert_error, wrap.
    destruct (unpack_revert up d); destruct create; rewrite <- !app_assoc; reflexivity. }
  split; [|split].
  - intros b ->. change (unpack_revert up _) with (unpack_string b) in Htold.
    assert (bytes_ok b) as Hb. { apply Forall_app in Hd. tauto. }
    assert (N.of_nat (length b) < 2 ^ 256) as Hlb. { rewrite app_length in Hlen. lia. }
    split; [intros r H; apply unpack_string_iff in H; [|done..]; by rewrite H in Htold|].
    intros Hno. destruct (unpack_string b) as [r|] eqn:E; [|done]. apply unpack_string_iff in E; [|done..]. by destruct (Hno r).
  - intros b ->. exact Htold.
  - intros Hno. rewrite Htold. assert (unpack_revert up d = None) as ->; [|done]. unfold unpack_revert.
    destruct (Nat.ltb_spec (length d) 4); [done|]. rewrite !bool_decide_false; [done| |].
    + intros E. apply (proj2 (Hno (drop 4 d))). rewrite <- (take_drop 4 d) at 1. by rewrite E.
    + intros E. apply (proj1 (Hno (drop 4 d))). rewrite <- (take_drop 4 d) at 1. by rewrite E.
Qed.
(** The shortest string there is: a place of zero, and the same word as the length. *)
Example C145_reasons_example : holds_string (replicate 32 0) [] ∧
  exec_error (λ _, None) false ([8; 195; 121; 160] ++ replicate 32 0) VMReverted 1 ≠ exec_error (λ _, None) false ([8; 195; 121; 160] ++ replicate 31 0) VMReverted 1.
Proof. split; [by exists 0%nat, []|]. by vm_compute. Qed.

(** With no gas left the data is lost: reverts with different data are told the same way (a contract
    that runs to the last unit of its gas before it reverts). *)
Theorem C145_no_gas_left_refuted :
  ∃ d1 d2, d1 ≠ d2 ∧ bytes_ok d1 ∧ bytes_ok d2 ∧
  ∀ up create, exec_error up create d1 VMReverted 0 = exec_error up create d2 VMReverted 0 ∧
    read_revert create (exec_error up create d1 VMReverted 0) = None.
Proof.
  exists (error_string (txt "paused")), (error_string (txt "not owner")). split; [by vm_compute|].
  split; [by apply (bool_decide_unpack _); vm_compute|]. split; [by apply (bool_decide_unpack _); vm_compute|].
  intros up create. split; [done|]. destruct create; by vm_compute.
Qed.
(** A reader that takes the first "revert: 0x" is told anything by the contract: the reason is
    copied unescaped before the data. *)
Theorem C145_first_match_refuted :
  ∃ reason, ∀ up, let d := error_string reason in
    read_first (exec_error up false d VMReverted 7) = Some [1] ∧ d ≠ [1] ∧
    read_revert false (exec_error up false d VMReverted 7) = Some d.
Proof.
  exists (txt "no, revert: 0x01"). intros up. split; [by vm_compute|]. split; [by vm_compute|].
  apply (C145_read_back up false []); [by apply (bool_decide_unpack _); vm_compute|done].
Qed.
(** eth_call's error carries the data in its text only: the data field of the JSON-RPC error is
    never there. What a call returns arrives as it is. *)
Theorem C145_eth_call up create ret e remaining : bytes_ok ret →
  match e with
  | None => eth_call_answer up create ret e remaining = Some (Returned ret)
  | Some e => ∃ m, eth_call_answer up create ret (Some e) remaining = Some (Failed m None) ∧
      (e = VMReverted → remaining ≠ 0 → read_revert create m = Some ret)
  end.
Proof.
  intros Hret. destruct e as [e|].
  - exists (exec_error up create ret e remaining). split; [done|]. intros -> Hr. by apply (C145_read_back up create []).
  - unfold eth_call_answer. by rewrite hexutil_decode_encode.
Qed.

(** A custom error (no Error(string)) and a reason, on their way through a transaction's log. *)
Example revert_custom :
  let d := [222; 173; 190; 239; 0; 1] in
  txt "failed to execute message; message index: 0: " ++ exec_error (λ _, None) false d VMReverted 5 =
    txt "failed to execute message; message index: 0: revert: 0xdeadbeef0001: Reverted: EVMCall failed" ∧
  read_revert false (txt "failed to execute message; message index: 0: " ++ exec_error (λ _, None) false d VMReverted 5) = Some d.
Proof. by vm_compute. Qed.
Example revert_reason :
  ∃ rest, exec_error (λ _, None) true (error_string (txt "paused")) VMReverted 5 = txt "reason: paused, revert: 0x08c379a0" ++ rest.
Proof. eexists. vm_compute. reflexivity. Qed.
