(** C48, C49: IBC hooks (IbcHooks.v). The store, the transfer application, the EVM and all decoders
    are arbitrary throughout ([hchain]). *)
From Verif.Base Require Import Prelude Hex.
From Verif.Model Require Import IbcHooks.
From Verif.Proofs Require Import HexP.
Open Scope N_scope.

(** * C48: acknowledgements and timeouts *)

(** The same transaction on a chain without hooks. *)
Definition plain_ack_tx {S} (C : hchain S) post w p ack : htx :=
  match ch_ack C w p ack with HRet true w' => charge post w' None | _ => TxFailed end.
Definition plain_timeout_tx {S} (C : hchain S) post w p : htx :=
  match ch_timeout C w p with HRet true w' => charge post w' None | _ => TxFailed end.

(** The callback a packet asks for, once the application accepted in world [w1]: what its memo
    names, if the memo decodes, and if that contract is allowed. *)
Definition asks_callback {S} (C : hchain S) (w1 : hworld S) (p : hpacket) (input : N → hinput) (m : hmsg) : Prop :=
  ∃ d cb a, ch_decode_ack C p = Some d ∧ hk_routed (ch_memo C (hd_memo d)) = true ∧
    hk_callback (ch_memo C (hd_memo d)) = Some cb ∧ hk_err (ch_memo C (hd_memo d)) = false ∧
    contract_address C (hc_contract cb) = Some a ∧ ch_allowed C (hw_store w1) a = Some true ∧
    m = HMsg (hd_sender d) (hc_contract cb) (input (hc_id cb)).

Lemma callback_cases {S} (C : hchain S) w p d input :
  ch_decode_ack C p = Some d →
  (callback C w p d input = (HRet true w, []) ∧ ∀ m, ¬ asks_callback C w p input m) ∨
  ∃ m, asks_callback C w p input m ∧
    callback C w p d input = (match ch_call C w m with
      | HPanic => HPanic | HRet true w' => HRet true w'
      | HRet false w' => HRet true (HWorld (hw_store w) (hw_gas w')) end, [EvCall m]).
Proof.
  intros Hd. unfold callback.
  destruct (hk_routed (ch_memo C (hd_memo d))) eqn:Er; [|left; split; [done|]; intros m (?&?&?&?&?&_); congruence].
  destruct (hk_callback (ch_memo C (hd_memo d))) as [cb|] eqn:Ec; [|left; split; [done|]; intros m (?&?&?&?&?&?&_); congruence].
  destruct (hk_err (ch_memo C (hd_memo d))) eqn:Ee; [left; split; [done|]; intros m (?&?&?&?&?&?&?&_); congruence|].
  unfold check_acl. destruct (contract_address C (hc_contract cb)) as [a|] eqn:Ea; cbn.
  2:{ left; split; [done|]; intros m (?&?&?&?&?&?&?&?&_); congruence. }
  destruct (ch_allowed C (hw_store w) a) as [[]|] eqn:El; cbn.
  - right. eexists. split; [exists d, cb, a; split_and!; try done|].
    destruct (ch_call C w _) as [[] w'|]; done.
  - left; split; [done|]; intros m (?&?&?&?&?&?&?&?&?&_); congruence.
  - left; split; [done|]; intros m (?&?&?&?&?&?&?&?&?&_); congruence.
Qed.

(** C48. When the application refuses, the hook is not run and the transaction fails. *)
Theorem C48_app_refuses {S} (C : hchain S) post w p ack w1 :
  ch_ack C w p ack = HRet false w1 →
  snd (ack_override C w p ack) = [EvApp p] ∧ ack_tx C post w p ack = TxFailed.
Proof. intros H. unfold ack_tx, ack_override. by rewrite H. Qed.
Theorem C48_app_refuses_timeout {S} (C : hchain S) post w p w1 :
  ch_timeout C w p = HRet false w1 →
  snd (timeout_override C w p) = [EvApp p] ∧ timeout_tx C post w p = TxFailed.
Proof. intros H. unfold timeout_tx, timeout_override. by rewrite H. Qed.

(** C48. The only call a packet can cause is the one it asks for: at most one, after the
    application accepted, as the packet's sender, telling the contract the outcome. *)
Theorem C48_calls {S} (C : hchain S) w p ack m :
  EvCall m ∈ snd (ack_override C w p ack) →
  ∃ w1, ch_ack C w p ack = HRet true w1 ∧
    asks_callback C w1 p (λ id, IAck id (negb (ch_ack_error C ack))) m ∧
    snd (ack_override C w p ack) = [EvApp p; EvCall m].
Proof.
  unfold ack_override. destruct (ch_ack C w p ack) as [[] w1|]; cbn; [|set_solver|set_solver].
  destruct (ch_decode_ack C p) as [d|] eqn:Ed; [|cbn; set_solver].
  destruct (callback_cases C w1 p d (λ id, IAck id (negb (ch_ack_error C ack))) Ed) as [[-> _]|(m' & Ha & ->)]; cbn; [set_solver|].
  rewrite elem_of_list_In. intros [?|[[= <-]|[]]]; [done|]. by exists w1.
Qed.
Theorem C48_calls_timeout {S} (C : hchain S) w p m :
  EvCall m ∈ snd (timeout_override C w p) →
  ∃ w1, ch_timeout C w p = HRet true w1 ∧ asks_callback C w1 p ITimeout m ∧
    snd (timeout_override C w p) = [EvApp p; EvCall m].
Proof.
  unfold timeout_override. destruct (ch_timeout C w p) as [[] w1|]; cbn; [|set_solver|set_solver].
  destruct (ch_decode_ack C p) as [d|] eqn:Ed; [|cbn; set_solver].
  destruct (callback_cases C w1 p d ITimeout Ed) as [[-> _]|(m' & Ha & ->)]; cbn; [set_solver|].
  rewrite elem_of_list_In. intros [?|[[= <-]|[]]]; [done|]. by exists w1.
Qed.

(** C48. The whole transaction: as without hooks when no callback is asked for; otherwise the
    callback runs on what the application left. If it fails, the store is what it would be without
    hooks; if it succeeds, its effects are added. In both cases the transaction goes through,
    provided the callback does not panic and leaves the gas the rest of the transaction needs. *)
Theorem C48_no_callback {S} (C : hchain S) post w p ack w1 :
  ch_ack C w p ack = HRet true w1 →
  (∀ m, ¬ asks_callback C w1 p (λ id, IAck id (negb (ch_ack_error C ack))) m) →
  ack_tx C post w p ack = plain_ack_tx C post w p ack.
Proof.
  intros Happ Hno. unfold ack_tx, plain_ack_tx, ack_override. rewrite Happ.
  destruct (ch_decode_ack C p) as [d|] eqn:Ed; [|done].
  destruct (callback_cases C w1 p d (λ id, IAck id (negb (ch_ack_error C ack))) Ed) as [[-> _]|(m & Ha & _)]; [done|].
  by apply Hno in Ha.
Qed.
Theorem C48_callback_fails {S} (C : hchain S) post w p ack w1 m w2 :
  ch_ack C w p ack = HRet true w1 →
  asks_callback C w1 p (λ id, IAck id (negb (ch_ack_error C ack))) m →
  ch_call C w1 m = HRet false w2 → post <= hw_gas w2 → hw_gas w2 <= hw_gas w1 →
  ack_tx C post w p ack = plain_ack_tx C post w p ack ∧
  plain_ack_tx C post w p ack = TxDone (hw_store w1) None.
Proof.
  intros Happ Ha Hc Hg Hg1. unfold ack_tx, plain_ack_tx, ack_override. rewrite Happ.
  destruct Ha as (d & cb & a & Ed & H1 & H2 & H3 & H4 & H5 & ->). rewrite Ed.
  unfold callback, check_acl. rewrite H1, H2, H3, H4. cbn. rewrite H5. cbn. rewrite Hc. cbn.
  unfold charge. cbn. destruct (N.ltb_spec (hw_gas w2) post); [lia|]. destruct (N.ltb_spec (hw_gas w1) post); [lia|]. done.
Qed.
Theorem C48_callback_succeeds {S} (C : hchain S) post w p ack w1 m w2 :
  ch_ack C w p ack = HRet true w1 →
  asks_callback C w1 p (λ id, IAck id (negb (ch_ack_error C ack))) m →
  ch_call C w1 m = HRet true w2 → post <= hw_gas w2 →
  ack_tx C post w p ack = TxDone (hw_store w2) None.
Proof.
  intros Happ Ha Hc Hg. unfold ack_tx, ack_override. rewrite Happ.
  destruct Ha as (d & cb & a & Ed & H1 & H2 & H3 & H4 & H5 & ->). rewrite Ed.
  unfold callback, check_acl. rewrite H1, H2, H3, H4. cbn. rewrite H5. cbn. rewrite Hc. cbn.
  unfold charge. destruct (N.ltb_spec (hw_gas w2) post); [lia|]. done.
Qed.
Theorem C48_timeout_no_callback {S} (C : hchain S) post w p w1 :
  ch_timeout C w p = HRet true w1 → (∀ m, ¬ asks_callback C w1 p ITimeout m) →
  timeout_tx C post w p = plain_timeout_tx C post w p.
Proof.
  intros Happ Hno. unfold timeout_tx, plain_timeout_tx, timeout_override. rewrite Happ.
  destruct (ch_decode_ack C p) as [d|] eqn:Ed; [|done].
  destruct (callback_cases C w1 p d ITimeout Ed) as [[-> _]|(m & Ha & _)]; [done|].
  by apply Hno in Ha.
Qed.
Theorem C48_timeout_callback_fails {S} (C : hchain S) post w p w1 m w2 :
  ch_timeout C w p = HRet true w1 → asks_callback C w1 p ITimeout m →
  ch_call C w1 m = HRet false w2 → post <= hw_gas w2 → hw_gas w2 <= hw_gas w1 →
  timeout_tx C post w p = plain_timeout_tx C post w p ∧
  plain_timeout_tx C post w p = TxDone (hw_store w1) None.
Proof.
  intros Happ Ha Hc Hg Hg1. unfold timeout_tx, plain_timeout_tx, timeout_override. rewrite Happ.
  destruct Ha as (d & cb & a & Ed & H1 & H2 & H3 & H4 & H5 & ->). rewrite Ed.
  unfold callback, check_acl. rewrite H1, H2, H3, H4. cbn. rewrite H5. cbn. rewrite Hc. cbn.
  unfold charge. cbn. destruct (N.ltb_spec (hw_gas w2) post); [lia|]. destruct (N.ltb_spec (hw_gas w1) post); [lia|]. done.
Qed.
Theorem C48_timeout_callback_succeeds {S} (C : hchain S) post w p w1 m w2 :
  ch_timeout C w p = HRet true w1 → asks_callback C w1 p ITimeout m →
  ch_call C w1 m = HRet true w2 → post <= hw_gas w2 →
  timeout_tx C post w p = TxDone (hw_store w2) None.
Proof.
  intros Happ Ha Hc Hg. unfold timeout_tx, timeout_override. rewrite Happ.
  destruct Ha as (d & cb & a & Ed & H1 & H2 & H3 & H4 & H5 & ->). rewrite Ed.
  unfold callback, check_acl. rewrite H1, H2, H3, H4. cbn. rewrite H5. cbn. rewrite Hc. cbn.
  unfold charge. destruct (N.ltb_spec (hw_gas w2) post); [lia|]. done.
Qed.

(** * C49: receiving *)

(** The packet asks for [msg] to be run: its memo decodes to that message, the contract is allowed,
    and the receiver is that contract, written the same way. *)
Definition asks_message {S} (C : hchain S) (w : hworld S) (p : hpacket) (d : hdata) (msg : hmsg) : Prop :=
  ch_decode_recv C p = Some d ∧
  let m := ch_memo C (hd_memo d) in
  hk_routed m = true ∧ hk_message m = Some msg ∧ hk_err m = false ∧
  (∃ a, contract_address C (hm_contract msg) = Some a ∧ ch_allowed C (hw_store w) a = Some true) ∧
  hd_receiver d = hm_contract msg.
(** The packet with the receiver replaced. *)
Definition redirected {S} (C : hchain S) (p : hpacket) (d : hdata) (r : text) : hpacket :=
  HPacket (hp_src_port p) (hp_src_chan p) (hp_dst_port p) (hp_dst_chan p)
    (ch_encode C p (HData (hd_payload d) (hd_sender d) r (hd_memo d))).
(** The packet says nothing to the hook: not a transfer packet, or no message in the memo. *)
Definition no_message {S} (C : hchain S) (p : hpacket) : Prop :=
  ∀ d, ch_decode_recv C p = Some d →
    hk_routed (ch_memo C (hd_memo d)) = false ∨ hk_message (ch_memo C (hd_memo d)) = None.

(** An approval is a call of the token's contract by the intermediate sender. *)
Definition is_approval (inter : text) (m : hmsg) : Prop :=
  hm_sender m = inter ∧ ∃ spender n, hm_input m = IApprove spender n.
Lemma approve_all_trace {S} (C : hchain S) inter spender : ∀ its w,
  Forall (λ ev, ∃ m, ev = EvCall m ∧ is_approval inter m) (snd (approve_all C w inter spender its)) ∧
  ∀ w', fst (approve_all C w inter spender its) = HRet true w' → length (snd (approve_all C w inter spender its)) = length its.
Proof.
  induction its as [|it its IH]; intros w; cbn; [by split|].
  assert (Hm : ∀ s m, approve_msg C s inter spender it = Some m → is_approval inter m).
  { intros s m. unfold approve_msg. destruct it as [denom amount|class id].
    - destruct (ch_amount C amount); [|done]. destruct (ch_token C s denom); [|done].
      cbn. intros [= <-]. split; [done|]. by eexists _, _.
    - destruct (ch_token_id C class id); [|done]. destruct (ch_class C s class); [|done].
      cbn. intros [= <-]. split; [done|]. by eexists _, _. }
  destruct (approve_msg C (hw_store w) inter spender it) as [m|] eqn:Em; [|split; [constructor|intros ? [=]]].
  specialize (Hm _ _ Em).
  destruct (ch_call C w m) as [[] w1|]; cbn.
  - destruct (IH w1) as [IH1 IH2]. destruct (approve_all C w1 inter spender its) as [o t]; cbn in *.
    split; [constructor; [by exists m|done]|]. intros w' ->. f_equal. by apply (IH2 w').
  - split; [|intros ? [=]]. constructor; [by exists m|constructor].
  - split; [|intros ? [=]]. constructor; [by exists m|constructor].
Qed.

Lemma on_recv_cases {S} (C : hchain S) w p d :
  ch_decode_recv C p = Some d →
  (no_message C p ∧ recv_override C w p = (ch_recv C w p, [EvApp p])) ∨
  (¬ no_message C p ∧ (∀ msg, ¬ asks_message C w p d msg) ∧ recv_override C w p = (HRet (Some hook_error) w, [])) ∨
  ∃ msg, ¬ no_message C p ∧ asks_message C w p d msg ∧
    recv_override C w p = on_recv C w p d.
Proof.
  intros Ed. unfold recv_override. rewrite Ed. unfold on_recv.
  assert (Hnm : no_message C p ↔ hk_routed (ch_memo C (hd_memo d)) = false ∨ hk_message (ch_memo C (hd_memo d)) = None).
  { unfold no_message. rewrite Ed. split; [intros H; by apply H|intros H d' [= <-]; done]. }
  destruct (hk_routed (ch_memo C (hd_memo d))) eqn:Er; [|left; split; [apply Hnm; by left|done]].
  destruct (hk_message (ch_memo C (hd_memo d))) as [msg|] eqn:Em; [|left; split; [apply Hnm; by right|done]].
  right. assert (Hn : ¬ no_message C p) by (rewrite Hnm; intros [?|?]; done).
  destruct (hk_err (ch_memo C (hd_memo d))) eqn:Ee.
  { left. split; [done|]. split; [|done]. intros m (_ & _ & _ & H & _). cbn in H. congruence. }
  unfold check_acl. destruct (contract_address C (hm_contract msg)) as [a|] eqn:Ea; cbn.
  2:{ left. split; [done|]. split; [|done]. intros m (_ & _ & H2 & _ & (a & H & _) & _). cbn in *. congruence. }
  destruct (ch_allowed C (hw_store w) a) as [[]|] eqn:El; cbn.
  2,3: left; split; [done|]; split; [|done]; intros m (_ & _ & H2 & _ & (a' & H & H') & _); cbn in *; congruence.
  case_bool_decide as Hrc; cbn.
  2:{ left. split; [done|]. split; [|done]. intros m (_ & _ & H2 & _ & _ & H). cbn in *. congruence. }
  right. exists msg. split; [done|]. split; [split; [done|]; split_and!; eauto|]. done.
Qed.
Lemma on_recv_asked {S} (C : hchain S) w p d msg :
  asks_message C w p d msg →
  let inter := intermediate_sender C (hp_dst_chan p) (hd_sender d) in
  let p' := redirected C p d inter in
  let call := HMsg inter (hm_contract msg) (hm_input msg) in
  on_recv C w p d =
  match ch_recv C w p' with
  | HPanic | HRet None _ => (HPanic, [EvApp p'])
  | HRet (Some (AckError e)) w1 => (HRet (Some (AckError e)) w1, [EvApp p'])
  | HRet (Some (AckResult b)) w1 =>
    let '(o, t) := approve_all C w1 inter (hex_to_address (hm_contract msg)) (items_of C p (hd_payload d)) in
    match o with
    | HPanic => (HPanic, EvApp p' :: t)
    | HRet false w2 => (HRet (Some hook_error) w2, EvApp p' :: t)
    | HRet true w2 =>
      match ch_call C w2 call with
      | HPanic => (HPanic, EvApp p' :: t ++ [EvCall call])
      | HRet false w3 => (HRet (Some hook_error) w3, EvApp p' :: t ++ [EvCall call])
      | HRet true w3 => (HRet (Some (AckResult b)) w3, EvApp p' :: t ++ [EvCall call])
      end
    end
  end.
Proof.
  intros (_ & H1 & H2 & H3 & (a & H4 & H5) & H6). cbn in *. unfold on_recv, check_acl.
  rewrite H1, H2, H3, H4. cbn. rewrite H5. cbn. rewrite bool_decide_true by done. cbn.
  unfold redirected. destruct (ch_recv C w _) as [[[b|e]|] w1|]; cbn; try done.
Qed.

(** C49. Nothing is executed in the EVM unless the packet asks for a message as above and the
    transfer application accepted the packet with its receiver replaced by the intermediate
    sender of its channel and sender; every call is made as that intermediate sender, and is an
    approval or the memo's message. *)
Theorem C49_only_if {S} (C : hchain S) w p m :
  EvCall m ∈ snd (recv_override C w p) →
  ∃ d msg b w1, asks_message C w p d msg ∧
    let inter := intermediate_sender C (hp_dst_chan p) (hd_sender d) in
    ch_recv C w (redirected C p d inter) = HRet (Some (AckResult b)) w1 ∧
    hm_sender m = inter ∧
    (is_approval inter m ∨ m = HMsg inter (hm_contract msg) (hm_input msg)).
Proof.
  destruct (ch_decode_recv C p) as [d|] eqn:Ed.
  2:{ unfold recv_override. rewrite Ed. cbn. set_solver. }
  destruct (on_recv_cases C w p d Ed) as [[_ ->]|[(_ & _ & ->)|(msg & _ & Ha & ->)]]; [cbn; set_solver|cbn; set_solver|].
  rewrite (on_recv_asked C w p d msg Ha). cbn.
  set (inter := intermediate_sender C (hp_dst_chan p) (hd_sender d)).
  destruct (ch_recv C w (redirected C p d inter)) as [[[b|e]|] w1|] eqn:Ea; cbn; try set_solver.
  destruct (approve_all_trace C inter (hex_to_address (hm_contract msg)) (items_of C p (hd_payload d)) w1) as [Htr _].
  destruct (approve_all C w1 inter _ _) as [o t]. cbn in Htr.
  intros Hin. exists d, msg, b, w1. split; [done|]. split; [done|].
  assert (Hm : (EvCall m ∈ t) ∨ m = HMsg inter (hm_contract msg) (hm_input msg)).
  { destruct o as [[] w2|]; cbn in Hin; [destruct (ch_call C w2 _) as [[] w3|]; cbn in Hin| |]; set_solver. }
  destruct Hm as [Hm| ->]; [|by split; [|right]].
  rewrite Forall_forall in Htr. destruct (Htr _ Hm) as (m' & [= <-] & Hap).
  split; [apply Hap|by left].
Qed.

(** C49. A packet without a message is handled exactly as without hooks. *)
Theorem C49_no_message {S} (C : hchain S) w p :
  no_message C p → recv_override C w p = (ch_recv C w p, [EvApp p]).
Proof.
  intros Hn. destruct (ch_decode_recv C p) as [d|] eqn:Ed.
  - destruct (on_recv_cases C w p d Ed) as [[_ ?]|[(? & _)|(msg & ? & _)]]; done.
  - unfold recv_override. by rewrite Ed.
Qed.

(** C49. A packet with a message that may not run (memo does not decode, contract not allowed,
    receiver not the contract) gets an error acknowledgement; nothing at all is run. *)
Theorem C49_refused {S} (C : hchain S) post w p :
  ¬ no_message C p → (∀ d msg, ¬ asks_message C w p d msg) → post <= hw_gas w →
  snd (recv_override C w p) = [] ∧ ∃ e, recv_tx C post w p = TxDone (hw_store w) (Some (AckError e)).
Proof.
  intros Hn Ha Hg. destruct (ch_decode_recv C p) as [d|] eqn:Ed.
  2:{ exfalso. apply Hn. intros d H. congruence. }
  unfold recv_tx. destruct (on_recv_cases C w p d Ed) as [[? _]|[(_ & _ & ->)|(msg & _ & H & _)]]; [done| |by apply Ha in H].
  split; [done|]. cbn. unfold charge. cbn. destruct (N.ltb_spec (hw_gas w) post); [lia|]. eauto.
Qed.

(** C49, atomicity. An error acknowledgement comes with no change of the store at all, whatever the
    application and the calls did before. *)
Theorem C49_atomic {S} (C : hchain S) post w p s e :
  recv_tx C post w p = TxDone s (Some (AckError e)) → s = hw_store w.
Proof.
  unfold recv_tx. destruct (fst (recv_override C w p)) as [[[b|e']|] w'|]; [..|done]; unfold charge; cbn;
    destruct (_ <? _); try done. congruence.
Qed.
(** C49, success. For a packet asking for a message, a success acknowledgement means: the transfer
    succeeded with this acknowledgement, one approval per item was given, then the message was run
    once, successfully, and the store is what it left. *)
Theorem C49_success {S} (C : hchain S) post w p d msg s b :
  asks_message C w p d msg → recv_tx C post w p = TxDone s (Some (AckResult b)) →
  let inter := intermediate_sender C (hp_dst_chan p) (hd_sender d) in
  let call := HMsg inter (hm_contract msg) (hm_input msg) in
  ∃ w1 w2 w3 t, ch_recv C w (redirected C p d inter) = HRet (Some (AckResult b)) w1 ∧
    approve_all C w1 inter (hex_to_address (hm_contract msg)) (items_of C p (hd_payload d)) = (HRet true w2, t) ∧
    length t = length (items_of C p (hd_payload d)) ∧
    ch_call C w2 call = HRet true w3 ∧ s = hw_store w3 ∧
    snd (recv_override C w p) = EvApp (redirected C p d inter) :: t ++ [EvCall call].
Proof.
  intros Ha. pose proof Ha as [Ed _]. cbn. set (inter := intermediate_sender C (hp_dst_chan p) (hd_sender d)).
  unfold recv_tx. destruct (on_recv_cases C w p d Ed) as [[Hn _]|[(_ & Hno & _)|(msg' & _ & Ha' & ->)]].
  - exfalso. destruct Ha as (_ & H1 & H2 & _). destruct (Hn d Ed); congruence.
  - by apply Hno in Ha.
  - rewrite (on_recv_asked C w p d msg Ha). cbn. fold inter.
    destruct (ch_recv C w (redirected C p d inter)) as [[[b'|e]|] w1|] eqn:Eapp; cbn; try done.
    2:{ unfold charge. cbn. destruct (_ <? _); done. }
    destruct (approve_all_trace C inter (hex_to_address (hm_contract msg)) (items_of C p (hd_payload d)) w1) as [_ Hlen].
    destruct (approve_all C w1 inter _ _) as [o t] eqn:Eap. cbn in *.
    destruct o as [[] w2|]; cbn; try done.
    2:{ unfold charge. cbn. destruct (_ <? _); done. }
    destruct (ch_call C w2 _) as [[] w3|] eqn:Ec; cbn; try done.
    2:{ unfold charge. cbn. destruct (_ <? _); done. }
    unfold charge. destruct (_ <? _); [done|]. intros [= <- <-].
    exists w1, w2, w3, t. split_and!; try done. by apply (Hlen w2).
Qed.
(** C49, failure. If the transfer, an approval or the message fails (without exhausting the gas),
    the packet gets an error acknowledgement. *)
Theorem C49_failure_acknowledged {S} (C : hchain S) post w p d msg w1 :
  asks_message C w p d msg →
  let inter := intermediate_sender C (hp_dst_chan p) (hd_sender d) in
  (∃ e, ch_recv C w (redirected C p d inter) = HRet (Some (AckError e)) w1) ∨
  (∃ b w0, ch_recv C w (redirected C p d inter) = HRet (Some (AckResult b)) w0 ∧
    ((∃ t, approve_all C w0 inter (hex_to_address (hm_contract msg)) (items_of C p (hd_payload d)) = (HRet false w1, t)) ∨
     ∃ w2 t, approve_all C w0 inter (hex_to_address (hm_contract msg)) (items_of C p (hd_payload d)) = (HRet true w2, t) ∧
       ch_call C w2 (HMsg inter (hm_contract msg) (hm_input msg)) = HRet false w1)) →
  post <= hw_gas w1 →
  ∃ e, recv_tx C post w p = TxDone (hw_store w) (Some (AckError e)).
Proof.
  intros Ha. pose proof Ha as [Ed _]. cbn. set (inter := intermediate_sender C (hp_dst_chan p) (hd_sender d)).
  intros Hf Hg. unfold recv_tx. destruct (on_recv_cases C w p d Ed) as [[Hn _]|[(_ & Hno & _)|(msg' & _ & Ha' & ->)]].
  - exfalso. destruct Ha as (_ & H1 & H2 & _). destruct (Hn d Ed); congruence.
  - by apply Hno in Ha.
  - rewrite (on_recv_asked C w p d msg Ha). cbn. fold inter.
    destruct Hf as [(e & ->)|(b & w0 & -> & [(t & ->)|(w2 & t & -> & Hc)])]; cbn; [| |rewrite Hc; cbn];
      unfold charge; cbn; destruct (N.ltb_spec (hw_gas w1) post); try lia; eauto.
Qed.

(** C49. The intermediate sender identifies channel and sender: two different pairs with the same
    intermediate sender (channel names contain no slash) would be a collision of the hash. *)
Theorem C49_intermediate_sender {S} (C : hchain S) c1 s1 c2 s2 :
  47 ∉ c1 → 47 ∉ c2 → intermediate_sender C c1 s1 = intermediate_sender C c2 s2 →
  (c1 = c2 ∧ s1 = s2) ∨
  ∃ x y, x ≠ y ∧ ch_address_hash C sender_prefix x = ch_address_hash C sender_prefix y.
Proof.
  intros H1 H2 E. destruct (decide (c1 ++ [47] ++ s1 = c2 ++ [47] ++ s2)) as [Es|Es].
  - left. clear E. revert c2 H2 Es. induction c1 as [|x c1 IH]; intros [|y c2] H2 Es; cbn in Es.
    + by injection Es as ->.
    + injection Es as <- _. exfalso. apply H2. left.
    + injection Es as -> _. exfalso. apply H1. left.
    + injection Es as -> Es. destruct (IH ltac:(set_solver) c2 ltac:(set_solver) Es) as [-> ->]. done.
  - right. by exists (c1 ++ [47] ++ s1), (c2 ++ [47] ++ s2).
Qed.

(** C49. The token approved: one that comes home is known by its name without the sender chain's
    prefix, any other by the name with this chain's end of the channel in front. *)
Theorem C49_local_name {S} (C : hchain S) p t :
  local_name (ch_ibc_denom C) p (port_channel (hp_src_port p) (hp_src_chan p) ++ t) = ch_ibc_denom C t ∧
  (¬ port_channel (hp_src_port p) (hp_src_chan p) `prefix_of` t →
   local_name (ch_ibc_denom C) p t = ch_ibc_denom C (port_channel (hp_dst_port p) (hp_dst_chan p) ++ t)).
Proof.
  unfold local_name. split.
  - rewrite decide_True by (by exists t). by rewrite drop_app.
  - intros H. by rewrite decide_False.
Qed.

(** C49. The approvals go to the contract that is called, when it is written in hexadecimal. *)
Theorem C77_approved_contract_partial {S} (C : hchain S) t :
  is_hex_address t = true → contract_address C t = Some (hex_to_address t).
Proof. intros H. unfold contract_address. by rewrite H. Qed.

(** * Concrete cases *)

(** A chain whose store is the list of calls that took effect; one contract [x_hook], written
    "0x1111...", is allowed; every memo asks for a call of it and a callback to it. *)
Definition x_hook : bytes := replicate 20 17.
Definition x_hook_text : text := [48; 120] ++ hex_enc lower x_hook.
Definition x_bech : text := txt "init1zyg3zyg3zyg3zyg3zyg3zyg3zyg3zyg3fmjqqw".
Definition x_chain (target : text) (recv : option hack) (cost : hmsg → N) (ok : hmsg → bool) : hchain (list hmsg) :=
  HChain _
    (λ w _, HRet recv w) (λ w _ _, HRet true w) (λ w _, HRet true w)
    (λ w m, HRet (ok m) (HWorld (m :: hw_store w) (hw_gas w - cost m)))
    (λ _ a, Some (bool_decide (a = x_hook)))
    (λ _ _, Some (replicate 20 5)) (λ _ _, Some (replicate 20 6))
    (λ t, if decide (t = x_bech) then Some x_hook else None)
    (λ p, Some (HData (HFungible (txt "transfer/channel-7/umin") (txt "10")) (txt "alice") target (txt "memo")))
    (λ p, Some (HData (HFungible (txt "umin") (txt "10")) (txt "alice") target (txt "memo")))
    (λ _ d, hd_receiver d)
    (λ _, HMemo true (Some (HMsg [] target (IMemo (txt "0xabcd")))) (Some (HCallback 4 target)) false)
    (λ t, Some 10) (λ _ _, None) id id (λ a b, a ++ b) (λ _, false).
Definition x_packet : hpacket := HPacket (txt "transfer") (txt "channel-7") (txt "transfer") (txt "channel-2") [].
Definition x_world : hworld (list hmsg) := HWorld [] 1000.
Definition x_call_ok : hmsg → bool := λ _, true.

(** An acknowledgement with a callback that succeeds, and one that fails. *)
Example C48_example :
  ack_tx (x_chain x_hook_text (Some (AckResult [1])) (λ _, 10) x_call_ok) 5 x_world x_packet [1]
    = TxDone [HMsg (txt "alice") x_hook_text (IAck 4 true)] None ∧
  ack_tx (x_chain x_hook_text (Some (AckResult [1])) (λ _, 10) (λ _, false)) 5 x_world x_packet [1] = TxDone [] None ∧
  asks_callback (x_chain x_hook_text (Some (AckResult [1])) (λ _, 10) x_call_ok) x_world x_packet ITimeout
    (HMsg (txt "alice") x_hook_text (ITimeout 4)).
Proof. split_and!; [by vm_compute|by vm_compute|]. eexists _, _, x_hook. split_and!; by vm_compute. Qed.
(** A packet received with a message: transfer, approval, message. *)
Definition x_inter : text := sender_prefix ++ txt "channel-2/alice".
Example C49_example :
  let C := x_chain x_hook_text (Some (AckResult [1])) (λ _, 10) x_call_ok in
  snd (recv_override C x_world x_packet) =
    [EvApp (HPacket (txt "transfer") (txt "channel-7") (txt "transfer") (txt "channel-2") x_inter);
     EvCall (HMsg x_inter (address_hex zero_ck (replicate 20 5)) (IApprove x_hook 10));
     EvCall (HMsg x_inter x_hook_text (IMemo (txt "0xabcd")))] ∧
  recv_tx C 5 x_world x_packet =
    TxDone [HMsg x_inter x_hook_text (IMemo (txt "0xabcd")); HMsg x_inter (address_hex zero_ck (replicate 20 5)) (IApprove x_hook 10)]
           (Some (AckResult [1])) ∧
  asks_message C x_world x_packet
    (HData (HFungible (txt "transfer/channel-7/umin") (txt "10")) (txt "alice") x_hook_text (txt "memo"))
    (HMsg [] x_hook_text (IMemo (txt "0xabcd"))).
Proof.
  split_and!; [by vm_compute|by vm_compute|]. split; [done|]. split_and!; try done.
  exists x_hook. split; by vm_compute.
Qed.

(** * Where the properties' wording and the code differ *)

(** C48. The callback is given all the gas the transaction has left. A callback that uses it up
    takes the acknowledgement down with it, for every gas limit a relayer may choose:
    without the hook the acknowledgement would have gone through. *)
Theorem C76_gas_refuted : ∃ (C : hchain (list hmsg)) p ack, ∀ post gas, 0 < post → post <= gas →
  plain_ack_tx C post (HWorld [] gas) p ack = TxDone [] None ∧ ack_tx C post (HWorld [] gas) p ack = TxFailed.
Proof.
  set (C0 := x_chain x_hook_text (Some (AckResult [1])) (λ _, 0) (λ _, false)).
  exists (HChain _ (ch_recv C0) (ch_ack C0) (ch_timeout C0) (λ w m, HRet false (HWorld (hw_store w) 0))
    (ch_allowed C0) (ch_token C0) (ch_class C0) (ch_bech32 C0) (ch_decode_recv C0) (ch_decode_ack C0)
    (ch_encode C0) (ch_memo C0) (ch_amount C0) (ch_token_id C0) (ch_ibc_denom C0) (ch_ibc_class C0)
    (ch_address_hash C0) (ch_ack_error C0)), x_packet, [1].
  intros post gas Hp Hg. split.
  - unfold plain_ack_tx. cbn. unfold charge. cbn. destruct (N.ltb_spec gas post); [lia|done].
  - unfold ack_tx, ack_override. cbn [ch_ack]. cbn [C0 x_chain ch_ack]. 
    cbn -[charge check_acl].
    match goal with |- context [check_acl ?c ?s ?t] => assert (check_acl c s t = Some true) as -> by by vm_compute end.
    cbn. unfold charge. cbn. destruct (N.ltb_spec 0 post); [done|lia].
Qed.
(** C49. Likewise a received message that uses up the gas: the packet gets no acknowledgement,
    not an error one. *)
Theorem C76_receive_gas_refuted {S} (C : hchain S) post w p d msg b w1 w2 t w3 ok :
  asks_message C w p d msg → 0 < post →
  let inter := intermediate_sender C (hp_dst_chan p) (hd_sender d) in
  ch_recv C w (redirected C p d inter) = HRet (Some (AckResult b)) w1 →
  approve_all C w1 inter (hex_to_address (hm_contract msg)) (items_of C p (hd_payload d)) = (HRet true w2, t) →
  ch_call C w2 (HMsg inter (hm_contract msg) (hm_input msg)) = HRet ok w3 → hw_gas w3 = 0 →
  recv_tx C post w p = TxFailed.
Proof.
  intros Ha Hp. cbn. set (inter := intermediate_sender C (hp_dst_chan p) (hd_sender d)). intros H1 H2 H3 Hg.
  pose proof Ha as [Ed _]. unfold recv_tx.
  destruct (on_recv_cases C w p d Ed) as [[Hn _]|[(_ & Hno & _)|(msg' & _ & Ha' & ->)]].
  - exfalso. destruct Ha as (_ & E1 & E2 & _). destruct (Hn d Ed); congruence.
  - by apply Hno in Ha.
  - rewrite (on_recv_asked C w p d msg Ha). cbn. fold inter. rewrite H1, H2, H3.
    destruct ok; cbn; unfold charge; cbn; rewrite Hg; destruct (N.ltb_spec 0 post); done || lia.
Qed.
(** C49. If the application below answers that its acknowledgement comes later (as packet forwarding
    does) and the packet also asks for a message, the handler crashes on the missing
    acknowledgement: no acknowledgement, and the transfer is not received. *)
Theorem C76_later_ack_refuted {S} (C : hchain S) post w p d msg w1 :
  asks_message C w p d msg →
  ch_recv C w (redirected C p d (intermediate_sender C (hp_dst_chan p) (hd_sender d))) = HRet None w1 →
  recv_tx C post w p = TxFailed.
Proof.
  intros Ha H1. pose proof Ha as [Ed _]. unfold recv_tx.
  destruct (on_recv_cases C w p d Ed) as [[Hn _]|[(_ & Hno & _)|(msg' & _ & Ha' & ->)]].
  - exfalso. destruct Ha as (_ & E1 & E2 & _). destruct (Hn d Ed); congruence.
  - by apply Hno in Ha.
  - rewrite (on_recv_asked C w p d msg Ha). cbn. by rewrite H1.
Qed.
Example C49_later_ack_case :
  recv_tx (x_chain x_hook_text None (λ _, 10) x_call_ok) 5 x_world x_packet = TxFailed.
Proof. by vm_compute. Qed.
(** C49. With the contract written in bech32 the message runs, but the transferred tokens are
    approved to the zero address instead of the contract. *)
Theorem C77_bech32_approval_refuted : ∃ (C : hchain (list hmsg)) w p d msg a,
  asks_message C w p d msg ∧ contract_address C (hm_contract msg) = Some a ∧ a ≠ replicate 20 0 ∧
  (∃ s b, recv_tx C 5 w p = TxDone s (Some (AckResult b))) ∧
  ∃ inter tok, EvCall (HMsg inter tok (IApprove (replicate 20 0) 10)) ∈ snd (recv_override C w p) ∧
  ∀ inter tok n, EvCall (HMsg inter tok (IApprove a n)) ∉ snd (recv_override C w p).
Proof.
  set (C := x_chain x_bech (Some (AckResult [1])) (λ _, 10) x_call_ok).
  exists C, x_world, x_packet,
    (HData (HFungible (txt "transfer/channel-7/umin") (txt "10")) (txt "alice") x_bech (txt "memo")),
    (HMsg [] x_bech (IMemo (txt "0xabcd"))), x_hook.
  split_and!.
  - split; [done|]. split_and!; try done. exists x_hook. split; by vm_compute.
  - by vm_compute.
  - discriminate.
  - eexists _, _. vm_compute. reflexivity.
  - assert (E : snd (recv_override C x_world x_packet) =
      [EvApp (HPacket (txt "transfer") (txt "channel-7") (txt "transfer") (txt "channel-2") x_inter);
       EvCall (HMsg x_inter (address_hex zero_ck (replicate 20 5)) (IApprove (replicate 20 0) 10));
       EvCall (HMsg x_inter x_bech (IMemo (txt "0xabcd")))]) by by vm_compute.
    rewrite E. eexists _, _. split; [right; left|].
    intros inter tok n Hin. rewrite !elem_of_cons, elem_of_nil in Hin.
    destruct Hin as [?|[[= ? ? ?]|[?|[]]]]; try done; discriminate.
Qed.
Example C77_example : is_hex_address x_hook_text = true.
Proof. vm_compute. reflexivity. Qed.
