(** C94, C95: the txpool namespace (Model/TxPool.v). *)
From Verif.Base Require Import Prelude Hex.
From Verif.Model Require Import EthTx TxPool TxQueue.
From Verif.Proofs Require Import TxQueueP.
Open Scope N_scope.

Section txpool.
Context (decode : bytes → option cosmos_tx) (convert : cosmos_tx → conv) (chain : Z).
(** The encoded transaction [raw] is the Ethereum transaction of account [a] with nonce [n]
    that JSON-RPC writes as [q]. *)
Definition is_eth (raw : bytes) (a : bytes) (n : N) (q : rpc_tx) : Prop :=
  ∃ x t c, decode raw = Some x ∧ convert x = COk t a ∧ tx_common t = Some c ∧ f_nonce c = n ∧ new_rpc_tx t zero_hash 0 0 chain = Some q.
(** It is the last one of that account and nonce. *)
Definition last_eth (txs : list bytes) (a : bytes) (n : N) (q : rpc_tx) : Prop :=
  ∃ before raw after, txs = before ++ raw :: after ∧ is_eth raw a n q ∧ ∀ raw' q', raw' ∈ after → ¬ is_eth raw' a n q'.

Lemma get_put p a n q b m : pool_get (pool_put p a n q) b m = if decide (a = b ∧ n = m) then Some q else pool_get p b m.
Proof.
  unfold pool_get, pool_put. destruct (decide (a = b)) as [->|Ha].
  - rewrite lookup_insert. cbn. destruct (decide (n = m)) as [->|Hn].
    + rewrite lookup_insert. by rewrite decide_True.
    + rewrite lookup_insert_ne by done. rewrite decide_False by naive_solver. by destruct (p !! b).
  - rewrite lookup_insert_ne by done. by rewrite decide_False by naive_solver.
Qed.
Lemma is_eth_fun raw a n q b m q' : is_eth raw a n q → is_eth raw b m q' → a = b ∧ n = m ∧ q = q'.
Proof. intros (x & t & c & H1 & H2 & H3 & H4 & H5) (x' & t' & c' & G1 & G2 & G3 & G4 & G5). split_and!; congruence. Qed.
Lemma last_cons raw txs a n q : last_eth (raw :: txs) a n q ↔
  last_eth txs a n q ∨ (is_eth raw a n q ∧ ∀ raw' q', raw' ∈ txs → ¬ is_eth raw' a n q').
Proof.
  split.
  - intros ([|b before] & r & after & E & H1 & H2); injection E as -> ->.
    + right. done.
    + left. by exists before, r, after.
  - intros [(before & r & after & -> & H1 & H2)|[H1 H2]].
    + by exists (raw :: before), r, after.
    + by exists [], raw, txs.
Qed.
Lemma gather_spec txs : ∀ p p', gather decode convert chain txs p = Some p' → ∀ a n q, pool_get p' a n = Some q ↔
  last_eth txs a n q ∨ (pool_get p a n = Some q ∧ ∀ raw q', raw ∈ txs → ¬ is_eth raw a n q').
Proof.
  induction txs as [|raw txs IH]; intros p p' H a n q.
  - cbn in H. injection H as <-. split.
    + intros E. right. split; [done|]. intros r q' Hin. by apply elem_of_nil in Hin.
    + intros [(b & r & l & E & _)|[E _]]; [by destruct b|done].
  - cbn [gather] in H. destruct (decode raw) as [x|] eqn:Hx; [|done]. cbn [mbind option_bind] in H. rewrite last_cons.
    assert (Hskip : (∀ b m r, ¬ is_eth raw b m r) → gather decode convert chain txs p = Some p' →
      pool_get p' a n = Some q ↔ (last_eth txs a n q ∨ is_eth raw a n q ∧ (∀ raw' q', raw' ∈ txs → ¬ is_eth raw' a n q')) ∨
      pool_get p a n = Some q ∧ (∀ raw0 q', raw0 ∈ raw :: txs → ¬ is_eth raw0 a n q')).
    { intros Hno Hg. rewrite (IH _ _ Hg a n q). split.
      - intros [?|[? Hn]]; [by left; left|]. right. split; [done|]. intros r q' [->|Hr]%elem_of_cons; [apply Hno|by apply Hn].
      - intros [[?|[? _]]|[? Hn]]; [by left|by apply Hno in H0|]. right. split; [done|]. intros r q' Hr. apply Hn. by right. }
    destruct (convert x) as [| |t s] eqn:Hc; [done| |].
    { apply Hskip; [|done]. intros b m r (x' & t & c & H1 & H2 & _). congruence. }
    destruct (tx_common t) as [c|] eqn:Ht; [destruct (new_rpc_tx t zero_hash 0 0 chain) as [qq|] eqn:Hq|].
    2,3: (apply Hskip; [|exact H]; intros b m r (x' & t' & c' & H1 & H2 & H3 & H4 & H5); congruence).
    assert (Hme : is_eth raw s (f_nonce c) qq) by (exists x, t, c; done).
    rewrite (IH _ _ H a n q), get_put. clear H. destruct (decide (s = a ∧ f_nonce c = n)) as [[-> <-]|Hne].
    + split.
      * intros [?|[[= <-] Hn]]; [by left; left|]. left. right. done.
      * intros [[?|[Hq' Hn]]|[_ Hn]]; [by left| |].
        -- right. destruct (is_eth_fun _ _ _ _ _ _ _ Hme Hq') as (_ & _ & ->). done.
        -- destruct (Hn raw qq); [by left|done].
    + split.
      * intros [?|[? Hn]]; [by left; left|]. right. split; [done|]. intros r q' [->|Hr]%elem_of_cons; [|by apply Hn].
        intros Hr. destruct (is_eth_fun _ _ _ _ _ _ _ Hme Hr) as (? & ? & _). by destruct Hne.
      * intros [[?|[Hr _]]|[? Hn]]; [by left| |].
        -- destruct (is_eth_fun _ _ _ _ _ _ _ Hme Hr) as (? & ? & _). by destruct Hne.
        -- right. split; [done|]. intros r q' Hr. apply Hn. by right.
Qed.
Lemma gather_some txs : ∀ p, is_Some (gather decode convert chain txs p) ↔ ∀ raw, raw ∈ txs → ∃ x, decode raw = Some x ∧ convert x ≠ CErr.
Proof.
  induction txs as [|raw txs IH]; intros p.
  - split; [|by eexists]. intros _ r Hr. by apply elem_of_nil in Hr.
  - cbn [gather]. destruct (decode raw) as [x|] eqn:Hx; cbn [mbind option_bind].
    + assert (Hgo : ∀ p', convert x ≠ CErr → is_Some (gather decode convert chain txs p') ↔
          ∀ r, r ∈ raw :: txs → ∃ x, decode r = Some x ∧ convert x ≠ CErr).
      { intros p' Hc. rewrite IH. split.
        - intros H r [->|Hr]%elem_of_cons; [by exists x|by apply H].
        - intros H r Hr. apply H. by right. }
      destruct (convert x) as [| |t s] eqn:Hc.
      * split; [by intros [? ?]|]. intros H. destruct (H raw) as (y & Hy & Hn); [by left|]. congruence.
      * by apply Hgo.
      * destruct (tx_common t); [|by apply Hgo]. destruct (new_rpc_tx t zero_hash 0 0 chain); by apply Hgo.
    + split; [by intros [? ?]|]. intros H. destruct (H raw) as (y & Hy & _); [by left|]. congruence.
Qed.

(** ** C94 *)
(** txpool_content shows an account's transaction with a nonce exactly if there is one among
    the first hundred of the mempool, or in the queue; the last one, if there are several. *)
Theorem C94_content mempool queued pending later : tx_pool_content decode convert chain mempool queued = Some (pending, later) →
  ∀ a n q, (pool_get pending a n = Some q ↔ last_eth (take 100 mempool) a n q) ∧ (pool_get later a n = Some q ↔ last_eth queued a n q).
Proof.
  unfold tx_pool_content. intros H a n q.
  destruct (gather _ _ _ (take 100 mempool) ∅) as [p1|] eqn:H1; [|done]. cbn in H.
  destruct (gather _ _ _ queued ∅) as [p2|] eqn:H2; [|done]. cbn in H. injection H as <- <-.
  rewrite (gather_spec _ _ _ H1), (gather_spec _ _ _ H2). unfold pool_get at 1 2. rewrite !lookup_empty. cbn. naive_solver.
Qed.
(** It answers exactly if all of these can be decoded and none fails to convert. *)
Theorem C94_answers mempool queued : is_Some (tx_pool_content decode convert chain mempool queued) ↔
  ∀ raw, raw ∈ take 100 mempool ++ queued → ∃ x, decode raw = Some x ∧ convert x ≠ CErr.
Proof.
  unfold tx_pool_content. transitivity (is_Some (gather decode convert chain (take 100 mempool) ∅) ∧ is_Some (gather decode convert chain queued ∅)).
  - destruct (gather _ _ _ (take 100 mempool) ∅); cbn; [|split; [intros [? ?]|intros [[? ?] _]]; done].
    destruct (gather _ _ _ queued ∅); cbn; [split; by eauto|split; [intros [? ?]|intros [_ [? ?]]]; done].
  - rewrite !gather_some. split.
    + intros [H1 H2] raw [?|?]%elem_of_app; auto.
    + intros H. split; intros raw Hr; apply H, elem_of_app; auto.
Qed.
(** txpool_contentFrom answers that account's part of it, txpool_inspect the same entries. *)
Theorem C94_content_from mempool queued pending later a : tx_pool_content decode convert chain mempool queued = Some (pending, later) →
  ∃ p l, tx_pool_content_from decode convert chain mempool queued a = Some (p, l) ∧
    ∀ n, p !! n = pool_get pending a n ∧ l !! n = pool_get later a n.
Proof.
  intros H. unfold tx_pool_content_from. rewrite H. cbn. eexists _, _. split; [done|]. intros n. unfold pool_get.
  by destruct (pending !! a), (later !! a).
Qed.
Lemma is_eth_nonce raw a n q : is_eth raw a n q → q_nonce q = n.
Proof.
  intros (x & t & c & _ & _ & H3 & <- & H5). unfold new_rpc_tx in H5. rewrite H3 in H5. cbn in H5.
  destruct (tx_sig t) as [[? ?] ?]. injection H5 as <-. done.
Qed.
Lemma inspect_get (p : pool) (Hn : ∀ a n q, pool_get p a n = Some q → q_nonce q = n) a n :
  (m ← inspect_pool p !! a; m !! n) = inspect_line <$> pool_get p a n.
Proof.
  unfold inspect_pool, pool_get. rewrite lookup_fmap. destruct (p !! a) as [m|] eqn:Ha; [|done]. cbn.
  assert (Hm : ∀ n q, m !! n = Some q → q_nonce q = n) by (intros n' q' H; apply (Hn a); unfold pool_get; by rewrite Ha).
  assert (E : (λ e : N * rpc_tx, (q_nonce e.2, inspect_line e.2)) <$> map_to_list m = (λ e : N * rpc_tx, (e.1, inspect_line e.2)) <$> map_to_list m).
  { apply list_fmap_ext. intros i [n' q'] Hi. cbn. f_equal. apply Hm. apply elem_of_map_to_list. by eapply elem_of_list_lookup_2. }
  rewrite E. replace (list_to_map ((λ e : N * rpc_tx, (e.1, inspect_line e.2)) <$> map_to_list m)) with (inspect_line <$> m); [by rewrite lookup_fmap|].
  rewrite <- (list_to_map_to_list m) at 1. rewrite <- list_to_map_fmap. f_equal.
Qed.
Theorem C94_inspect mempool queued pending later : tx_pool_content decode convert chain mempool queued = Some (pending, later) →
  ∃ p l, tx_pool_inspect decode convert chain mempool queued = Some (p, l) ∧
    ∀ a n, (m ← p !! a; m !! n) = inspect_line <$> pool_get pending a n ∧ (m ← l !! a; m !! n) = inspect_line <$> pool_get later a n.
Proof.
  intros H. unfold tx_pool_inspect. rewrite H. cbn. eexists _, _. split; [done|].
  assert (Hn : (∀ a n q, pool_get pending a n = Some q → q_nonce q = n) ∧ ∀ a n q, pool_get later a n = Some q → q_nonce q = n).
  { split; intros a n q Hg; destruct (C94_content _ _ _ _ H a n q) as [H1 H2].
    - apply H1 in Hg as (b & r & af & _ & Hr & _). by eapply is_eth_nonce.
    - apply H2 in Hg as (b & r & af & _ & Hr & _). by eapply is_eth_nonce. }
  intros a n. split; apply inspect_get; apply Hn.
Qed.
(** With the queue as it ever is (TxQueue.v), [later] shows for an account and nonce the one
    transaction queued under them. *)
Theorem C94_queued cap seqs env s pending later mempool : qreach cap seqs env s →
  (∀ k x, (k, x) ∈ q_queue s → ∃ q, is_eth (qt_body x) (qt_from x) (qt_nonce x) q) →
  tx_pool_content decode convert chain mempool (reverse ((fun e => qt_body e.2) <$> q_queue s)) = Some (pending, later) →
  ∀ a n q, pool_get later a n = Some q ↔ ∃ x, lru_find (cache_key a n) (q_queue s) = Some x ∧ is_eth (qt_body x) a n q.
Proof.
  intros Hr Hq Hc a n q. pose proof (QI_lru s (qinv_reach _ _ _ _ Hr)) as Hok.
  destruct (C94_content _ _ _ _ Hc a n q) as [_ ->].
  assert (Huniq : ∀ raw1 raw2 q1 q2, raw1 ∈ reverse ((fun e => qt_body e.2) <$> q_queue s) → raw2 ∈ reverse ((fun e => qt_body e.2) <$> q_queue s) →
     is_eth raw1 a n q1 → is_eth raw2 a n q2 → ∃ x, (cache_key a n, x) ∈ q_queue s ∧ raw1 = qt_body x ∧ raw2 = qt_body x).
  { intros raw1 raw2 q1 q2 Hr1 Hr2 H1 H2. apply elem_of_reverse, elem_of_list_fmap in Hr1 as ([k1 x1] & -> & Hx1).
    apply elem_of_reverse, elem_of_list_fmap in Hr2 as ([k2 x2] & -> & Hx2). cbn in *.
    destruct (Hq _ _ Hx1) as (qa & Ha). destruct (is_eth_fun _ _ _ _ _ _ _ H1 Ha) as (E1 & E2 & _).
    destruct (Hq _ _ Hx2) as (qb & Hb). destruct (is_eth_fun _ _ _ _ _ _ _ H2 Hb) as (E3 & E4 & _).
    pose proof (lru_key _ _ _ Hok Hx1) as K1. pose proof (lru_key _ _ _ Hok Hx2) as K2. unfold key_of in *. subst k1 k2.
    rewrite <- E1, <- E2 in Hx1. rewrite <- E3, <- E4 in Hx2. exists x1. split; [done|]. split; [done|].
    by rewrite (lru_uniq _ _ _ _ Hok Hx1 Hx2). }
  split.
  - intros (before & raw & after & E & Hraw & _).
    assert (Hin : raw ∈ reverse ((fun e => qt_body e.2) <$> q_queue s)) by (rewrite E; apply elem_of_app; right; by left).
    destruct (Huniq raw raw q q Hin Hin Hraw Hraw) as (x & Hx & -> & _). exists x. split; [|done].
    destruct (lru_find (cache_key a n) (q_queue s)) as [y|] eqn:Hf.
    + apply lru_find_some in Hf. f_equal. by eapply lru_uniq.
    + by apply (lru_find_none _ _ Hf) in Hx.
  - intros (x & Hf & Hx). apply lru_find_some in Hf.
    assert (Hin : qt_body x ∈ reverse ((fun e => qt_body e.2) <$> q_queue s)).
    { apply elem_of_reverse, elem_of_list_fmap. by exists (cache_key a n, x). }
    (* the last occurrence *)
    assert (Hlast : ∀ txs, qt_body x ∈ txs → (∀ r, r ∈ txs → r ∈ reverse ((fun e => qt_body e.2) <$> q_queue s)) → last_eth txs a n q).
    { induction txs as [|r txs IH]; intros Hi Hsub; [by apply elem_of_nil in Hi|]. apply last_cons.
      destruct (decide (qt_body x ∈ txs)) as [Hi'|Hi']; [left; apply IH; [done|]; intros; apply Hsub; by right|].
      apply elem_of_cons in Hi as [<-|Hi]; [|done]. right. split; [done|]. intros r' q' Hr' He.
      destruct (Huniq (qt_body x) r' q q' Hin (Hsub r' ltac:(by right)) Hx He) as (y & _ & E1 & E2). congruence. }
    by apply Hlast.
Qed.

(** ** C95 *)
(** txpool_status counts everything, txpool_content shows Ethereum transactions among the
    first hundred: the two numbers do not agree. *)
Theorem C95_more_than_hundred_refuted mempool queued pending later raw a n q :
  tx_pool_content decode convert chain (mempool ++ [raw]) queued = Some (pending, later) →
  (100 <= length mempool)%nat → is_eth raw a n q → (∀ r q', r ∈ mempool → ¬ is_eth r a n q') →
  pool_get pending a n = None ∧ (tx_pool_status (mempool ++ [raw]) queued).1 = S (length mempool).
Proof.
  intros H Hl Hr Hno. split; [|cbn; rewrite app_length; cbn; lia].
  destruct (pool_get pending a n) as [q'|] eqn:E; [|done]. apply (C94_content _ _ _ _ H) in E as (b & r & af & E & Hr' & _).
  rewrite take_app_le in E by done. exfalso. apply (Hno r q'); [|done]. eapply elem_of_list_lookup_2 with (i := length b).
  assert (r ∈ take 100 mempool) as Hin by (rewrite E; apply elem_of_app; right; by left).
  assert (take 100 mempool !! length b = Some r) as Hk by (rewrite E; by rewrite list_lookup_middle).
  by apply lookup_take_Some in Hk as [? _].
Qed.
Theorem C95_status_counts_others_refuted raw x : decode raw = Some x → convert x = CNil →
  tx_pool_content decode convert chain [raw] [] = Some (∅, ∅) ∧ tx_pool_status [raw] [] = (1, 0)%nat.
Proof. intros H1 H2. unfold tx_pool_content. cbn. rewrite H1. cbn. rewrite H2. done. Qed.
(** One transaction that cannot be converted empties the whole answer. *)
Theorem C95_one_hides_all_refuted before raw after queued x : (length before < 100)%nat → decode raw = Some x → convert x = CErr →
  tx_pool_content decode convert chain (before ++ raw :: after) queued = None.
Proof.
  intros Hl Hd Hc. destruct (tx_pool_content _ _ _ _ _) eqn:E; [|done].
  assert (Hs : is_Some (tx_pool_content decode convert chain (before ++ raw :: after) queued)) by eauto.
  apply (C94_answers _ _) with (raw := raw) in Hs as (y & Hy & Hn); [congruence|].
  apply elem_of_app. left. rewrite take_app_ge by lia. apply elem_of_app. right.
  destruct (100 - length before)%nat eqn:E'; [lia|]. by left.
Qed.
End txpool.

(** A transaction whose Ethereum signature verifies never makes the conversion fail, nor does
    one not signed in that mode: so neither a mempool that checks signatures nor the queue
    holds one that does (C95_one_hides_all), as long as the fee token is unchanged. *)
Theorem C94_verified_convert keccak bech_dec recover pub_addr fee_denom decimals cid x :
  (∀ sg b, c_sigs x = [sg] → s_data sg = Some (mode_ethereum, b) →
     verify_eth keccak bech_dec recover pub_addr fee_denom decimals cid x = true) →
  cosmos_to_eth keccak bech_dec pub_addr fee_denom decimals cid x ≠ CErr.
Proof.
  intros Hv Hc. unfold verify_eth in Hv. rewrite Hc in Hv. revert Hc. unfold cosmos_to_eth.
  destruct (c_msgs x) as [|m [|? ?]]; try done. destruct (c_memo x) as [md|]; try done.
  destruct (c_sigs x) as [|sg [|? ?]]; try done.
  destruct (match c_fee x with [] => false | _ => _ end); [done|]. destruct (negb _); [done|].
  destruct (s_data sg) as [[mode b]|] eqn:Hs; [|done]. destruct (negb (mode =? mode_ethereum)%Z) eqn:Hm; [done|].
  apply negb_false_iff, Z.eqb_eq in Hm. subst mode. specialize (Hv sg b eq_refl Hs). done.
Qed.

(** A concrete pool: one pending and one queued transaction of account [1], nonces 7 and 9, and
    a Cosmos transaction between them. *)
Definition ex_decode (raw : bytes) : option cosmos_tx := Some (CTx [] None [CSig raw None 0] [] 0).
Definition ex_convert (x : cosmos_tx) : conv :=
  match c_sigs x with
  | [sg] => match s_pub sg with
            | [n] => COk (LegacyTx (Com n 21000 (Some (replicate 20 2)) 5 []) 1 27 1 1) [1]
            | _ => CNil
            end
  | _ => CErr
  end.
Theorem C94_example : ∃ p l, tx_pool_content ex_decode ex_convert 1 [[7]; [3; 3]] [[9]] = Some (p, l) ∧
  (q_nonce <$> pool_get p [1] 7) = Some 7 ∧ pool_get p [1] 9 = None ∧ (q_nonce <$> pool_get l [1] 9) = Some 9 ∧
  tx_pool_status [[7]; [3; 3]] [[9]] = (2, 1)%nat.
Proof. by eexists _, _. Qed.
