(** C81-C89: JSON-RPC gas prices, state queries, calls and estimates (Model/Rpc.v). *)
From Verif.Base Require Import Prelude Hex.
From Verif.Model Require Import Fees EthTx Rpc.
From Verif.Proofs Require Import BytesP HexP EthTxP RpcP.
From Verif.Props Require Import EthTxProps.
Local Open Scope Z_scope.

(** ** C81: the quoted gas price is accepted *)
(** [p] is the minimum gas price scaled by 10^18. Paying the quoted price is accepted for every
    gas limit exactly when the price is a whole number of wei with at most nine decimals. *)
Theorem C81_quote_accepted_iff d p : 0 <= d <= 246 -> 0 <= p ->
  ((forall gas, 0 < gas < 2 ^ 63 -> fee_accepted p gas (compute_gas_fee_amount (eth_gas_price d p) gas d) = true) <->
   (10 ^ Z.max 9 d | p)).
Proof.
  intros Hd Hp. pose proof (gas_price_scaled d p Hd Hp) as Hq. pose proof (gas_price_nonneg d p Hd Hp) as Hn.
  set (M := 10 ^ Z.max 9 d) in *. assert (HM : 0 < M) by (apply pow10_pos; lia).
  pose proof (pow10_pos d ltac:(lia)) as HD.
  set (g := eth_gas_price d p) in *.
  assert (H18 : 0 < dec_one) by (apply pow10_pos; lia).
  pose proof (Z.div_mod p M ltac:(lia)) as Hdm. pose proof (Z.mod_pos_bound p M HM) as Hmb.
  split.
  - intros H. apply Z.mod_divide; [lia|]. destruct (Z.eq_dec (p mod M) 0) as [|Hnz]; [done|]. exfalso.
    specialize (H (10 ^ 18 + 1) ltac:(lia)). unfold fee_accepted, compute_gas_fee_amount in H. apply Z.leb_le in H.
    destruct (Z.eqb_spec g 0) as [E|E].
    + rewrite E in Hq. nia.
    + pose proof (from_ethers_scaled d (g * (10 ^ 18 + 1)) ltac:(lia) ltac:(nia)) as [Hf _].
      unfold dec_one in *. remember (from_ethers d (g * (10 ^ 18 + 1))) as fe. change (10 ^ 18) with 1000000000000000000 in *. nia.
  - intros [k Hk] gas Hg. unfold fee_accepted, compute_gas_fee_amount. apply Z.leb_le.
    assert (Hpg : g * 10 ^ d = p) by (rewrite Hq, Hk, Z.div_mul by lia; done).
    destruct (Z.eqb_spec g 0) as [E|E]; [rewrite E in Hpg; lia|].
    pose proof (from_ethers_scaled d (g * gas) ltac:(lia) ltac:(nia)) as [_ Hf].
    replace (p * gas) with (g * gas * 10 ^ d) by lia. lia.
Qed.
(** In every case the shortfall per unit of gas is below one wei (or 10^-9 chain units). *)
Theorem C81_shortfall d p gas : 0 <= d <= 246 -> 0 <= p -> 0 < gas ->
  p * gas < compute_gas_fee_amount (eth_gas_price d p) gas d * dec_one + gas * 10 ^ Z.max 9 d.
Proof.
  intros Hd Hp Hg. pose proof (gas_price_scaled d p Hd Hp) as Hq. pose proof (gas_price_nonneg d p Hd Hp) as Hn.
  set (M := 10 ^ Z.max 9 d) in *. assert (HM : 0 < M) by (apply pow10_pos; lia).
  set (g := eth_gas_price d p) in *. pose proof (pow10_pos d ltac:(lia)) as HD.
  pose proof (Z.div_mod p M ltac:(lia)) as Hdm. pose proof (Z.mod_pos_bound p M HM) as Hmb.
  unfold compute_gas_fee_amount. destruct (Z.eqb_spec g 0) as [E|E].
  - rewrite E in Hq. nia.
  - pose proof (from_ethers_scaled d (g * gas) ltac:(lia) ltac:(nia)) as [_ Hf]. nia.
Qed.
(** 0.15 umin of 6 decimals is quoted exactly; half a wei of an 18-decimals token is quoted as 0. *)
Example C81_examples : eth_gas_price 6 (15 * 10 ^ 16) = 150000000000 /\ (10 ^ Z.max 9 6 | 15 * 10 ^ 16) /\
  eth_gas_price 18 (5 * 10 ^ 17) = 0 /\ fee_accepted (5 * 10 ^ 17) 21000 (compute_gas_fee_amount 0 21000 18) = false.
Proof. split; [done|]. split; [exists (15 * 10 ^ 7); done|]. split; done. Qed.

(** ** C82: a query about a past block reads that block's state *)
Section history.
Context {S : Type} (st : Z -> S) (fee_denom_of : S -> text) (decimals_of : S -> text -> option Z)
  (balance_of : S -> bytes -> text -> option Z) (sequence_of : S -> bytes -> option N) (check_state : S)
  (idx : bytes -> option Z).

Lemma latest_version n : 0 < nd_latest n -> create_query_context n 0 = Some (nd_latest n).
Proof.
  intros Hn. unfold create_query_context. change (0 <? 0) with false. change (0 =? 0) with true. cbv iota.
  destruct (Z.eqb_spec (nd_latest n) 0); [lia|]. destruct (Z.ltb_spec (nd_latest n) 0); [lia|]. done.
Qed.
Lemma past_version n m h : node_ok n -> node_ok m -> later n m -> 1 <= h < nd_status n -> nd_pruned m < h ->
  query_ctx_at n m h = Some h.
Proof.
  intros (_ & _ & Hn & Hb) (Hp0 & Hp & Hm & Hb') (L1 & L2 & L3) Hh Hpr. unfold query_ctx_at, to_int64.
  destruct (Z.leb_spec (nd_status n) h); [lia|]. destruct (Z.ltb_spec h (2 ^ 63)); [|lia].
  unfold create_query_context. destruct (Z.ltb_spec h 0); [lia|]. destruct (Z.eqb_spec (nd_latest m) 0); [lia|].
  destruct (Z.ltb_spec (nd_latest m) h); [lia|]. destruct (Z.eqb_spec h 0); [lia|]. destruct (Z.leb_spec h (nd_pruned m)); [lia|done].
Qed.
(** Whatever happens between the steps of the request, a block below the head that is not
    pruned is answered from its own state: by number, by hash, for any read and for nonces. *)
Theorem C82_past_block n1 n2 n3 h hash A (f : S -> A) a :
  node_ok n2 -> node_ok n3 -> later n2 n3 -> 1 <= h < nd_status n2 -> nd_pruned n3 < h -> idx hash = Some h ->
  state_query st idx n1 n2 n3 (ByNumber h) f = Some (f (st h)) /\
  state_query st idx n1 n2 n3 (ByHash hash) f = Some (f (st h)) /\
  get_transaction_count st sequence_of check_state idx n2 n3 (ByNumber h) a = Some (Some (default 0%N (sequence_of (st h) a))) /\
  get_transaction_count st sequence_of check_state idx n2 n3 (ByHash hash) a = Some (Some (default 0%N (sequence_of (st h) a))).
Proof.
  intros H2 H3 HL Hh Hp Hi. pose proof (past_version n2 n3 h H2 H3 HL Hh Hp) as Hv.
  destruct H2 as (_ & _ & _ & Hb).
  assert (Hr : resolve_ref idx n1 (ByNumber h) = Some h).
  { cbn. destruct (Z.ltb_spec h 0); [lia|]. destruct (Z.eqb_spec h 0); [lia|]. done. }
  unfold state_query, state_version. rewrite Hr. cbn [resolve_ref]. rewrite Hi, Hv. split; [done|]. split; [done|].
  assert (Hc : (if h =? -1 then FromCheckState else match query_ctx_at n2 n3 (if h <? 0 then 0 else h) with Some v => FromVersion v | None => CountError end) = FromVersion h).
  { destruct (Z.eqb_spec h (-1)); [lia|]. destruct (Z.ltb_spec h 0); [lia|]. rewrite Hv. done. }
  unfold get_transaction_count. split.
  - cbn [count_source_of]. rewrite Hc. done.
  - cbn [count_source_of]. rewrite Hi. unfold to_int64. destruct (Z.ltb_spec h (2 ^ 63)); [|lia]. rewrite Hc. done.
Qed.
(** eth_getBalance at a past block, as long as the fee token is the same since then. *)
Theorem C82_past_balance n1 n2 n3 n4 n5 h a denom d :
  node_ok n2 -> node_ok n3 -> node_ok n4 -> node_ok n5 -> later n2 n3 -> later n3 n4 -> later n4 n5 ->
  1 <= h < nd_status n2 -> nd_pruned n3 < h ->
  (forall v, h <= v -> fee_denom_of (st v) = denom /\ decimals_of (st v) denom = Some d) ->
  get_balance st fee_denom_of decimals_of balance_of idx n1 n2 n3 n4 n5 (ByNumber h) a = to_ethers d <$> balance_of (st h) a denom.
Proof.
  intros H2 H3 H4 H5 L23 L34 L45 Hh Hp Hc. pose proof (past_version n2 n3 h H2 H3 L23 Hh Hp) as Hv.
  assert (Hr : resolve_ref idx n1 (ByNumber h) = Some h).
  { cbn. destruct (Z.ltb_spec h 0); [lia|]. destruct (Z.eqb_spec h 0); [lia|]. done. }
  unfold get_balance, state_version. rewrite Hr, Hv. cbn [mbind option_bind].
  destruct H2 as (? & ? & ? & ?), H3 as (? & ? & ? & ?), H4 as (? & ? & ? & ?), H5 as (? & ? & ? & ?).
  destruct L23 as (? & ? & ?), L34 as (? & ? & ?), L45 as (? & ? & ?).
  rewrite (latest_version n4), (latest_version n5) by lia. cbn [mbind option_bind].
  destruct (Hc (nd_latest n4) ltac:(lia)) as [-> _]. destruct (Hc (nd_latest n5) ltac:(lia)) as [_ ->]. cbn [mbind option_bind].
  destruct (balance_of (st h) a denom); done.
Qed.
(** A tag ("latest", "pending", "safe", "finalized") or no block reads a state at least as
    new as the newest one when the request began, and not newer than when it was read; exactly
    the newest when nothing happens meanwhile. *)
Theorem C82_tags n1 n2 n3 r :
  node_ok n1 -> node_ok n2 -> node_ok n3 -> later n1 n2 -> later n2 n3 -> 1 <= nd_latest n1 -> nd_pruned n3 < nd_latest n1 ->
  r = NoRef \/ (exists z, z < 0 /\ r = ByNumber z) ->
  exists v, state_version idx n1 n2 n3 r = Some v /\ nd_latest n1 <= v <= nd_latest n3 /\
    (n1 = n2 -> n2 = n3 -> v = nd_latest n1).
Proof.
  intros H1 H2 H3 L12 L23 Hl Hp Hr.
  assert (Hres : resolve_ref idx n1 r = Some (nd_status n1)).
  { destruct Hr as [->|(z & Hz & ->)]; [done|]. cbn. destruct (Z.ltb_spec z 0); [done|lia]. }
  unfold state_version. rewrite Hres.
  destruct H1 as (? & ? & ? & ?), L12 as (? & ? & ?). destruct (Z.lt_ge_cases (nd_status n1) (nd_status n2)) as [Hlt|Hge].
  - exists (nd_status n1). rewrite (past_version n2 n3 (nd_status n1)) by (done || lia). split; [done|].
    destruct H2 as (? & ? & ? & ?), L23 as (? & ? & ?). split; [lia|]. intros -> _. lia.
  - exists (nd_latest n3). unfold query_ctx_at. destruct (Z.leb_spec (nd_status n2) (nd_status n1)); [|lia].
    destruct H3 as (? & ? & ? & ?), H2 as (? & ? & ? & ?), L23 as (? & ? & ?). change (to_int64 0) with 0. rewrite latest_version by lia. split; [done|]. split; [lia|]. intros -> ->. done.
Qed.
(** Nonces: "pending" is what the mempool check sees; unknown hashes give null for nonces and
    an error otherwise. *)
Theorem C82_pending_and_unknown n1 n2 n3 hash a A (f : S -> A) :
  get_transaction_count st sequence_of check_state idx n2 n3 (ByNumber (-1)) a = Some (Some (default 0%N (sequence_of check_state a))) /\
  (idx hash = None ->
   get_transaction_count st sequence_of check_state idx n2 n3 (ByHash hash) a = Some None /\
   state_query st idx n1 n2 n3 (ByHash hash) f = None).
Proof. split; [done|]. intros Hi. unfold get_transaction_count, state_query, state_version. cbn. rewrite Hi. done. Qed.

(** ** C83: queries never answer for another block (refuted) *)
(** Any number from the head on is answered from the latest state. *)
Theorem C83_future_block_refuted n h : node_ok n -> 1 <= nd_latest n -> nd_status n <= h ->
  state_version idx n n n (ByNumber h) = Some (nd_latest n) /\
  count_source_of idx n n (ByNumber h) = FromVersion (nd_latest n).
Proof.
  intros (? & ? & ? & ?) Hl Hh.
  assert (Hq : query_ctx_at n n h = Some (nd_latest n)).
  { unfold query_ctx_at. destruct (Z.leb_spec (nd_status n) h); [|lia]. change (to_int64 0) with 0. apply latest_version. lia. }
  unfold state_version, count_source_of, resolve_ref.
  destruct (Z.ltb_spec h 0); [lia|]. destruct (Z.eqb_spec h 0); [lia|]. destruct (Z.eqb_spec h (-1)); [lia|]. rewrite Hq. done.
Qed.
(** "earliest" (block 0): states are those of block 1, nonces those of the latest block. *)
Theorem C83_earliest_nonce_refuted n : node_ok n -> 2 <= nd_latest n -> nd_pruned n = 0 ->
  state_version idx n n n (ByNumber 0) = Some 1 /\ count_source_of idx n n (ByNumber 0) = FromVersion (nd_latest n).
Proof.
  intros Hn Hl Hp. split.
  - unfold state_version. cbn [resolve_ref Z.ltb Z.eqb Z.compare]. apply past_version; try done; destruct Hn as (? & ? & ? & ?); unfold later; lia.
  - destruct Hn as (? & ? & ? & ?). unfold count_source_of, query_ctx_at. cbn [Z.eqb Z.ltb Z.compare Z.opp].
    replace (if nd_status n <=? 0 then 0 else 0) with 0 by (destruct (nd_status n <=? 0); done).
    change (to_int64 0) with 0. rewrite latest_version by lia. done.
Qed.
(** A request for the head block itself, while the next block is committed between the two
    steps, gets the next block's state. *)
Theorem C83_head_race_refuted n m : node_ok n -> node_ok m -> 1 <= nd_latest n -> nd_latest n = nd_status n ->
  nd_latest m = nd_latest n + 1 ->
  query_ctx_at n m (nd_latest n) = Some (nd_latest n + 1).
Proof.
  intros _ _ Hl He Hm. unfold query_ctx_at. destruct (Z.leb_spec (nd_status n) (nd_latest n)); [|lia].
  change (to_int64 0) with 0. rewrite latest_version by lia. rewrite Hm. done.
Qed.
End history.
(** When the fee token changes, eth_getBalance of earlier blocks is in the new token: here block
    1 had fee token "a" (balance 5) and block 2 has fee token "b". *)
Definition hist_denom (v : Z) : text := if v =? 1 then txt "a" else txt "b".
Theorem C83_balance_of_other_token_refuted :
  exists n, node_ok n /\
  let bal (v : Z) (a : bytes) (d : text) := Some (if decide (d = txt "a") then 5 else 0) in
  let get := get_balance (fun v => v) hist_denom (fun _ _ => Some 18) bal (fun _ => None) n n n n n in
  hist_denom 1 = txt "a" /\ bal 1 [] (hist_denom 1) = Some 5 /\ get (ByNumber 1) [] = Some 0.
Proof. exists (Node 3 3 0). split; [unfold node_ok; cbn; lia|]. vm_compute. done. Qed.
Example C82_hypotheses : node_ok (Node 11 10 2) /\ node_ok (Node 13 13 3) /\ later (Node 11 10 2) (Node 13 13 3) /\
  state_version (fun _ => Some 7) (Node 11 10 2) (Node 11 10 2) (Node 13 13 3) (ByHash []) = Some 7.
Proof. unfold node_ok, later. cbn. split; [lia|]. split; [lia|]. split; [lia|]. done. Qed.

Lemma from_ethers_0 d : from_ethers d 0 = 0.
Proof. unfold from_ethers. destruct (d =? 18); [done|]. destruct (18 <? d); [done|]. apply Zdiv_0_l. Qed.
(** ** C84: eth_call and eth_estimateGas run what the transaction would run *)
Section calls.
Context (keccak : bytes -> bytes) (ck : bytes -> nat -> bool) (bech_enc : bytes -> text) (bech_dec : text -> option bytes)
  (recover : content -> N -> Z -> Z -> option bytes) (pub_addr : bytes -> bytes) (fee_denom : text) (decimals : Z) (cid : bytes).
Hypothesis bech_rt : forall a, length a = 20%nat -> bech_dec (bech_enc a) = Some a.
Hypothesis bech_ne : forall a, length a = 20%nat -> bech_enc a <> [].
Notation to_cosmos := (eth_to_cosmos keccak ck bech_enc recover pub_addr fee_denom decimals cid).
Notation sender_of := (eth_sender recover pub_addr (eth_chain_id keccak cid)).
Notation call_run := (eth_call_invocation bech_enc bech_dec ck).
Notation msg_run := (msg_invocation bech_dec).
(** The arguments a client passes for the transaction's content. *)
Definition args_of (from : bytes) (c : common_fields) : call_args :=
  CallArgs (Some from) (f_to c) (Some (f_value c)) (Some (f_nonce c)) None (Some (f_data c)).

Lemma accepted_msg t x c from : to_cosmos t = Some x -> tx_common t = Some c -> sender_of t = Some from ->
  to_ethers decimals (from_ethers decimals (f_value c)) = f_value c /\ Z.abs (from_ethers decimals (f_value c)) < 2 ^ 256 /\
  c_msgs x = [match f_to c with
              | None => CCreate (bech_enc from) (hexutil_encode (f_data c)) (from_ethers decimals (f_value c)) (al_to_text ck (tx_al t))
              | Some to => CCall (bech_enc from) (address_hex ck to) (hexutil_encode (f_data c)) (from_ethers decimals (f_value c)) (al_to_text ck (tx_al t))
              end].
Proof.
  intros Hx Hc Hs. unfold eth_to_cosmos in Hx. rewrite Hc in Hx. cbn [mbind option_bind] in Hx.
  destruct (fits256 _ && fits256 _) eqn:Hf; [|done]. cbn [negb] in Hx. apply andb_true_iff in Hf as [_ Hf].
  destruct (Z.eqb_spec (to_ethers decimals (from_ethers decimals (f_value c))) (f_value c)) as [He|]; [|done]. cbn [negb] in Hx.
  unfold eth_sender in Hs. destruct (recover_sender _ _ t) as [p|]; [|done]. cbn in Hs. injection Hs as <-. cbn [mbind option_bind] in Hx.
  destruct (tx_sig t) as [[v r] s]. destruct (sig_v _ t) as [v'|]; [|done]. cbn [mbind option_bind] in Hx.
  destruct (3 <? v')%N; [done|]. destruct (recover _ v' r s); [|done]. cbn [mbind option_bind] in Hx. injection Hx as <-. cbn [c_msgs].
  split; [done|]. split; [apply Z.ltb_lt; done|]. destruct (f_to c); done.
Qed.
Lemma contract_address_hex a : bytes_ok a -> length a = 20%nat -> contract_address bech_dec (address_hex ck a) = Some a.
Proof. intros Hb Hl. unfold contract_address. rewrite is_hex_address_hex, hex_to_address_hex by done. done. Qed.
Lemma msg_run_call from to data v al : length from = 20%nat -> wf_address to -> bytes_ok data -> 0 <= v < 2 ^ 256 ->
  msg_run (CCall (bech_enc from) (address_hex ck to) (hexutil_encode data) v al) = Some (InvCall from to data v []).
Proof.
  intros Hf [Ht1 Ht2] Hd Hv. cbn [msg_invocation]. rewrite bech_rt by done. cbn [mbind option_bind].
  rewrite contract_address_hex by done. cbn [mbind option_bind]. rewrite hexutil_decode_encode by done. cbn [mbind option_bind].
  unfold u256_from_big. destruct (Z.ltb_spec (Z.abs v) (2 ^ 256)); [|lia]. cbn [mbind option_bind]. rewrite Z.mod_small by lia. done.
Qed.
Lemma msg_run_create from data v al : length from = 20%nat -> bytes_ok data -> 0 <= v < 2 ^ 256 ->
  msg_run (CCreate (bech_enc from) (hexutil_encode data) v al) = Some (InvCreate from data v None (al_of_text al)).
Proof.
  intros Hf Hd Hv. cbn [msg_invocation]. rewrite bech_rt by done. cbn [mbind option_bind].
  rewrite hexutil_decode_encode by done. cbn [mbind option_bind].
  unfold u256_from_big. destruct (Z.ltb_spec (Z.abs v) (2 ^ 256)); [|lia]. cbn [mbind option_bind]. rewrite Z.mod_small by lia. done.
Qed.
Lemma call_run_spec from to c : length from = 20%nat -> f_to c = Some to -> wf_address to -> bytes_ok (f_data c) ->
  call_run (args_of from c) = Some (if bool_decide (to = zero_addr) then InvCreate from (f_data c) 0 None [] else InvCall from to (f_data c) 0 []).
Proof.
  intros Hf Ht [Ht1 Ht2] Hd. unfold eth_call_invocation, query_invocation, eth_call_request. cbn [cr_sender cr_contract cr_input cr_value].
  unfold get_from, get_data, args_of. cbn [a_from a_to a_data a_input default]. rewrite Ht.
  cbn [from_option id]. pose proof (bech_ne from Hf) as Hne0. pose proof (bech_rt from Hf) as Hrt.
  destruct (bech_enc from) as [|b bs]; [done|]. rewrite Hrt. cbn [fmap option_fmap option_map mbind option_bind]. rewrite to_fixed_id by done.
  change (match address_hex ck to with [] => Some zero_addr | n :: l => contract_address bech_dec (n :: l) end)
    with (contract_address bech_dec (address_hex ck to)).
  rewrite contract_address_hex by done. cbn [mbind option_bind]. rewrite hexutil_decode_encode by done. done.
Qed.
Lemma call_run_create from c : length from = 20%nat -> f_to c = None -> bytes_ok (f_data c) ->
  call_run (args_of from c) = Some (InvCreate from (f_data c) 0 None []).
Proof.
  intros Hf Ht Hd. unfold eth_call_invocation, query_invocation, eth_call_request. cbn [cr_sender cr_contract cr_input cr_value].
  unfold get_from, get_data, args_of. cbn [a_from a_to a_data a_input default]. rewrite Ht.
  cbn [from_option id]. pose proof (bech_ne from Hf) as Hne0. pose proof (bech_rt from Hf) as Hrt.
  destruct (bech_enc from) as [|b bs]; [done|]. rewrite Hrt. cbn [fmap option_fmap option_map mbind option_bind]. rewrite to_fixed_id by done.
  rewrite hexutil_decode_encode by done. done.
Qed.

(** eth_call with the content of a transaction without value makes the same top-level run
    as the transaction: same caller, target, input and value; a creation likewise when the
    transaction has no access list. *)
Theorem C84_call_runs_the_transaction t x c from :
  to_cosmos t = Some x -> tx_common t = Some c -> sender_of t = Some from ->
  length from = 20%nat -> bytes_ok (f_data c) -> f_value c = 0 ->
  match f_to c with Some to => wf_address to /\ to <> zero_addr | None => tx_al t = [] end ->
  exists m run, c_msgs x = [m] /\ msg_run m = Some run /\ call_run (args_of from c) = Some run /\
    run = match f_to c with Some to => InvCall from to (f_data c) 0 [] | None => InvCreate from (f_data c) 0 None [] end.
Proof.
  intros Hx Hc Hs Hl Hd Hv Hto. destruct (accepted_msg t x c from Hx Hc Hs) as (_ & _ & Hm).
  rewrite Hv, from_ethers_0 in Hm. destruct (f_to c) as [to|] eqn:Et.
  - destruct Hto as [Hw Hz]. eexists _, _. split; [exact Hm|]. split; [apply msg_run_call; done|].
    rewrite (call_run_spec from to c) by done. rewrite bool_decide_eq_false_2 by done. done.
  - rewrite Hto in Hm. eexists _, _. split; [exact Hm|]. split; [apply msg_run_create; done|].
    rewrite (call_run_create from c) by done. done.
Qed.
(** The call data may be given as "input" or as the older "data"; when both are given "input"
    counts, when neither is, it is empty. Both requests read it the same way. *)
Theorem C84_input_or_data from to value nonce input data :
  let args := CallArgs from to value nonce data input in
  let chosen := match input, data with Some i, _ => i | None, Some d => d | None, None => [] end in
  call_run args = call_run (CallArgs from to value nonce (Some chosen) None) /\
  estimate_msg bech_enc ck decimals args = estimate_msg bech_enc ck decimals (CallArgs from to value nonce (Some chosen) None).
Proof. destruct input, data; done. Qed.
(** eth_estimateGas simulates the transaction's own run, value included. *)
Theorem C84_estimate_runs_the_transaction t x c from :
  to_cosmos t = Some x -> tx_common t = Some c -> sender_of t = Some from ->
  length from = 20%nat -> bytes_ok (f_data c) -> 0 <= f_value c -> 0 <= decimals ->
  match f_to c with Some to => wf_address to | None => tx_al t = [] end ->
  exists m run, c_msgs x = [m] /\ msg_run m = Some run /\ msg_run (estimate_msg bech_enc ck decimals (args_of from c)) = Some run.
Proof.
  intros Hx Hc Hs Hl Hd Hv Hdec Hto. destruct (accepted_msg t x c from Hx Hc Hs) as (_ & Hb & Hm).
  assert (Hn : 0 <= from_ethers decimals (f_value c)).
  { pose proof (from_ethers_scaled decimals (f_value c) Hdec Hv). pose proof (pow10_pos 18 ltac:(lia)). unfold dec_one in *.
    pose proof (pow10_pos decimals Hdec). nia. }
  unfold estimate_msg, get_from, get_data, args_of. cbn [a_from a_to a_value a_data a_input default from_option id].
  destruct (f_to c) as [to|] eqn:Et.
  - eexists _, _. split; [exact Hm|]. split; apply msg_run_call; done || lia.
  - eexists _, _. split; [exact Hm|]. rewrite Hto. split; apply msg_run_create; done || lia.
Qed.

(** ** C85: eth_call predicts the transaction in all cases (refuted) *)
(** The value is dropped: every transaction that carries value runs with another value. *)
Theorem C85_value_dropped_refuted t x c from to :
  to_cosmos t = Some x -> tx_common t = Some c -> sender_of t = Some from ->
  length from = 20%nat -> bytes_ok (f_data c) -> 0 < f_value c -> 0 <= decimals ->
  f_to c = Some to -> wf_address to -> to <> zero_addr ->
  exists m v, c_msgs x = [m] /\ 0 < v /\ msg_run m = Some (InvCall from to (f_data c) v []) /\
    call_run (args_of from c) = Some (InvCall from to (f_data c) 0 []).
Proof.
  intros Hx Hc Hs Hl Hd Hv Hdec Ht Hw Hz. destruct (accepted_msg t x c from Hx Hc Hs) as (He & Hb & Hm). rewrite Ht in Hm.
  assert (Hn : 0 <= from_ethers decimals (f_value c)).
  { pose proof (from_ethers_scaled decimals (f_value c) Hdec ltac:(lia)). pose proof (pow10_pos 18 ltac:(lia)). unfold dec_one in *.
    pose proof (pow10_pos decimals Hdec). nia. }
  assert (Hp : from_ethers decimals (f_value c) <> 0).
  { intros E. rewrite E, to_ethers_0 in He. lia. }
  eexists _, (from_ethers decimals (f_value c)). split; [exact Hm|]. split; [lia|]. split; [apply msg_run_call; try done; lia|].
  rewrite (call_run_spec from to c) by done. rewrite bool_decide_eq_false_2 by done. done.
Qed.
(** A call of the zero address is answered by running the input as contract creation code. *)
Theorem C85_zero_address_refuted t x c from :
  to_cosmos t = Some x -> tx_common t = Some c -> sender_of t = Some from ->
  length from = 20%nat -> bytes_ok (f_data c) -> f_value c = 0 -> f_to c = Some zero_addr ->
  exists m, c_msgs x = [m] /\ msg_run m = Some (InvCall from zero_addr (f_data c) 0 []) /\
    call_run (args_of from c) = Some (InvCreate from (f_data c) 0 None []).
Proof.
  intros Hx Hc Hs Hl Hd Hv Ht. destruct (accepted_msg t x c from Hx Hc Hs) as (_ & _ & Hm).
  rewrite Hv, from_ethers_0, Ht in Hm.
  assert (Hw : wf_address zero_addr) by (split; [done|repeat constructor]).
  eexists. split; [exact Hm|]. split; [apply msg_run_call; done|].
  rewrite (call_run_spec from zero_addr c) by done. rewrite bool_decide_eq_true_2 by done. done.
Qed.
(** The access list of a call is signed and paid for but never reaches the EVM. *)
Theorem C85_access_list_dropped_refuted t x c from to :
  to_cosmos t = Some x -> tx_common t = Some c -> sender_of t = Some from ->
  length from = 20%nat -> bytes_ok (f_data c) -> f_to c = Some to -> wf_address to -> 0 <= f_value c -> 0 <= decimals ->
  exists m v, c_msgs x = [m] /\ msg_run m = Some (InvCall from to (f_data c) v []).
Proof.
  intros Hx Hc Hs Hl Hd Ht Hw Hv Hdec. destruct (accepted_msg t x c from Hx Hc Hs) as (He & Hb & Hm). rewrite Ht in Hm.
  assert (Hn : 0 <= from_ethers decimals (f_value c)).
  { pose proof (from_ethers_scaled decimals (f_value c) Hdec ltac:(lia)). pose proof (pow10_pos 18 ltac:(lia)). unfold dec_one in *.
    pose proof (pow10_pos decimals Hdec). nia. }
  eexists _, _. split; [exact Hm|]. apply msg_run_call; try done. lia.
Qed.

(** ** C88: the value that reaches the EVM is the signed value in chain units, exactly *)
Theorem C88_value_exact t x c from :
  to_cosmos t = Some x -> tx_common t = Some c -> sender_of t = Some from ->
  length from = 20%nat -> bytes_ok (f_data c) -> 0 <= f_value c -> 0 <= decimals ->
  match f_to c with Some to => wf_address to | None => True end ->
  exists m v, c_msgs x = [m] /\ 0 <= v < 2 ^ 256 /\ v * 10 ^ 18 = f_value c * 10 ^ decimals /\
    match msg_run m with
    | Some (InvCall s to d v' _) => f_to c = Some to /\ s = from /\ d = f_data c /\ v' = v
    | Some (InvCreate s d v' salt _) => f_to c = None /\ s = from /\ d = f_data c /\ v' = v /\ salt = None
    | None => False
    end.
Proof.
  intros Hx Hc Hs Hl Hd Hv Hdec Hto. destruct (accepted_msg t x c from Hx Hc Hs) as (He & Hb & Hm).
  assert (Hn : 0 <= from_ethers decimals (f_value c)).
  { pose proof (from_ethers_scaled decimals (f_value c) Hdec ltac:(lia)). pose proof (pow10_pos 18 ltac:(lia)). unfold dec_one in *.
    pose proof (pow10_pos decimals Hdec). nia. }
  exists (match f_to c with
              | None => CCreate (bech_enc from) (hexutil_encode (f_data c)) (from_ethers decimals (f_value c)) (al_to_text ck (tx_al t))
              | Some to => CCall (bech_enc from) (address_hex ck to) (hexutil_encode (f_data c)) (from_ethers decimals (f_value c)) (al_to_text ck (tx_al t))
              end), (from_ethers decimals (f_value c)).
  split; [exact Hm|]. split; [lia|]. split.
  - unfold to_ethers, from_ethers, pow10 in *. destruct (Z.eqb_spec decimals 18) as [->|]; [lia|]. destruct (Z.ltb_spec 18 decimals).
    + rewrite <- Z.mul_assoc, <- Z.pow_add_r by lia. do 2 f_equal. lia.
    + rewrite <- He at 2. rewrite <- Z.mul_assoc, <- Z.pow_add_r by lia. do 2 f_equal. lia.
  - destruct (f_to c) as [to|] eqn:Et.
    + rewrite msg_run_call by (done || lia). done.
    + rewrite msg_run_create by (done || lia). done.
Qed.

(** Every EVM message with a nonnegative value, whoever made it: it runs exactly when its texts
    decode and its value fits in 256 bits, and then with exactly its sender, target, input,
    value and (for MsgCreate2) salt. *)
Theorem C88_message_runs m run :
  match m with CCall _ _ _ v _ | CCreate _ _ v _ | CCreate2 _ _ v _ _ => 0 <= v | COther _ => True end ->
  msg_run m = Some run <->
  match m, run with
  | CCall sender caddr input v _, InvCall s to i v' al' =>
      bech_dec sender = Some s /\ contract_address bech_dec caddr = Some to /\ hexutil_decode input = Some i /\
      v < 2 ^ 256 /\ v' = v /\ al' = []
  | CCreate sender code v al, InvCreate s c v' salt al' =>
      bech_dec sender = Some s /\ hexutil_decode code = Some c /\ v < 2 ^ 256 /\ v' = v /\ salt = None /\ al' = al_of_text al
  | CCreate2 sender code v salt0 al, InvCreate s c v' salt al' =>
      bech_dec sender = Some s /\ hexutil_decode code = Some c /\ v < 2 ^ 256 /\ v' = v /\ salt = Some salt0 /\ al' = al_of_text al
  | _, _ => False
  end.
Proof.
  assert (Hu : forall v, 0 <= v -> u256_from_big (Some v) = if v <? 2 ^ 256 then Some v else None).
  { intros v Hv. unfold u256_from_big. rewrite Z.abs_eq by lia. destruct (Z.ltb_spec v (2 ^ 256)); [|done]. rewrite Z.mod_small by lia. done. }
  destruct m as [sender caddr input v al|sender code v al|sender code v salt0 al|body]; cbn [msg_invocation]; intros Hv.
  - destruct (bech_dec sender) as [s|]; cbn [mbind option_bind].
    2: { split; [done|]. destruct run; intuition done. }
    destruct (contract_address bech_dec caddr) as [to|]; cbn [mbind option_bind].
    2: { split; [done|]. destruct run; intuition done. }
    destruct (hexutil_decode input) as [i|]; cbn [mbind option_bind].
    2: { split; [done|]. destruct run; intuition done. }
    rewrite Hu by done. destruct (Z.ltb_spec v (2 ^ 256)); cbn [mbind option_bind].
    2: { split; [done|]. destruct run; [|done]. intros (_ & _ & _ & ? & _). lia. }
    split; [intros [= <-]; intuition done|]. destruct run; [|done]. intros (? & ? & ? & ? & ? & ?). simplify_eq. done.
  - destruct (bech_dec sender) as [s|]; cbn [mbind option_bind].
    2: { split; [done|]. destruct run; intuition done. }
    destruct (hexutil_decode code) as [i|]; cbn [mbind option_bind].
    2: { split; [done|]. destruct run; intuition done. }
    rewrite Hu by done. destruct (Z.ltb_spec v (2 ^ 256)); cbn [mbind option_bind].
    2: { split; [done|]. destruct run; [done|]. intros (_ & _ & ? & _). lia. }
    split; [intros [= <-]; intuition done|]. destruct run; [done|]. intros (? & ? & ? & ? & ? & ?). simplify_eq. done.
  - destruct (bech_dec sender) as [s|]; cbn [mbind option_bind].
    2: { split; [done|]. destruct run; intuition done. }
    destruct (hexutil_decode code) as [i|]; cbn [mbind option_bind].
    2: { split; [done|]. destruct run; intuition done. }
    rewrite Hu by done. destruct (Z.ltb_spec v (2 ^ 256)); cbn [mbind option_bind].
    2: { split; [done|]. destruct run; [done|]. intros (_ & _ & ? & _). lia. }
    split; [intros [= <-]; intuition done|]. destruct run; [done|]. intros (? & ? & ? & ? & ? & ?). simplify_eq. done.
  - split; [done|]. destruct run; done.
Qed.

(** ** C89: contracts see the signed value (refuted) *)
(** Unless the fee token has 18 decimals, no nonzero value reaches the contract unchanged. *)
Theorem C89_value_in_other_units_refuted t x c from :
  to_cosmos t = Some x -> tx_common t = Some c -> sender_of t = Some from ->
  length from = 20%nat -> bytes_ok (f_data c) -> 0 < f_value c -> 0 <= decimals -> decimals <> 18 ->
  match f_to c with Some to => wf_address to | None => True end ->
  exists m, c_msgs x = [m] /\
    match msg_run m with
    | Some (InvCall _ _ _ v _) | Some (InvCreate _ _ v _ _) => v <> f_value c
    | None => False
    end.
Proof.
  intros Hx Hc Hs Hl Hd Hv Hdec H18 Hto.
  destruct (C88_value_exact t x c from Hx Hc Hs Hl Hd ltac:(lia) Hdec Hto) as (m & v & Hm & _ & He & Hi).
  exists m. split; [done|].
  assert (Hne : v <> f_value c).
  { intros ->. apply Z.mul_cancel_l in He; [|lia]. apply Z.pow_inj_r in He; lia. }
  destruct (msg_run m) as [[]|]; [| |done].
  - destruct Hi as (_ & _ & _ & ->). done.
  - destruct Hi as (_ & _ & _ & -> & _). done.
Qed.
(** A Cosmos call message with a negative value runs with a positive one. *)
Theorem C89_negative_value_wraps_refuted from to data z al :
  length from = 20%nat -> wf_address to -> bytes_ok data -> - 2 ^ 256 < z < 0 ->
  msg_run (CCall (bech_enc from) (address_hex ck to) (hexutil_encode data) z al) = Some (InvCall from to data (2 ^ 256 + z) []).
Proof.
  intros Hf [Ht1 Ht2] Hd Hz. cbn [msg_invocation]. rewrite bech_rt by done. cbn [mbind option_bind].
  rewrite contract_address_hex by done. cbn [mbind option_bind]. rewrite hexutil_decode_encode by done. cbn [mbind option_bind].
  unfold u256_from_big. destruct (Z.ltb_spec (Z.abs z) (2 ^ 256)); [|lia]. cbn [mbind option_bind].
  replace (z mod 2 ^ 256) with (2 ^ 256 + z); [done|]. rewrite <- (Z.mod_add z 1) by lia. rewrite Z.mod_small; lia.
Qed.
End calls.
(** The hypotheses hold of the transaction of EthTxProps (value 5000000000000 wei, 6 decimals:
    the contract sees 5). *)
Example C84_hypotheses : exists x c,
  eth_to_cosmos w_kc w_ck w_benc w_rec w_addr (txt "umin") 6 [] w_dyn = Some x /\ tx_common w_dyn = Some c /\
  eth_sender w_rec w_addr (eth_chain_id w_kc []) w_dyn = Some (replicate 20 7%N) /\ 0 < f_value c /\
  (forall a, length a = 20%nat -> w_bdec (w_benc a) = Some a /\ w_benc a <> []) /\
  (c_msgs x ≫= fun m => option_list (msg_invocation w_bdec m)) = [InvCall (replicate 20 7%N) (replicate 20 16%N) [1; 2; 255]%N 5 []] /\
  eth_call_invocation w_benc w_bdec w_ck (args_of (replicate 20 7%N) c) = Some (InvCall (replicate 20 7%N) (replicate 20 16%N) [1; 2; 255]%N 0 []).
Proof.
  eexists _, _. split; [vm_compute; reflexivity|]. split; [reflexivity|]. split; [vm_compute; reflexivity|]. split; [cbn; lia|].
  split; [intros a _; done|]. split; vm_compute; reflexivity.
Qed.

(** ** C86: gas taken before execution *)
Definition total_gas (ws : list work) : N := fold_right (fun w n => w_gas w + n)%N 0%N ws.
Lemma run_work_total l : forall ws c c', run_work l c ws = AnteOk c' -> c' = (c + total_gas ws)%N.
Proof.
  induction ws as [|w ws IH]; intros c c'; cbn [run_work total_gas fold_right].
  - intros [= <-]. lia.
  - destruct (negb (meter_ok l _)); [done|]. destruct (negb (w_ok w)); [done|]. intros H. apply IH in H. unfold total_gas in *. lia.
Qed.
Definition pays_in_fee_token (fee_denom : option text) (fees : list (text * Z)) : Prop :=
  exists d a, fees = [(d, a)] /\ fee_denom = Some d.
Lemma special_iff fee_denom fees :
  match fees, fee_denom with [(d, _)], Some f => bool_decide (d = f) | _, _ => false end = true <-> pays_in_fee_token fee_denom fees.
Proof.
  unfold pays_in_fee_token. split.
  - destruct fees as [|[d a] [|]]; [done| |done]. destruct fee_denom as [f|]; [|done]. intros H. apply bool_decide_eq_true in H as ->. eauto.
  - intros (d & a & -> & ->). rewrite bool_decide_eq_true_2 by done. done.
Qed.
(** Exactly what an accepted transaction is charged before its messages run: with a fee of one
    coin of the fee token, only the work before the fee decorator; otherwise everything, plus a
    flat amount when a simulated transaction has no fee. *)
Theorem C86_ante_gas gas sim fd fees before deduct rest c :
  ante_run gas sim fd fees before deduct rest = AnteOk c ->
  (pays_in_fee_token fd fees -> c = total_gas before) /\
  (~ pays_in_fee_token fd fees ->
     c = (total_gas before + w_gas deduct + total_gas rest
          + (if sim && forallb (fun f => (snd f =? 0)%Z) fees then 250000 else 0))%N) /\
  (sim = false -> (c <= gas)%N).
Proof.
  unfold ante_run. set (limit := if sim then None else Some gas).
  destruct (run_work limit 0 before) as [c0| |] eqn:E0; [|done|done]. apply run_work_total in E0 as Hc0.
  assert (Hlim : forall ws c1 c2, run_work (Some gas) c1 ws = AnteOk c2 -> (c1 <= gas)%N -> (c2 <= gas)%N).
  { induction ws as [|w ws IH]; intros c1 c2; cbn [run_work]; [intros [= <-]; done|].
    destruct (negb _) eqn:Em; [done|]. destruct (negb (w_ok w)); [done|]. intros H _. apply IH in H; [done|].
    cbn [meter_ok] in Em. apply negb_false_iff, N.leb_le in Em. done. }
  unfold fee_step.
  pose proof (special_iff fd fees) as Hsp. set (sp := match fees, fd with [(d, _)], Some f => bool_decide (d = f) | _, _ => false end) in *.
  destruct sp.
  - destruct (run_work None 0 (deduct :: rest)); [|done|done]. intros [= <-]. split; [lia|]. split; [intros Hn; exfalso; apply Hn, Hsp; done|].
    intros ->. unfold limit in E0. apply Hlim in E0; lia.
  - set (c1 := if sim && _ then _ else c0). destruct (negb (meter_ok limit c1)) eqn:Em; [done|]. intros H.
    apply run_work_total in H as Ht. cbn [total_gas fold_right] in Ht. fold (total_gas rest) in Ht.
    split; [intros Hn; apply Hsp in Hn; done|]. split.
    + intros _. rewrite Ht. unfold c1, fee_deduction_gas. destruct (sim && _); lia.
    + intros ->. unfold limit in *. apply Hlim in H; [done|]. cbn [meter_ok] in Em. apply negb_false_iff, N.leb_le in Em. done.
Qed.
(** A transaction sent with the estimated gas has enough of it iff the capped refund is covered
    by what the simulation charged on top before execution. *)
Theorem C86_estimate_enough_iff ante_sim ante_real x :
  enough_gas (estimate_gas ante_sim x) ante_real x = true <->
  (ante_real + N.min (x_refund x) (x_peak x / 5) <= ante_sim)%N.
Proof.
  unfold enough_gas, estimate_gas, exec_charge. rewrite N.leb_le.
  assert (Hm : (N.min (x_refund x) (x_peak x / 5) <= x_peak x)%N).
  { transitivity (x_peak x / 5)%N; [lia|]. apply N.div_le_upper_bound; lia. }
  lia.
Qed.
(** So the estimate of a transaction that pays in the fee token (or pays nothing) suffices for
    executions of up to a million gas, when the real transaction's size costs at most 50000
    gas more than the simulated one's. *)
Theorem C86_estimate_suffices fd fees before_s deduct_s rest_s before deduct rest gas x ante_sim ante_real :
  ante_run 0 true fd [] before_s deduct_s rest_s = AnteOk ante_sim ->
  ante_run gas false fd fees before deduct rest = AnteOk ante_real ->
  pays_in_fee_token fd fees ->
  (total_gas before <= total_gas before_s + 50000)%N -> (x_peak x <= 1000000)%N ->
  enough_gas (estimate_gas ante_sim x) ante_real x = true.
Proof.
  intros Hs Hr Hp Hb Hx. apply C86_estimate_enough_iff.
  apply C86_ante_gas in Hs as (_ & Hs & _). apply C86_ante_gas in Hr as (Hr & _).
  rewrite Hr by done. rewrite Hs; [cbn [forallb andb]|intros (d & a & ? & _); done].
  assert (x_peak x / 5 <= 200000)%N; [|lia]. apply N.div_le_upper_bound; lia.
Qed.
Example C86_hypotheses :
  ante_run 0 true (Some (txt "umin")) [] [Work 3000 true] (Work 4000 true) [Work 1000 true; Work 0 true] = AnteOk 258000 /\
  ante_run 100000 false (Some (txt "umin")) [(txt "umin", 5)] [Work 5000 true] (Work 90000 true) [Work 1000 true; Work 0 true] = AnteOk 5000 /\
  ante_run 100000 false (Some (txt "umin")) [(txt "other", 5)] [Work 5000 true] (Work 90000 true) [Work 1000 true; Work 0 true] = AnteOk 96000 /\
  pays_in_fee_token (Some (txt "umin")) [(txt "umin", 5)].
Proof. split; [reflexivity|]. split; [reflexivity|]. split; [reflexivity|]. eexists _, _. done. Qed.

(** ** C87: everything but the fee deduction is paid for, and estimates suffice (refuted) *)
(** With the fee in the fee token, the work of every decorator after the fee (public keys,
    signature gas, verification, sequence, relay and auction checks) is charged nothing and
    cannot run out of gas, however much it is. *)
Theorem C87_checks_after_the_fee_are_free_refuted gas fd fees before deduct rest c0 :
  pays_in_fee_token fd fees -> run_work (Some gas) 0 before = AnteOk c0 ->
  Forall (fun w => w_ok w = true) (deduct :: rest) ->
  ante_run gas false fd fees before deduct rest = AnteOk c0.
Proof.
  intros Hp Hb Hok. unfold ante_run. rewrite Hb. unfold fee_step.
  apply special_iff in Hp. rewrite Hp.
  assert (Hr : forall ws c, Forall (fun w => w_ok w = true) ws -> exists c', run_work None c ws = AnteOk c').
  { induction ws as [|w ws IH]; intros c H; [eexists; done|]. inversion H as [|? ? Hw Hws]; subst. cbn [run_work meter_ok negb]. rewrite Hw. cbn [negb]. auto. }
  destruct (Hr _ 0%N Hok) as (c' & ->). done.
Qed.
(** An execution with a large refund runs out of gas under its own estimate. *)
Theorem C87_estimate_too_low_refuted :
  exists fd fees before deduct rest deduct_s x ante_sim ante_real,
    ante_run 0 true fd [] before deduct_s rest = AnteOk ante_sim /\
    ante_run 10000000 false fd fees before deduct rest = AnteOk ante_real /\
    pays_in_fee_token fd fees /\
    enough_gas (estimate_gas ante_sim x) ante_real x = false.
Proof.
  exists (Some (txt "umin")), [(txt "umin", 5)], [Work 5000 true], (Work 90000 true), [Work 1000 true], (Work 2000 true), (Profile 3000000 700000), 258000%N, 5000%N.
  split; [reflexivity|]. split; [reflexivity|]. split; [eexists _, _; done|]. reflexivity.
Qed.
Example C88_example : exists x c,
  eth_to_cosmos w_kc w_ck w_benc w_rec w_addr (txt "umin") 6 [] w_dyn = Some x /\ tx_common w_dyn = Some c /\
  eth_sender w_rec w_addr (eth_chain_id w_kc []) w_dyn = Some (replicate 20 7%N) /\ bytes_ok (f_data c) /\ 0 <= f_value c /\
  (c_msgs x ≫= fun m => option_list (msg_invocation w_bdec m)) = [InvCall (replicate 20 7%N) (replicate 20 16%N) [1; 2; 255]%N 5 []].
Proof.
  eexists _, _. split; [vm_compute; reflexivity|]. split; [reflexivity|]. split; [vm_compute; reflexivity|]. split; [repeat constructor; lia|]. split; [cbn; lia|vm_compute; reflexivity].
Qed.
