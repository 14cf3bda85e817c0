(** C121, C122: what a contract sees of its block and transaction (Model/Surround.v). *)
From Verif.Base Require Import Prelude Hex.
From Verif.Model Require Import Fees EthTx Rpc Token CallTree Surround.
From Verif.Spec Require Import TokenSpec CallTreeSpec.
From Verif.Proofs Require Import BytesP HexP EthTxP RpcP TokenP BankP TokenMore CallTreeP.
From Verif.Props Require Import FeesProps EthTxProps CallTreeProps.
Local Open Scope Z_scope.

Section props.
Variable keccak : bytes -> bytes.
Variable ck : bytes -> nat -> bool.
Variable bech_enc : bytes -> text.
Variable recover_addr : content -> N -> Z -> Z -> option bytes.
Variable fee_denom : text.
Variable contract : bytes.
Variable decimals : Z.
Variable cid : bytes.
Notation to_cosmos := (eth_to_cosmos keccak ck bech_enc recover_addr (fun a => a) fee_denom decimals cid).
Notation ft := (load_fee fee_denom (Some contract) (fun _ => decimals)).
Notation see := (see keccak).

(** The Ethereum transaction [t], turned into [x], is executed in context [c] on the chain [cid]. *)
Record executes (t : eth_tx) (f : common_fields) (x : cosmos_tx) (c : cctx) : Prop := {
  ex_prot : replay_protected t;
  ex_com : tx_common t = Some f;
  ex_conv : to_cosmos t = Some x;
  ex_cap : 0 <= fee_cap t;
  ex_ante : ante_gas_prices false (c_fee x) (c_gas x) = Some (cx_prices c);
  ex_mode : cx_sim c = None;
  ex_chain : cx_chain c = cid;
  ex_meter : g_limit (cx_meter c) = c_gas x;
  ex_gas : (f_gas f < 2 ^ 63)%N }.
(** The chain id the signature of [t] names. *)
Definition signed_chain (t : eth_tx) : Z :=
  match t with LegacyTx _ _ v _ _ => (v - 35) / 2 | AccessListTx ch _ _ _ _ _ _ | DynamicFeeTx ch _ _ _ _ _ _ _ => ch | OtherTx _ => 0 end.

Lemma conv_is t f x c : executes t f x c ->
  c_gas x = f_gas f /\ f_gas f <> 0%N /\
  c_fee x = (let F := compute_gas_fee_amount (fee_cap t) (Z.of_N (f_gas f)) decimals in if F =? 0 then [] else [(fee_denom, F)]) /\
  signed_chain t = eth_chain_id keccak cid.
Proof.
  intros [H1 H2 H3 H4 H5 H6 Hcid H7 H8].
  destruct (eth_to_cosmos_inv keccak ck bech_enc recover_addr (fun a => a) fee_denom decimals cid t x H1 H3)
    as (c' & r & s & b & pub & Hc & _ & _ & Hb & _ & _ & Hch & _ & _ & _ & Hx).
  rewrite H2 in Hc. injection Hc as <-. cbv zeta in Hx. rewrite Hx in *. cbn [c_gas c_fee] in *. split; [done|]. split.
  { intros E. rewrite E in H5. done. }
  split; [done|]. unfold signed_chain. destruct t; [|apply Hch..|done].
  rewrite Hch. replace (2 * eth_chain_id keccak cid + 35 + Z.of_N b - 35) with (Z.of_N b + eth_chain_id keccak cid * 2) by lia.
  rewrite Z.div_add by lia. rewrite Z.div_small by lia. lia.
Qed.
(** The price in the context, scaled by 10^18. *)
Lemma price_is t f x c : 0 <= decimals -> executes t f x c ->
  let gas := Z.of_N (f_gas f) in let F := compute_gas_fee_amount (fee_cap t) gas decimals in
  extract_gas_price ft c = if fee_cap t =? 0 then 0 else gas_price_wei decimals (F * dec_one / gas).
Proof.
  intros Hd He. destruct (conv_is t f x c He) as (Hg & Hnz & Hf & _). pose proof (ex_ante _ _ _ _ He) as Ha.
  rewrite Hg, Hf in Ha. cbv zeta in *. unfold ante_gas_prices in Ha. destruct (N.eqb_spec (f_gas f) 0); [done|]. injection Ha as Ha.
  unfold extract_gas_price. cbn [load_fee ft_contract ft_denom ft_dec]. rewrite <- Ha. unfold compute_gas_fee_amount.
  destruct (Z.eqb_spec (fee_cap t) 0) as [E|E]; [done|].
  assert (Hgas : 0 < Z.of_N (f_gas f)) by lia.
  pose proof (ex_cap _ _ _ _ He) as Hcap.
  pose proof (from_ethers_scaled decimals (fee_cap t * Z.of_N (f_gas f)) Hd ltac:(nia)) as [_ Hs].
  assert (HF : 0 < from_ethers decimals (fee_cap t * Z.of_N (f_gas f)) + 1).
  { assert (0 < 10 ^ decimals) by (apply Z.pow_pos_nonneg; lia).
    assert (0 < fee_cap t * Z.of_N (f_gas f) * 10 ^ decimals) by (repeat apply Z.mul_pos_pos; lia). unfold dec_one in Hs. lia. }
  destruct (Z.eqb_spec (from_ethers decimals (fee_cap t * Z.of_N (f_gas f)) + 1) 0); [lia|].
  set (F := from_ethers _ _ + 1) in *. cbn [map List.filter fst snd].
  rewrite gas_price_of_fee_eq by done.
  assert (Hp : 0 < F * dec_one / Z.of_N (f_gas f)).
  { assert (0 < 10 ^ decimals) by (apply Z.pow_pos_nonneg; lia).
    assert (1 <= F * dec_one / Z.of_N (f_gas f)); [|lia]. apply Z.div_le_lower_bound; [done|].
    assert (Z.of_N (f_gas f) <= fee_cap t * Z.of_N (f_gas f) * 10 ^ decimals); [|lia].
    assert (1 <= fee_cap t * 10 ^ decimals) by nia. nia. }
  destruct (Z.eqb_spec (F * dec_one / Z.of_N (f_gas f)) 0); [lia|]. cbn [negb price_of]. rewrite bool_decide_eq_true_2 by done.
  destruct (Z.leb_spec (F * dec_one / Z.of_N (f_gas f)) 0); [lia|]. done.
Qed.
(** What is known of the price for every number of decimals. *)
Lemma price_bounds t f x c : 0 <= decimals <= 246 -> executes t f x c ->
  let gas := Z.of_N (f_gas f) in let g := extract_gas_price ft c in
  (g - fee_cap t) * gas * 10 ^ decimals <= 10 ^ 18 /\
  fee_cap t * 10 ^ decimals < g * 10 ^ decimals + 10 ^ Z.max 9 decimals.
Proof.
  intros Hd He. pose proof (price_is t f x c (proj1 Hd) He) as Hg. cbv zeta in *. rewrite Hg.
  destruct (conv_is t f x c He) as (_ & Hnz & _). pose proof (ex_cap _ _ _ _ He) as Hcap.
  assert (Hgas : 0 < Z.of_N (f_gas f)) by lia. set (gas := Z.of_N (f_gas f)) in *.
  destruct (Z.eqb_spec (fee_cap t) 0) as [E|E].
  { rewrite E. assert (0 < 10 ^ Z.max 9 decimals) by (apply Z.pow_pos_nonneg; lia). lia. }
  unfold compute_gas_fee_amount. rewrite (proj2 (Z.eqb_neq _ _) E).
  pose proof (from_ethers_scaled decimals (fee_cap t * gas) ltac:(lia) ltac:(nia)) as [Hs1 Hs2].
  set (F := from_ethers _ _ + 1) in *. set (p := F * dec_one / gas).
  assert (HD : 0 < 10 ^ decimals) by (apply Z.pow_pos_nonneg; lia).
  assert (H18 : dec_one = 10 ^ 18) by done.
  assert (Hp1 : fee_cap t * 10 ^ decimals <= p).
  { apply Z.div_le_lower_bound; [done|]. unfold F. rewrite H18 in *. nia. }
  assert (Hp2 : p * gas <= fee_cap t * gas * 10 ^ decimals + 10 ^ 18).
  { pose proof (Z.mul_div_le (F * dec_one) gas Hgas). fold p in H. unfold F in H. rewrite H18 in *. nia. }
  assert (Hp0 : 0 <= p) by nia.
  pose proof (gas_price_scaled decimals p Hd Hp0) as Hsc. unfold eth_gas_price in Hsc.
  assert (HM : 0 < 10 ^ Z.max 9 decimals) by (apply Z.pow_pos_nonneg; lia).
  pose proof (Z.mul_div_le p (10 ^ Z.max 9 decimals) HM). pose proof (Z.mul_succ_div_gt p (10 ^ Z.max 9 decimals) HM).
  set (q := p / 10 ^ Z.max 9 decimals) in *. split.
  - replace ((gas_price_wei decimals p - fee_cap t) * gas * 10 ^ decimals)
      with (gas_price_wei decimals p * 10 ^ decimals * gas - fee_cap t * gas * 10 ^ decimals) by ring.
    rewrite Hsc. assert (q * 10 ^ Z.max 9 decimals * gas <= p * gas) by nia. lia.
  - rewrite Hsc. nia.
Qed.

(** ** C121: what is seen is what was signed *)
(** GASPRICE is the signed gas price (fee cap) exactly, with a fee token of 18 decimals or more
    (and at least 2 gas). *)
Theorem C121_gasprice_exact t f x c caller s :
  18 <= decimals <= 246 -> executes t f x c -> (2 <= f_gas f)%N -> see ft c caller = Some s ->
  o_gasprice s = fee_cap t.
Proof.
  intros Hd He Hg Hs. unfold Surround.see in Hs. destruct (random_of (cx_hash c)); [|done]. injection Hs as <-. cbn [o_gasprice].
  destruct (price_bounds t f x c ltac:(lia) He) as [H1 H2]. rewrite Z.max_r in H2 by lia.
  set (g := extract_gas_price ft c) in *.
  assert (HD : 10 ^ 18 <= 10 ^ decimals) by (apply Z.pow_le_mono_r; lia).
  assert (fee_cap t <= g) by nia.
  destruct (Z.eq_dec g (fee_cap t)) as [|Hne]; [done|]. exfalso. assert (1 <= g - fee_cap t) by lia.
  assert (2 <= (g - fee_cap t) * Z.of_N (f_gas f)) by nia. nia.
Qed.
(** With 9 to 18 decimals it is never below the signed price, and above it by at most one unit of
    the token, shared out over the gas. *)
Theorem C121_gasprice t f x c caller s :
  9 <= decimals <= 18 -> executes t f x c -> see ft c caller = Some s ->
  fee_cap t <= o_gasprice s /\ (o_gasprice s - fee_cap t) * Z.of_N (f_gas f) <= 10 ^ (18 - decimals).
Proof.
  intros Hd He Hs. unfold Surround.see in Hs. destruct (random_of (cx_hash c)); [|done]. injection Hs as <-. cbn [o_gasprice].
  destruct (price_bounds t f x c ltac:(lia) He) as [H1 H2]. rewrite Z.max_r in H2 by lia.
  set (g := extract_gas_price ft c) in *. assert (HD : 0 < 10 ^ decimals) by (apply Z.pow_pos_nonneg; lia).
  split; [nia|]. replace (10 ^ 18) with (10 ^ (18 - decimals) * 10 ^ decimals) in H1 by (rewrite <- Z.pow_add_r by lia; f_equal; lia). nia.
Qed.
(** With fewer than 9 it is a multiple of 10^(9-decimals) wei and may be below the signed price,
    by less than that. *)
Theorem C121_gasprice_few_decimals t f x c caller s :
  0 <= decimals < 9 -> executes t f x c -> see ft c caller = Some s ->
  fee_cap t < o_gasprice s + 10 ^ (9 - decimals) /\ (o_gasprice s - fee_cap t) * Z.of_N (f_gas f) <= 10 ^ (18 - decimals).
Proof.
  intros Hd He Hs. unfold Surround.see in Hs. destruct (random_of (cx_hash c)); [|done]. injection Hs as <-. cbn [o_gasprice].
  destruct (price_bounds t f x c ltac:(lia) He) as [H1 H2]. rewrite Z.max_l in H2 by lia.
  set (g := extract_gas_price ft c) in *. assert (HD : 0 < 10 ^ decimals) by (apply Z.pow_pos_nonneg; lia).
  replace (10 ^ 9) with (10 ^ (9 - decimals) * 10 ^ decimals) in H2 by (rewrite <- Z.pow_add_r by lia; f_equal; lia).
  replace (10 ^ 18) with (10 ^ (18 - decimals) * 10 ^ decimals) in H1 by (rewrite <- Z.pow_add_r by lia; f_equal; lia). nia.
Qed.
(** In a transaction whose fee meets the chain's minimum, GASPRICE is at least BASEFEE. *)
Theorem C121_gasprice_covers_basefee t f x c caller s :
  0 <= decimals <= 246 -> 0 <= cx_min c fee_denom -> executes t f x c -> see ft c caller = Some s ->
  fee_accepted (cx_min c fee_denom) (Z.of_N (f_gas f)) (compute_gas_fee_amount (fee_cap t) (Z.of_N (f_gas f)) decimals) = true ->
  o_basefee s <= o_gasprice s.
Proof.
  intros Hd Hm He Hs Ha. unfold Surround.see in Hs. destruct (random_of (cx_hash c)); [|done]. injection Hs as <-. cbn [o_gasprice o_basefee].
  rewrite (price_is t f x c) by (done || lia). cbv zeta. unfold base_fee. cbn [load_fee ft_dec ft_denom].
  destruct (conv_is t f x c He) as (_ & Hnz & _). unfold fee_accepted in Ha. apply Z.leb_le in Ha.
  assert (Hgas : 0 < Z.of_N (f_gas f)) by lia. set (gas := Z.of_N (f_gas f)) in *.
  destruct (Z.eqb_spec (fee_cap t) 0) as [E|E].
  { unfold compute_gas_fee_amount in Ha. rewrite E in Ha. cbn in Ha. assert (cx_min c fee_denom = 0) as -> by nia.
    unfold gas_price_wei, dec_truncate_int, dec_mul_truncate. rewrite Z.mul_0_l. cbn. unfold to_ethers. repeat case_match; try done. }
  set (F := compute_gas_fee_amount _ _ _) in *. set (p := F * dec_one / gas).
  assert (Hp : cx_min c fee_denom <= p) by (apply Z.div_le_lower_bound; [done|]; lia).
  pose proof (gas_price_scaled decimals p Hd ltac:(lia)) as H1. pose proof (gas_price_scaled decimals _ Hd Hm) as H2. unfold eth_gas_price in *.
  assert (HM : 0 < 10 ^ Z.max 9 decimals) by (apply Z.pow_pos_nonneg; lia).
  assert (HD : 0 < 10 ^ decimals) by (apply Z.pow_pos_nonneg; lia).
  pose proof (Z.div_le_mono _ _ _ HM Hp). nia.
Qed.
(** The rest: who signed, where and when. *)
Theorem C121_transaction t f x c caller s :
  executes t f x c -> see ft c caller = Some s -> (f_gas f < 2 ^ 64)%N ->
  o_origin s = caller /\ o_chainid s = signed_chain t /\
  (o_gaslimit s = f_gas f - N.min (g_consumed (cx_meter c)) (f_gas f))%N /\ (o_gaslimit s <= f_gas f)%N.
Proof.
  intros He Hs Hg. destruct (conv_is t f x c He) as (Hgx & _ & _ & Hch). rewrite Hch.
  unfold Surround.see in Hs. destruct (random_of (cx_hash c)); [|done]. injection Hs as <-. cbn [o_origin o_chainid o_gaslimit].
  rewrite (ex_chain _ _ _ _ He). split; [done|]. split; [done|].
  unfold compute_gas_limit, consumed_to_limit. rewrite (ex_mode _ _ _ _ He), (ex_meter _ _ _ _ He), Hgx. rewrite u64_sub_le by lia. split; [done|lia].
Qed.
(** Every transaction and every contract of a block sees the same block; outside a block the
    random value is zero. The coinbase is the zero address. *)
Theorem C121_block t1 t2 c1 c2 s1 s2 caller1 caller2 :
  0 <= cx_time c1 < 2 ^ 64 -> length (cx_hash c1) = 32%nat \/ cx_hash c1 = [] ->
  cx_height c2 = cx_height c1 -> cx_time c2 = cx_time c1 -> cx_hash c2 = cx_hash c1 -> cx_chain c2 = cx_chain c1 ->
  see t1 c1 caller1 = Some s1 -> see t2 c2 caller2 = Some s2 ->
  (o_number s1 = cx_height c1 /\ o_timestamp s1 = cx_time c1 /\
   o_random s1 = (match cx_hash c1 with [] => replicate 32 0%N | h => h end) /\ o_coinbase s1 = replicate 20 0%N) /\
  o_number s2 = o_number s1 /\ o_timestamp s2 = o_timestamp s1 /\ o_random s2 = o_random s1 /\
  o_chainid s2 = o_chainid s1 /\ o_coinbase s2 = o_coinbase s1.
Proof.
  intros Ht Hh E1 E2 E3 E4 H1 H2. unfold Surround.see in *. rewrite E3 in H2.
  assert (Hr : random_of (cx_hash c1) = Some (match cx_hash c1 with [] => replicate 32 0%N | h => h end)).
  { destruct Hh as [Hh | ->]; [|done]. unfold random_of. destruct (cx_hash c1) as [|y l] eqn:El; [done|]. rewrite <- El in *.
    rewrite decide_False by lia. f_equal. rewrite take_ge by lia. done. }
  rewrite Hr in H1, H2. injection H1 as <-. injection H2 as <-. cbn. rewrite E1, E2, E4, Z.mod_small by lia. done.
Qed.
(** BASEFEE is the chain's minimum price in wei, rounded down; without a fee contract a unit of
    the denomination counts as one whole token. *)
Theorem C121_basefee c caller s : 0 <= cx_min c fee_denom ->
  (9 <= decimals <= 246 -> see ft c caller = Some s -> o_basefee s = cx_min c fee_denom / 10 ^ decimals) /\
  (0 <= decimals < 9 -> see ft c caller = Some s -> o_basefee s = cx_min c fee_denom / 10 ^ 9 * 10 ^ (9 - decimals)) /\
  (see (load_fee fee_denom None (fun _ => decimals)) c caller = Some s -> o_basefee s = cx_min c fee_denom / 10 ^ 9 * 10 ^ 9).
Proof.
  intros Hm. unfold Surround.see. destruct (random_of (cx_hash c)); [|by split_and!]. unfold base_fee. cbn [load_fee ft_dec ft_denom].
  split; [|split]; [intros Hd [= <-]|intros Hd [= <-]|intros [= <-]]; cbn [o_basefee].
  - by apply C59_gas_price_in_wei.
  - unfold gas_price_wei. rewrite scaled_price. unfold u8_add. rewrite Z.mod_small by lia.
    unfold to_ethers. destruct (Z.eqb_spec (decimals + 9) 18); [lia|]. destruct (Z.ltb_spec 18 (decimals + 9)); [lia|].
    unfold pow10. do 2 f_equal. lia.
  - unfold gas_price_wei. rewrite scaled_price. done.
Qed.
(** In any transaction, also one signed in Cosmos' way and paying in several denominations,
    GASPRICE is what it pays of the fee denomination per gas, in wei, rounded down. *)
Theorem C121_gasprice_any fees gas amount c caller s :
  9 <= decimals <= 246 -> (0 < gas)%N -> NoDup (map fst fees) -> Forall (fun k => 0 <= snd k) fees ->
  (In (fee_denom, amount) fees \/ amount = 0 /\ ~ In fee_denom (map fst fees)) ->
  ante_gas_prices false fees gas = Some (cx_prices c) -> see ft c caller = Some s ->
  o_gasprice s = amount * 10 ^ 18 / Z.of_N gas / 10 ^ decimals.
Proof.
  intros Hd Hg Hnd Hpos Hin Ha Hs. unfold ante_gas_prices in Ha. destruct (N.eqb_spec gas 0); [lia|]. injection Ha as Ha.
  unfold Surround.see in Hs. destruct (random_of (cx_hash c)); [|done]. injection Hs as <-. cbn [o_gasprice].
  unfold extract_gas_price. cbn [load_fee ft_contract ft_denom ft_dec]. rewrite <- Ha. clear Ha.
  set (F := fun k : text * Z => (fst k, gas_price_of_fee (snd k) (Z.of_N gas))).
  set (P := fun k : text * Z => negb (snd k =? 0)).
  assert (Hnone : forall l, ~ In fee_denom (map fst l) -> price_of fee_denom (List.filter P (map F l)) = 0).
  { induction l as [|[d a] l IH]; [done|]. intros Hn. cbn [map List.filter In fst F] in *.
    destruct (P (F (d, a))); cbn [price_of F fst]; [rewrite bool_decide_eq_false_2 by (intros ->; tauto)|]; apply IH; tauto. }
  assert (Hp : price_of fee_denom (List.filter P (map F fees)) = amount * dec_one / Z.of_N gas).
  { destruct Hin as [Hin|[-> Hn]]; [|rewrite Hnone by done; by rewrite Z.mul_0_l, Z.div_0_l by lia].
    clear Hpos. induction fees as [|[d a] l IH]; [done|]. cbn [map fst] in Hnd. apply NoDup_cons in Hnd as [Hn1 Hnd]. rewrite elem_of_list_In in Hn1.
    cbn [map List.filter In] in *. destruct Hin as [[= -> ->]|Hin].
    - unfold P at 1. cbn [F fst snd]. rewrite gas_price_of_fee_eq by lia. destruct (Z.eqb_spec (amount * dec_one / Z.of_N gas) 0) as [E|E].
      + cbn [negb]. rewrite Hnone by done. by rewrite E.
      + cbn [negb price_of F fst snd]. case_bool_decide; [|exfalso; auto]. rewrite gas_price_of_fee_eq by lia. done.
    - assert (fee_denom <> d) by (intros ->; apply Hn1; apply in_map_iff; by exists (d, amount)).
      destruct (P (F (d, a))); cbn [price_of F fst]; [rewrite bool_decide_eq_false_2 by done|]; by apply IH. }
  assert (0 <= amount).
  { destruct Hin as [Hin|[-> _]]; [|lia]. rewrite List.Forall_forall in Hpos. by apply (Hpos _ Hin). }
  change (fun c0 : text * Z => (fst c0, gas_price_of_fee (snd c0) (Z.of_N gas))) with F. change (fun c0 : text * Z => negb (snd c0 =? 0)) with P.
  rewrite Hp. assert (0 <= amount * dec_one / Z.of_N gas) by (apply Z.div_pos; unfold dec_one; lia).
  destruct (Z.leb_spec (amount * dec_one / Z.of_N gas) 0) as [Hle|Hlt].
  - change (10 ^ 18) with dec_one. replace (amount * dec_one / Z.of_N gas) with 0 by lia. rewrite Z.div_0_l; [done|]. assert (0 < 10 ^ decimals) by (apply Z.pow_pos_nonneg; lia). lia.
  - rewrite C59_gas_price_in_wei by lia. done.
Qed.
(** Without a token for the fee denomination, or in a transaction without a fee, GASPRICE is 0;
    without a minimum price BASEFEE is 0. *)
Theorem C121_zero d dec con c caller s : see (load_fee d con dec) c caller = Some s ->
  (con = None \/ cx_prices c = None \/ cx_prices c = Some [] -> o_gasprice s = 0) /\
  (cx_min c d = 0 -> o_basefee s = 0).
Proof.
  intros Hs. unfold Surround.see in Hs. destruct (random_of (cx_hash c)); [|done]. injection Hs as <-. cbn [o_gasprice o_basefee].
  unfold extract_gas_price, base_fee. cbn [load_fee ft_contract ft_denom ft_dec]. split.
  - intros [-> | [Hp | Hp]]; [done|..]; rewrite Hp; by destruct con.
  - intros ->. unfold gas_price_wei, dec_truncate_int, dec_mul_truncate. rewrite Z.mul_0_l. cbn. unfold to_ethers. repeat case_match; done.
Qed.

(** ** C122: what does not hold *)
(** GASPRICE is not the effective price: a dynamic-fee transaction sees its fee cap, also when
    base fee and tip together are below it. *)
Theorem C122_effective_price_refuted ch f tip cap al v r s0 x c caller s :
  18 <= decimals <= 246 -> executes (DynamicFeeTx ch f tip cap al v r s0) f x c -> (2 <= f_gas f)%N ->
  see ft c caller = Some s -> o_basefee s + tip < cap -> o_basefee s + tip < o_gasprice s.
Proof. intros Hd He Hg Hs Hlt. by rewrite (C121_gasprice_exact _ _ _ _ _ _ Hd He Hg Hs). Qed.
(** In eth_call and other queries GASPRICE is 0, below BASEFEE whenever the chain has a minimum
    price of at least one wei (10^-9 units with few decimals). *)
Theorem C122_query_gasprice_refuted c caller s :
  0 <= decimals <= 246 -> cx_prices c = None -> 10 ^ Z.max 9 decimals <= cx_min c fee_denom ->
  see ft c caller = Some s -> o_gasprice s = 0 /\ 0 < o_basefee s.
Proof.
  intros Hd Hp Hm Hs. destruct (C121_zero _ _ _ _ _ _ Hs) as [H0 _]. split; [by apply H0; right; left|].
  unfold Surround.see in Hs. destruct (random_of (cx_hash c)); [|done]. injection Hs as <-. cbn [o_basefee].
  unfold base_fee. cbn [load_fee ft_dec ft_denom].
  assert (HM : 0 < 10 ^ Z.max 9 decimals) by (apply Z.pow_pos_nonneg; lia).
  pose proof (gas_price_scaled decimals (cx_min c fee_denom) Hd ltac:(lia)) as H. unfold eth_gas_price in H.
  assert (1 <= cx_min c fee_denom / 10 ^ Z.max 9 decimals) by (apply Z.div_le_lower_bound; lia).
  assert (HD : 0 < 10 ^ decimals) by (apply Z.pow_pos_nonneg; lia). nia.
Qed.
(** GASLIMIT is not a number of the block: two transactions of one block with different gas left
    see different ones, and none sees the block's. *)
Theorem C122_gaslimit_refuted c1 c2 t1 t2 caller1 caller2 s1 s2 :
  cx_sim c1 = None -> cx_sim c2 = None -> (g_limit (cx_meter c1) < 2 ^ 64)%N -> (g_limit (cx_meter c2) < 2 ^ 64)%N ->
  (g_limit (cx_meter c1) - g_consumed (cx_meter c1) <> g_limit (cx_meter c2) - g_consumed (cx_meter c2))%N ->
  see t1 c1 caller1 = Some s1 -> see t2 c2 caller2 = Some s2 -> o_gaslimit s1 <> o_gaslimit s2.
Proof.
  intros M1 M2 L1 L2 Hne H1 H2. unfold Surround.see in *. destruct (random_of (cx_hash c1)); [|done]. destruct (random_of (cx_hash c2)); [|done].
  injection H1 as <-. injection H2 as <-. cbn [o_gaslimit]. unfold compute_gas_limit, consumed_to_limit. rewrite M1, M2, !u64_sub_le by lia. lia.
Qed.
End props.

(** A payment to the block's coinbase does not reach who made the block: it goes to the zero
    address, and nobody else gets anything. *)
Theorem C122_coinbase_refuted keccak ft c caller s E fee w t self v k sto ev :
  see keccak ft c caller = Some s ->
  reachable E w → is_token w fee t → t_kind t = KERC20 → fee ≠ null_addr →
  0 < v <= balance w fee self → self ≠ null_addr → is_blocked E w null_addr = false →
  k = (fun ok : bool => if ok then PStop else PRevert) →
  ∃ s', evm_call E fee caller self 0 (PCall (o_coinbase s) v PStop k) (St w sto ev) = Some s' ∧
    balance (s_w s') fee null_addr = balance w fee null_addr + v ∧
    ∀ a, a ≠ self → a ≠ null_addr → balance (s_w s') fee a = balance w fee a.
Proof.
  intros Hs Hr Ht Hk Hn Hv Hne Hb ->.
  assert (Hc : o_coinbase s = null_addr).
  { unfold see in Hs. destruct (random_of (cx_hash c)); [|done]. by injection Hs as <-. }
  rewrite Hc. pose proof (iv_tok E w (inv_reachable E w Hr) fee t Ht) as Hok.
  assert (Ha : amount_ok v).
  { unfold balance in Hv. unfold is_token in Ht. rewrite Ht in Hv. pose proof (bal_range t self Hok). pose proof (ok_bound t Hok). unfold amount_ok. lia. }
  assert (Hp : prog_ok (PCall null_addr v PStop (fun ok : bool => if ok then PStop else PRevert))) by (split; [exact Ha|]; split; [done|]; by intros []).
  assert (Hc0 : 0 <= balance w fee caller). { unfold balance. unfold is_token in Ht. rewrite Ht. by apply bal_range. }
  pose proof (C114_commit E fee w t caller self 0 _ sto ev Hr Ht Hk Hn Hp ltac:(by unfold amount_ok)) as H. cbv zeta in H.
  rewrite decide_True in H by done. cbn [eth l_bal] in H. rewrite Hb in H. rewrite !decide_False in H by (intros []; lia || done).
  rewrite decide_False in H by lia. cbn [fst snd] in H. specialize (H ltac:(done)).
  destruct (evm_call E fee caller self 0 _ (St w sto ev)) as [s'|]; [|exfalso; apply H; split; [done|split; [by left|done]]].
  destruct H as (_ & Hbal & _).
  exists s'. split; [done|]. split.
  - rewrite Hbal. simpl. rewrite (bool_decide_eq_false_2 (null_addr = self)) by done. repeat case_bool_decide; try done; lia.
  - intros a H1 H2. rewrite Hbal. simpl. rewrite !bool_decide_eq_false_2 by done. lia.
Qed.

(** ** Non-vacuity: a dynamic-fee transaction with fee cap 7 wei and tip 1, a token of 18
    decimals, a minimum price of 3 units: the contract sees GASPRICE 7 and BASEFEE 3. *)
Definition w_f := Com 3 21000 (Some (replicate 20 16%N)) 5000000000000 [1; 2; 255]%N.
Definition w_ctx : cctx :=
  CCtx 12 1700000000 (replicate 32 5%N) [] (Meter 21000 1500) None (Some [(txt "umin", 7000047619047619047)]) (fun _ => 3 * dec_one).
Example C121_example : ∃ x s,
  executes w_kc w_ck w_benc w_rec (txt "umin") 18 [] w_dyn w_f x w_ctx ∧
  see w_kc (load_fee (txt "umin") (Some []) (fun _ => 18)) w_ctx (replicate 20 7%N) = Some s ∧
  o_gasprice s = 7 ∧ o_basefee s = 3 ∧ o_basefee s + 1 < o_gasprice s ∧ o_gaslimit s = 19500%N ∧ o_number s = 12 ∧
  fee_accepted (cx_min w_ctx (txt "umin")) 21000 (compute_gas_fee_amount 7 21000 18) = true.
Proof.
  eexists _, _. split.
  { split; [done|done|vm_compute; reflexivity|done|vm_compute; reflexivity|done|done|done|done]. }
  split; [vm_compute; reflexivity|]. split_and!; vm_compute; reflexivity.
Qed.
