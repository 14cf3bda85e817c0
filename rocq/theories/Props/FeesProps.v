(** Properties C13-C17, C59: gas, units, fees and refunds (Model/Fees.v). *)
From Verif.Base Require Import Prelude.
From Verif.Model Require Import Fees.

(** ** C13 *)
Lemma u64_sub_le a b : (b <= a)%N -> (a < 2 ^ 64)%N -> u64_sub a b = (a - b)%N.
Proof.
  intros Hb Ha. unfold u64_sub, u64, two64. rewrite (N.mod_small b) by lia.
  replace (a + 2 ^ 64 - b)%N with ((a - b) + 1 * 2 ^ 64)%N by lia.
  rewrite N.mod_add by lia. apply N.mod_small. lia.
Qed.

(** [used - refund] with [refund <= used/5] and [refund <= counter], no wrap-around. *)
Theorem C13_gas_charged_within_limit :
  forall balance remaining refunded : N,
    (balance < 2 ^ 64)%N -> (remaining <= balance)%N ->
    let used := (balance - remaining)%N in
    let charged := cal_gas_used balance remaining refunded in
    (charged <= used)%N /\ (used <= balance)%N /\ (4 * used <= 5 * charged)%N /\
    (used - charged = N.min (used / 5) refunded)%N.
Proof.
  intros b r f Hb Hr used charged. unfold charged, cal_gas_used. cbv zeta; rewrite (u64_sub_le b r) by lia. fold used.
  assert (Hd : (5 * (used / 5) <= used)%N) by (apply N.mul_div_le; lia).
  assert (Hub : (used <= b)%N) by (unfold used; lia).
  revert Hd. generalize (used / 5)%N. clearbody used. intros q Hd.
  destruct (N.ltb_spec f q) as [Hlt|Hge].
  - rewrite u64_sub_le by lia. rewrite N.min_r by lia. lia.
  - rewrite u64_sub_le by lia. rewrite N.min_l by lia. lia.
Qed.
(** Outside simulation the EVM gets exactly the gas left in the transaction, and charging it
    for what it used can never overrun the meter. *)
Theorem C13_charge_fits_the_meter :
  forall (g : meter) (o : evm_out),
    (g_limit g < 2 ^ 64)%N -> (g_consumed g <= g_limit g)%N ->
    let balance := compute_gas_limit None g in
    (eo_remaining o <= balance)%N ->
    balance = (g_limit g - g_consumed g)%N /\
    exists g', fst (evm_call_gas balance g o) = Charged g' /\ g_limit g' = g_limit g /\
      (g_consumed g <= g_consumed g' <= g_limit g')%N.
Proof.
  intros g o Hl Hc balance Hr.
  assert (Hb : balance = (g_limit g - g_consumed g)%N).
  { unfold balance, compute_gas_limit, consumed_to_limit. rewrite N.min_l by lia. apply u64_sub_le; lia. }
  split; [done|]. unfold evm_call_gas.
  destruct ((eo_remaining o =? 0)%N && _); [exists g; cbn; repeat split; lia|]. cbn [fst].
  destruct (C13_gas_charged_within_limit balance (eo_remaining o) (eo_refund o)) as (H1 & H2 & _); [lia|done|].
  unfold consume_gas. set (c := cal_gas_used _ _ _) in *.
  destruct (N.leb_spec two64 (g_consumed g + c)) as [Hx|Hx]; [unfold two64 in Hx; lia|].
  destruct (N.ltb_spec (g_limit g) (g_consumed g + c)) as [Hy|Hy]; [lia|].
  eexists. split; [reflexivity|]. cbn. lia.
Qed.
Example C13_nontrivial : cal_gas_used 100000 40000 50000 = 48000%N /\ cal_gas_used 100000 40000 100 = 59900%N /\
  fst (evm_call_gas 90 (Meter 100 10) (EvmOut None 20 3)) = Charged (Meter 100 77).
Proof. vm_compute. auto. Qed.

(** ** C14 *)
(** Full statement: [eo_err o <> None] implies the meter grows by the gas used. Proved for
    reverts that leave gas and for out-of-gas. *)
Theorem C14_failed_execution_is_charged_partial :
  forall (g : meter) (o : evm_out),
    (g_limit g < 2 ^ 64)%N -> (g_consumed g <= g_limit g)%N ->
    let balance := compute_gas_limit None g in
    (eo_remaining o <= balance)%N -> eo_refund o = 0%N ->
    (eo_err o = Some ErrOOG \/ (eo_err o <> None /\ eo_remaining o <> 0%N)) ->
    evm_call_gas balance g o = (Charged (Meter (g_limit g) (g_consumed g + (balance - eo_remaining o))), true).
Proof.
  intros g o Hl Hc balance Hr Hf He.
  destruct (C13_charge_fits_the_meter g o Hl Hc Hr) as (Hb & _). fold balance in Hb.
  unfold evm_call_gas.
  assert (Hcond : ((eo_remaining o =? 0)%N && (match eo_err o with Some ErrReverted | Some ErrOther => true | _ => false end)) = false).
  { destruct He as [->|[He Hz]]; [apply andb_false_r|]. apply N.eqb_neq in Hz. rewrite Hz. done. }
  rewrite Hcond. rewrite Hf.
  destruct (C13_gas_charged_within_limit balance (eo_remaining o) 0) as (H1 & H2 & _ & H4); [lia|done|].
  rewrite N.min_0_r in H4.
  assert (Hu : cal_gas_used balance (eo_remaining o) 0 = (balance - eo_remaining o)%N) by lia.
  rewrite Hu. unfold consume_gas.
  destruct (N.leb_spec two64 (g_consumed g + (balance - eo_remaining o))) as [Hx|Hx]; [unfold two64 in Hx; lia|].
  destruct (N.ltb_spec (g_limit g) (g_consumed g + (balance - eo_remaining o))) as [Hy|Hy]; [lia|].
  f_equal. destruct He as [->|[He _]]; [done|]. destruct (eo_err o); done.
Qed.
(** Counterexample, in general form: every failure other than out-of-gas that used up all
    its gas (invalid opcode, stack error, bad jump, …: go-ethereum sets the remaining gas to
    zero for all of them) costs nothing. *)
Theorem C14_failed_execution_is_charged_refuted :
  forall (g : meter) (balance refund : N) (err : evm_err),
    err <> ErrOOG -> evm_call_gas balance g (EvmOut (Some err) 0 refund) = (Charged g, true).
Proof. intros g b r [] He; done. Qed.
Example C14_nontrivial :
  evm_call_gas 90 (Meter 100 10) (EvmOut (Some ErrReverted) 20 0) = (Charged (Meter 100 80), true) /\
  evm_call_gas 90 (Meter 100 10) (EvmOut (Some ErrOther) 0 0) = (Charged (Meter 100 10), true).
Proof. vm_compute. auto. Qed.

(** ** C16 *)
Local Open Scope Z_scope.
Lemma pow10_pos d : 0 <= d -> 0 < pow10 d.
Proof. intros. unfold pow10. apply Z.pow_pos_nonneg; lia. Qed.
Lemma div_mono a b c : 0 < c -> a <= b -> a / c <= b / c.
Proof. intros. apply Z.div_le_mono; lia. Qed.

(** Chain unit to 18 decimals and back: identity for tokens with at most 18 decimals. *)
Theorem C16_up_then_down_is_identity :
  forall d v, 0 <= d <= 18 -> from_ethers d (to_ethers d v) = v.
Proof.
  intros d v Hd. unfold from_ethers, to_ethers. destruct (Z.eqb_spec d 18); [done|].
  destruct (Z.ltb_spec 18 d); [lia|]. apply Z.div_mul. pose proof (pow10_pos (18 - d)). lia.
Qed.
(** … and the other direction for tokens with more. *)
Theorem C16_down_then_up_is_identity_above_18 :
  forall d v, 18 <= d -> to_ethers d (from_ethers d v) = v.
Proof.
  intros d v Hd. unfold from_ethers, to_ethers. destruct (Z.eqb_spec d 18); [done|].
  destruct (Z.ltb_spec 18 d); [|lia]. apply Z.div_mul. pose proof (pow10_pos (d - 18)). lia.
Qed.
(** Truncation loses less than one unit of the coarser scale. *)
Theorem C16_truncation_bound :
  forall d v, 0 <= d ->
    to_ethers d (from_ethers d v) <= v /\
    v < to_ethers d (from_ethers d v) + pow10 (Z.max 0 (18 - d)) /\
    from_ethers d (to_ethers d v) <= v /\
    v < from_ethers d (to_ethers d v) + pow10 (Z.max 0 (d - 18)).
Proof.
  intros d v Hd. unfold from_ethers, to_ethers. destruct (Z.eqb_spec d 18) as [->|Hne]; [change (pow10 (Z.max 0 (18 - 18))) with 1; lia|].
  destruct (Z.ltb_spec 18 d) as [Hlt|Hge].
  - assert (Hp : 0 < pow10 (d - 18)) by (apply pow10_pos; lia).
    rewrite Z.div_mul by lia. rewrite (Z.max_l 0 (18 - d)), (Z.max_r 0 (d - 18)) by lia.
    change (pow10 0) with 1. pose proof (Z.div_mod v (pow10 (d - 18)) ltac:(lia)). pose proof (Z.mod_pos_bound v (pow10 (d - 18)) ltac:(lia)). lia.
  - assert (Hp : 0 < pow10 (18 - d)) by (apply pow10_pos; lia).
    rewrite Z.div_mul by lia. rewrite (Z.max_r 0 (18 - d)), (Z.max_l 0 (d - 18)) by lia.
    change (pow10 0) with 1. pose proof (Z.div_mod v (pow10 (18 - d)) ltac:(lia)). pose proof (Z.mod_pos_bound v (pow10 (18 - d)) ltac:(lia)). lia.
Qed.
(** Both conversions are monotone and preserve sign. *)
Theorem C16_monotone :
  forall d v w, 0 <= d -> v <= w -> to_ethers d v <= to_ethers d w /\ from_ethers d v <= from_ethers d w.
Proof.
  intros d v w Hd Hvw. unfold from_ethers, to_ethers. destruct (Z.eqb_spec d 18) as [->|Hne]; [lia|].
  destruct (Z.ltb_spec 18 d) as [Hlt|Hge].
  - assert (Hp : 0 < pow10 (d - 18)) by (apply pow10_pos; lia). split; [apply div_mono; lia|nia].
  - assert (Hp : 0 < pow10 (18 - d)) by (apply pow10_pos; lia). split; [nia|apply div_mono; lia].
Qed.
(** The check "the value survives conversion down and up" (txutils.go:79-82) accepts exactly
    the multiples of one chain unit. *)
Theorem C16_exactness_check :
  forall d v, 0 <= d -> to_ethers d (from_ethers d v) = v <-> (pow10 (Z.max 0 (18 - d)) | v).
Proof.
  intros d v Hd. unfold from_ethers, to_ethers. destruct (Z.eqb_spec d 18) as [->|Hne].
  { cbn. split; [|done]. intros _. apply Z.divide_1_l. }
  destruct (Z.ltb_spec 18 d) as [Hlt|Hge].
  - rewrite Z.max_l by lia. change (pow10 0) with 1. assert (Hp : 0 < pow10 (d - 18)) by (apply pow10_pos; lia).
    rewrite Z.div_mul by lia. split; [|done]. intros _. apply Z.divide_1_l.
  - rewrite Z.max_r by lia. assert (Hp : 0 < pow10 (18 - d)) by (apply pow10_pos; lia). split.
    + intros <-. apply Z.divide_factor_r.
    + intros [q ->]. rewrite Z.div_mul by lia. done.
Qed.
(** The same two facts for gwei. *)
Theorem C16_gwei_round_trip :
  forall d v, 0 <= d -> (d <= 9 -> from_gwei d (to_gwei d v) = v) /\ (9 <= d -> to_gwei d (from_gwei d v) = v).
Proof.
  intros d v Hd. unfold from_gwei, to_gwei. destruct (Z.eqb_spec d 9); [split; done|].
  destruct (Z.ltb_spec 9 d); (split; intros; [try lia|try lia]); apply Z.div_mul.
  - pose proof (pow10_pos (d - 9)). lia.
  - pose proof (pow10_pos (9 - d)). lia.
Qed.
Example C16_nontrivial : to_ethers 6 5 = 5000000000000 /\ from_ethers 6 5999999999999 = 5 /\ from_ethers 20 3 = 300 /\ to_ethers 20 399 = 3.
Proof. vm_compute. auto. Qed.

(** ** C17 *)
Theorem C17_fee_covers_cap :
  forall fee_cap gas d, 0 <= d -> 0 <= fee_cap -> 0 <= gas ->
    fee_cap * gas <= to_ethers d (compute_gas_fee_amount fee_cap gas d) /\
    to_ethers d (compute_gas_fee_amount fee_cap gas d) <= fee_cap * gas + pow10 (Z.max 0 (18 - d)).
Proof.
  intros f g d Hd Hf Hg. unfold compute_gas_fee_amount. destruct (Z.eqb_spec f 0) as [->|Hz].
  - assert (H0 : to_ethers d 0 = 0).
    { unfold to_ethers. destruct (d =? 18), (18 <? d); reflexivity || apply Z.div_0_l || idtac; try (pose proof (pow10_pos (d-18)); lia). }
    rewrite H0. pose proof (pow10_pos (Z.max 0 (18 - d))). lia.
  - set (x := f * g). unfold to_ethers, from_ethers. destruct (Z.eqb_spec d 18) as [->|Hne]; [change (pow10 (Z.max 0 (18 - 18))) with 1; lia|].
    destruct (Z.ltb_spec 18 d) as [Hlt|Hge].
    + assert (Hp : 1 < pow10 (d - 18)).
      { unfold pow10. apply Z.pow_gt_1; lia. }
      rewrite Z.max_l by lia. change (pow10 0) with 1.
      rewrite Z.div_add_l by lia. rewrite Z.div_small by lia. lia.
    + assert (Hp : 0 < pow10 (18 - d)) by (apply pow10_pos; lia). rewrite Z.max_r by lia.
      pose proof (Z.div_mod x (pow10 (18 - d)) ltac:(lia)). pose proof (Z.mod_pos_bound x (pow10 (18 - d)) ltac:(lia)). nia.
Qed.
Theorem C17_zero_cap_zero_fee : forall gas d, compute_gas_fee_amount 0 gas d = 0.
Proof. reflexivity. Qed.
(** The fee grows with the cap and with the gas limit. *)
Theorem C17_fee_monotone :
  forall c c' g g' d, 0 <= d -> 0 <= c <= c' -> 0 <= g <= g' ->
    compute_gas_fee_amount c g d <= compute_gas_fee_amount c' g' d.
Proof.
  intros c c' g g' d Hd Hc Hg. unfold compute_gas_fee_amount.
  assert (Hm : from_ethers d (c * g) <= from_ethers d (c' * g')) by (apply C16_monotone; nia).
  assert (H0 : 0 <= from_ethers d (c' * g')).
  { transitivity (from_ethers d 0); [|apply C16_monotone; nia].
    unfold from_ethers. destruct (d =? 18), (18 <? d); lia || (rewrite Zdiv_0_l; lia). }
  destruct (Z.eqb_spec c 0), (Z.eqb_spec c' 0); lia.
Qed.
Example C17_nontrivial : compute_gas_fee_amount 1500000000 21000 6 = 32 /\ to_ethers 6 32 = 32000000000000 /\ 1500000000 * 21000 = 31500000000000.
Proof. vm_compute. auto. Qed.

(** ** C59 *)
(** The EVM's base fee / gas price in wei is the chain gas price (a decimal with 18 digits,
    here an integer scaled by 10^18) in 18-decimal units, rounded down. *)
Lemma scaled_price p : dec_truncate_int (dec_mul_truncate p (dec_of_int (10 ^ 9))) = p / 10 ^ 9.
Proof.
  unfold dec_truncate_int, dec_mul_truncate, dec_of_int, dec_one.
  rewrite (Z.mul_assoc p), (Z.div_mul _ (10 ^ 18)) by lia.
  replace (10 ^ 18) with (10 ^ 9 * 10 ^ 9) by reflexivity. rewrite <- Z.div_div by lia. rewrite Z.div_mul by lia. done.
Qed.
Theorem C59_gas_price_in_wei :
  forall d p, 0 <= p -> 9 <= d <= 246 -> gas_price_wei d p = p / pow10 d.
Proof.
  intros d p Hp Hd. unfold gas_price_wei. rewrite scaled_price. unfold u8_add. rewrite Z.mod_small by lia.
  assert (E : pow10 d = 10 ^ 9 * pow10 (d - 9)).
  { unfold pow10. rewrite <- Z.pow_add_r by lia. f_equal. lia. }
  rewrite E, <- Z.div_div by (pose proof (pow10_pos (d-9)); lia).
  unfold to_ethers. destruct (Z.eqb_spec (d + 9) 18) as [Hx|Hx].
  - assert (d = 9) by lia. subst d. cbn. rewrite Z.div_1_r. done.
  - destruct (Z.ltb_spec 18 (d + 9)) as [Hy|Hy]; [|lia]. replace (d + 9 - 18) with (d - 9) by lia. done.
Qed.
(** Below 9 decimals the price is truncated to a multiple of 10^(9-d) wei. *)
Theorem C59_gas_price_in_wei_few_decimals :
  forall d p, 0 <= p -> 0 <= d < 9 ->
    gas_price_wei d p * pow10 d <= p < (gas_price_wei d p + pow10 (9 - d)) * pow10 d.
Proof.
  intros d p Hp Hd. unfold gas_price_wei. rewrite scaled_price. unfold u8_add. rewrite Z.mod_small by lia.
  unfold to_ethers. destruct (Z.eqb_spec (d + 9) 18); [lia|]. destruct (Z.ltb_spec 18 (d + 9)); [lia|].
  replace (18 - (d + 9)) with (9 - d) by lia.
  assert (E : pow10 (9 - d) * pow10 d = 10 ^ 9).
  { unfold pow10. rewrite <- Z.pow_add_r by lia. f_equal. lia. }
  rewrite Z.mul_add_distr_r, <- Z.mul_assoc, E.
  pose proof (Z.div_mod p (10 ^ 9) ltac:(lia)). pose proof (Z.mod_pos_bound p (10 ^ 9) ltac:(lia)). lia.
Qed.
(** Above 246 decimals the uint8 sum wraps and the price is far too large. *)
Theorem C59_wraps_above_246_decimals :
  exists d p, 0 <= d <= 255 /\ 0 <= p /\ gas_price_wei d p > p / pow10 d + 10 ^ 20.
Proof. exists 247, (10 ^ 18). split; [lia|]. split; [lia|]. vm_compute. reflexivity. Qed.

(** ** C15 *)
Lemma gas_price_of_fee_eq fee gas : 0 < gas -> gas_price_of_fee fee gas = fee * dec_one / gas.
Proof.
  intros Hg. unfold gas_price_of_fee, dec_quo_truncate, dec_of_int.
  assert (H1 : 0 < dec_one) by (unfold dec_one; lia).
  rewrite Z.div_mul_cancel_r by lia. rewrite Z.div_div by lia. rewrite (Z.mul_comm gas).
  rewrite <- Z.div_div by lia. rewrite Z.div_mul by lia. done.
Qed.
Lemma refund_coin_eq price g : refund_coin price g = price * g / dec_one.
Proof.
  unfold refund_coin, dec_truncate_int, dec_of_int. rewrite Z.mul_assoc. rewrite Z.div_mul; [done|]. unfold dec_one; lia.
Qed.

(** Each refunded coin is at most the fee's share for the refunded gas, hence at most the fee. *)
Lemma refund_share fee gas ratio left :
  0 <= fee -> 0 < gas -> 0 <= ratio <= dec_one -> 0 <= left <= gas ->
  let g := refund_gas ratio left in
  0 <= g <= left /\ 0 <= refund_coin (gas_price_of_fee fee gas) g /\
  refund_coin (gas_price_of_fee fee gas) g * gas <= fee * g.
Proof.
  intros Hf Hg Hr Hl g. assert (H1 : 0 < dec_one) by (unfold dec_one; lia).
  rewrite gas_price_of_fee_eq by done. rewrite refund_coin_eq.
  assert (Hg0 : 0 <= g <= left).
  { unfold g, refund_gas, dec_truncate_int. split; [apply Z.div_pos; nia|].
    apply Z.div_le_upper_bound; nia. }
  set (q := fee * dec_one / gas). assert (Hq : 0 <= q) by (apply Z.div_pos; nia).
  assert (Hqg : q * gas <= fee * dec_one) by (unfold q; rewrite Z.mul_comm; apply Z.mul_div_le; lia).
  split; [done|]. split; [apply Z.div_pos; nia|].
  set (c := q * g / dec_one). assert (Hc : c * dec_one <= q * g) by (unfold c; rewrite Z.mul_comm; apply Z.mul_div_le; lia).
  apply Z.mul_le_mono_pos_r with (p := dec_one); [lia|]. nia.
Qed.

(** [fees]: the coins of the transaction's fee; the prices are what GasPricesDecorator
    derives from them. *)
Definition prices_of_fees (fees : list (string * Z)) (gas : Z) : list (string * Z) :=
  map (fun c => (fst c, gas_price_of_fee (snd c) gas)) fees.
Definition total (denom : string) (cs : list (string * Z)) : Z :=
  fold_right Z.add 0 (map snd (List.filter (fun c => String.eqb (fst c) denom) cs)).

Lemma total_refund fees gas ratio left denom :
  Forall (fun c => 0 <= snd c) fees -> 0 < gas -> 0 <= ratio <= dec_one -> 0 <= left <= gas ->
  let cs := refund_coins (prices_of_fees fees gas) (refund_gas ratio left) in
  0 <= total denom cs /\ total denom cs * gas <= total denom fees * refund_gas ratio left.
Proof.
  intros Hf Hg Hr Hl cs. unfold cs, refund_coins, prices_of_fees. rewrite map_map. cbn [fst snd].
  induction Hf as [|[dn f] fees Hf0 _ IH]; [cbn; lia|]. cbn [snd] in Hf0.
  destruct (refund_share f gas ratio left Hf0 Hg Hr Hl) as (H1 & H2 & H3).
  unfold total in *. cbn [map List.filter fst snd].
  destruct (Z.eqb_spec (refund_coin (gas_price_of_fee f gas) (refund_gas ratio left)) 0) as [E|E]; cbn [negb].
  - destruct (String.eqb dn denom); cbn [map fold_right snd]; nia.
  - cbn [List.filter fst]. destruct (String.eqb dn denom); cbn [map fold_right snd]; nia.
Qed.

(** The refund of every denom is at most what was paid for the unused gas, so at most the
    fee; it goes to the granter if there is one, else the payer. [gas] is the transaction's
    gas limit, which is the meter's limit (SetUpContextDecorator). *)
Theorem C15_refund_bounded_by_fee :
  forall mode is_eth fees ratio g payer granter r denom,
    Forall (fun c => 0 <= snd c) fees -> (0 < g_limit g)%N -> (g_limit g < 2 ^ 63)%N ->
    0 <= ratio <= dec_one ->
    gas_refund true mode is_eth (Some (prices_of_fees fees (Z.of_N (g_limit g)))) ratio g payer granter = Some r ->
    rf_to r = default payer granter /\
    0 <= total denom (rf_coins r) <= total denom fees /\
    total denom (rf_coins r) * Z.of_N (g_limit g) <= total denom fees * Z.of_N (g_limit g - g_consumed g).
Proof.
  intros mode is_eth fees ratio g payer granter r denom Hf Hl1 Hl2 Hr. unfold gas_refund. cbn [andb].
  destruct (bool_decide _); [|done]. destruct is_eth as [[]|]; try done.
  set (left := Z.of_N (u64_sub _ _)). assert (Hleft : left = Z.of_N (g_limit g - g_consumed g) /\ 0 <= left <= Z.of_N (g_limit g)).
  { unfold left, consumed_to_limit. rewrite u64_sub_le by lia. lia. }
  destruct Hleft as [Eleft Hleft].
  destruct (total_refund fees (Z.of_N (g_limit g)) ratio left denom Hf ltac:(lia) Hr Hleft) as [H1 H2].
  assert (Hg : 0 <= refund_gas ratio left <= left) by (apply (refund_share 0 (Z.of_N (g_limit g))); lia).
  assert (Ht : 0 <= total denom fees).
  { clear -Hf. unfold total. induction Hf as [|[d f] l Hx _ IH]; [cbn; lia|]. cbn [List.filter fst].
    destruct (String.eqb d denom); cbn in *; lia. }
  destruct (refund_coins _ _) as [|c cs] eqn:Ec; [done|]. intros [= <-]. cbn [rf_to rf_coins].
  split; [done|]. rewrite <- Eleft. split; [|nia]. split; [done|].
  apply Z.mul_le_mono_pos_r with (p := Z.of_N (g_limit g)); [lia|]. nia.
Qed.
(** No refund outside a successful delivered Ethereum transaction, nor with ratio 0, nor
    when all gas was used. *)
Theorem C15_no_refund_otherwise :
  forall success mode is_eth prices ratio g payer granter,
    success = false \/ mode <> ModeFinalize \/ is_eth <> Some true \/ prices = None \/ ratio = 0 \/
      ((g_limit g < 2 ^ 64)%N /\ (g_limit g <= g_consumed g)%N) ->
    gas_refund success mode is_eth prices ratio g payer granter = None.
Proof.
  intros success mode is_eth prices ratio g payer granter H. unfold gas_refund.
  assert (Hz : forall ps, refund_coins ps 0 = []).
  { induction ps as [|p ps IH]; [done|]. unfold refund_coins in *. cbn. rewrite refund_coin_eq, Z.mul_0_r. cbn. exact IH. }
  destruct success; [|done]. destruct (bool_decide_reflect (mode = ModeFinalize)); [|done]. cbn [andb].
  destruct is_eth as [[]|]; try done. destruct prices as [ps|]; [|done].
  destruct H as [?|[?|[?|[?|[->|[Hl Hc]]]]]]; try done.
  - unfold refund_gas. rewrite Z.mul_0_l. change (dec_truncate_int 0) with 0. rewrite Hz. done.
  - unfold consumed_to_limit. rewrite N.min_r by lia. rewrite u64_sub_le by lia. rewrite N.sub_diag.
    unfold refund_gas. rewrite Z.mul_0_r. change (dec_truncate_int 0) with 0. rewrite Hz. done.
Qed.
Example C15_nontrivial :
  gas_refund true ModeFinalize (Some true) (Some (prices_of_fees [("uinit"%string, 1000)] 200000)) (dec_one / 2) (Meter 200000 100000) [1]%N None
  = Some (Refund [1]%N [("uinit"%string, 250)]).
Proof. vm_compute. reflexivity. Qed.
(** A minimum price of 0.15 of a token with 6 decimals is 150000000000 wei; with 18 decimals 0. *)
Example C59_nontrivial : gas_price_wei 6 150000000000000000 = 150000000000 /\ gas_price_wei 18 150000000000000000 = 0 /\ gas_price_wei 18 7500000000000000000000 = 7500.
Proof. vm_compute. auto. Qed.
