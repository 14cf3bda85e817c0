(** Lemmas for Props/RpcProps.v. *)
From Verif.Base Require Import Prelude Hex.
From Verif.Model Require Import Fees EthTx Rpc.
From Verif.Proofs Require Import BytesP HexP EthTxP.
Local Open Scope Z_scope.

(** ** Gas price *)
Lemma pow10_pos d : 0 <= d -> 0 < 10 ^ d.
Proof. intros. apply Z.pow_pos_nonneg; lia. Qed.
(** The quoted price, scaled back by 10^d, is the price cut to a multiple of 10^max(9,d). *)
Lemma gas_price_scaled d p : 0 <= d <= 246 -> 0 <= p ->
  eth_gas_price d p * 10 ^ d = p / 10 ^ Z.max 9 d * 10 ^ Z.max 9 d.
Proof.
  intros Hd Hp. unfold eth_gas_price, gas_price_wei, u8_add, dec_truncate_int, dec_mul_truncate, dec_of_int, to_ethers, pow10.
  rewrite (Z.mod_small (d + 9)) by lia.
  replace (p * (10 ^ 9 * dec_one) / dec_one) with (p * 10 ^ 9).
  2:{ rewrite Z.mul_assoc, Z.div_mul; [done|]. unfold dec_one. pose proof (pow10_pos 18). lia. }
  replace (p * 10 ^ 9 / dec_one) with (p / 10 ^ 9).
  2:{ unfold dec_one. change (10 ^ 18) with (10 ^ 9 * 10 ^ 9). rewrite Z.div_mul_cancel_r; [done| |]; pose proof (pow10_pos 9); lia. }
  destruct (Z.eqb_spec (d + 9) 18) as [E|E].
  - assert (d = 9) as -> by lia. rewrite Z.max_l by lia. done.
  - destruct (Z.ltb_spec 18 (d + 9)) as [L|L].
    + rewrite Z.max_r by lia. replace (d + 9 - 18) with (d - 9) by lia.
      rewrite Z.div_div; [|pose proof (pow10_pos 9); lia|apply pow10_pos; lia].
      rewrite <- Z.pow_add_r by lia. replace (9 + (d - 9)) with d by lia. done.
    + rewrite Z.max_l by lia. rewrite <- Z.mul_assoc, <- Z.pow_add_r by lia. do 3 f_equal. lia.
Qed.
(** Converting wei to chain units: at most one unit is lost. *)
Lemma from_ethers_scaled d v : 0 <= d -> 0 <= v ->
  from_ethers d v * dec_one <= v * 10 ^ d < (from_ethers d v + 1) * dec_one.
Proof.
  intros Hd Hv. unfold from_ethers, pow10, dec_one. destruct (Z.eqb_spec d 18) as [->|E].
  - pose proof (pow10_pos 18). lia.
  - destruct (Z.ltb_spec 18 d) as [L|L].
    + replace (10 ^ d) with (10 ^ (d - 18) * 10 ^ 18) by (rewrite <- Z.pow_add_r by lia; f_equal; lia).
      pose proof (pow10_pos 18). nia.
    + replace (10 ^ 18) with (10 ^ (18 - d) * 10 ^ d) by (rewrite <- Z.pow_add_r by lia; f_equal; lia).
      pose proof (pow10_pos (18 - d)). pose proof (pow10_pos d). pose proof (Z.div_mod v (10 ^ (18 - d))) as Hdm.
      pose proof (Z.mod_pos_bound v (10 ^ (18 - d))). nia.
Qed.
Lemma gas_price_nonneg d p : 0 <= d <= 246 -> 0 <= p -> 0 <= eth_gas_price d p.
Proof.
  intros Hd Hp. pose proof (gas_price_scaled d p Hd Hp) as H. pose proof (pow10_pos d). pose proof (pow10_pos (Z.max 9 d)).
  assert (0 <= p / 10 ^ Z.max 9 d) by (apply Z.div_pos; lia). nia.
Qed.
