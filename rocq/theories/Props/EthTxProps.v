(** C18, C19, C22, C50, C53, C54, C58: Ethereum transactions carried by Cosmos transactions,
    and their encodings. *)
From Verif.Base Require Import Prelude Hex.
From Verif.Model Require Import Fees EthTx EthLog.
From Verif.Proofs Require Import BytesP HexP EthTxP.
Local Open Scope Z_scope.

(** ** Hexadecimal codecs: C50 *)
Definition wf_log (l : eth_log) : Prop := wf_address (el_address l) /\ Forall wf_hash (el_topics l) /\ bytes_ok (el_data l).
(** Whatever the checksum case rule [ck]. *)
Theorem C50_logs_round_trip ck ls : Forall wf_log ls -> to_eth_logs (new_logs ck ls) = Some ls.
Proof.
  intros H. unfold to_eth_logs, new_logs. apply mapM_Some.
  induction H as [|l ls [[Ha1 Ha2] [Ht Hd]] _ IH]; [constructor|]. cbn [map]. constructor; [|done].
  unfold to_eth_log. cbn [new_log tl_address tl_topics tl_data].
  rewrite hexutil_decode_encode by done. cbn [fmap option_fmap option_map]. rewrite hex_to_address_hex by done.
  assert (Hm : map hex_to_hash (map hash_hex (el_topics l)) = el_topics l).
  { clear -Ht. induction Ht as [|t ts [H1 H2] _ IHt]; [done|]. cbn [map]. rewrite IHt, hex_to_hash_hex by done. done. }
  rewrite Hm. destruct l. done.
Qed.
Theorem C50_access_list_round_trip ck al : wf_al al -> al_of_text (al_to_text ck al) = al.
Proof. apply al_of_to_text. Qed.
(** Different logs never share a stored form. *)
Theorem C50_encoding_injective ck ls ls' : Forall wf_log ls -> Forall wf_log ls' -> new_logs ck ls = new_logs ck ls' -> ls = ls'.
Proof.
  intros H H' He. apply (C50_logs_round_trip ck) in H, H'. rewrite He in H. congruence.
Qed.
Example C50_example : wf_log (ELog (replicate 20 171%N) [replicate 32 1%N; replicate 32 2%N] [0; 255]%N).
Proof. repeat split; repeat constructor; lia. Qed.

(** ** C53 *)
(** For every hash function and chain id. *)
Theorem C53_chain_id_in_range keccak cid :
  let c := eth_chain_id keccak cid in
  0 <= c < 4503599627370476 /\ 2 * c + 36 < 2 ^ 53 /\
  c = Z.of_N (of_be (take 8 (keccak cid))) mod 4503599627370476.
Proof. cbn zeta. pose proof (chain_range keccak cid). split; [done|]. split; [lia|done]. Qed.

(** ** C54 *)
(** [v = 2c+35+b] of a legacy transaction becomes signature byte [b], and byte [b] becomes
    that [v] again (with the uint64 arithmetic of the code). *)
Theorem C54_v_round_trip keccak cid b c p r s :
  0 <= b <= 1 ->
  let chain := eth_chain_id keccak cid in
  sig_v chain (LegacyTx c p (2 * chain + 35 + b) r s) = Some (Z.to_N b) /\
  Z.of_N (Z.to_N b) + Z.of_N (u64 (35 + u64 (Z.to_N chain * 2))) = 2 * chain + 35 + b /\
  derive_chain_id (2 * chain + 35 + b) = chain /\ protected (2 * chain + 35 + b) = true.
Proof.
  intros Hb. cbn zeta. pose proof (chain_range keccak cid) as Hc. cbn [sig_v].
  rewrite (u64_chain keccak cid). split; [|split; [|split]].
  - rewrite low_byte_small by lia. f_equal. f_equal. lia.
  - lia.
  - apply derive_of_eip155; lia.
  - unfold protected. rewrite negb_true_iff, !orb_false_iff, !Z.eqb_neq. lia.
Qed.
(** The 65 bytes determine R, S, V, for all 256-bit R and S, and nothing is truncated. *)
Theorem C54_signature_bytes r s v :
  0 <= r < 2 ^ 256 -> 0 <= s < 2 ^ 256 -> (v < 256)%N ->
  split_sig (sig_bytes r s v) = Some (Z.of_N v, r, s) /\ length (sig_bytes r s v) = 65%nat /\ bytes_ok (sig_bytes r s v).
Proof.
  intros Hr Hs Hv. split; [apply split_sig_bytes; done|]. split.
  - unfold sig_bytes. rewrite !app_length, !be_length. done.
  - unfold sig_bytes. apply Forall_app. split; [apply be_bytes_ok|]. apply Forall_app. split; [apply be_bytes_ok|]. constructor; [done|constructor].
Qed.
(** Conversely every 65-byte string is the encoding of the R, S, V read from it. *)
Theorem C54_signature_bytes_onto b v r s : bytes_ok b -> length b = 65%nat -> split_sig b = Some (v, r, s) ->
  b = sig_bytes r s (Z.to_N v).
Proof.
  intros Hok Hl. unfold split_sig. rewrite decide_True by done. intros [= <- <- <-]. unfold sig_bytes. rewrite !N2Z.id.
  pose proof (take_drop 32 b) as E1. pose proof (take_drop 32 (drop 32 b)) as E2. rewrite drop_drop in E2. change (32 + 32)%nat with 64%nat in E2.
  assert (Hb1 : be 32 (of_be (take 32 b)) = take 32 b).
  { replace 32%nat with (length (take 32 b)) at 1 by (rewrite take_length; lia). apply be_of_be. apply Forall_take. done. }
  assert (Hb2 : be 32 (of_be (take 32 (drop 32 b))) = take 32 (drop 32 b)).
  { replace 32%nat with (length (take 32 (drop 32 b))) at 1 by (rewrite take_length, drop_length; lia). apply be_of_be. apply Forall_take, Forall_drop. done. }
  assert (Hb3 : [of_be (drop 64 b)] = drop 64 b).
  { assert (Hd : length (drop 64 b) = 1%nat) by (rewrite drop_length; lia). destruct (drop 64 b) as [|x [|]]; done. }
  rewrite Hb1, Hb2, Hb3. rewrite E2, E1. done.
Qed.

Section conv.
(** Oracles: hashing, text codecs, public-key recovery; parameters of the chain. *)
Variable keccak : bytes -> bytes.
Variable ck : bytes -> nat -> bool.
Variable bech_enc : bytes -> text.
Variable bech_dec : text -> option bytes.
Variable recover : content -> N -> Z -> Z -> option bytes.
Variable pub_addr : bytes -> bytes.
Variable fee_denom : text.
Variable decimals : Z.
Variable cid : bytes.
(** Addresses of recovered keys have 20 bytes. *)
Hypothesis pub_addr_20 : forall ct v r s p, recover ct v r s = Some p -> length (pub_addr p) = 20%nat.
Notation chain := (eth_chain_id keccak cid).
Notation to_cosmos := (eth_to_cosmos keccak ck bech_enc recover pub_addr fee_denom decimals cid).
Notation to_eth := (cosmos_to_eth keccak bech_dec pub_addr fee_denom decimals cid).
Notation verifies := (verify_eth keccak bech_dec recover pub_addr fee_denom decimals cid).
Notation classified := (is_ethereum_tx pub_addr fee_denom).

(** ** C18 *)
(** Full statement: for every transaction the first conversion accepts, converting back gives
    the same transaction and the same sender, and the signature check passes. Proved for all
    except legacy transactions without replay protection (V = 27, 28), for which it is false
    on some chain ids ([C80_unprotected_refuted]). *)
Theorem C18_round_trip t x :
  wf_tx t -> replay_protected t -> to_cosmos t = Some x ->
  exists sender, eth_sender recover pub_addr chain t = Some sender /\ to_eth x = COk t sender /\
    classified x = true /\ verifies x = true /\
    (* and the Cosmos transaction names that sender, nonce and gas limit *)
    (exists m, c_msgs x = [m] /\ match m with CCall a _ _ _ _ | CCreate a _ _ _ => a = bech_enc sender | _ => False end) /\
    (exists sg c, c_sigs x = [sg] /\ tx_common t = Some c /\ s_seq sg = f_nonce c /\ c_gas x = f_gas c /\ pub_addr (s_pub sg) = sender).
Proof.
  intros Hwf Hp Hx. destruct (round_trip keccak ck bech_enc bech_dec recover pub_addr fee_denom decimals cid pub_addr_20 t x Hwf Hp Hx) as (sd & Hs & Hc).
  exists sd. split; [done|]. split; [done|].
  destruct (eth_to_cosmos_inv keccak ck bech_enc recover pub_addr fee_denom decimals cid t x Hp Hx)
    as (c & r & s & b & pub & Hcom & Hsend & Hrec & _ & _ & _ & _ & _ & _ & _ & Hxe).
  assert (sd = pub_addr pub) as -> by (unfold eth_sender in Hs; rewrite Hsend in Hs; cbn in Hs; congruence).
  split; [|split; [|split]].
  - rewrite Hxe. unfold is_ethereum_tx. cbn [c_msgs c_memo c_sigs c_fee s_pub s_data].
    rewrite (bool_decide_eq_true_2 (length (pub_addr pub) = 20%nat)) by (eapply pub_addr_20; done).
    rewrite Z.eqb_refl. destruct (_ =? 0); [|rewrite bool_decide_eq_true_2 by done]; destruct (f_to c); done.
  - eapply (round_trip_verifies keccak ck bech_enc bech_dec recover pub_addr fee_denom decimals cid pub_addr_20 t x); done.
  - rewrite Hxe. eexists. split; [done|]. destruct (f_to c); done.
  - rewrite Hxe. eexists _, c. split; [done|]. done.
Qed.
(** A legacy transaction without replay protection is accepted on chains where the low byte
    of [2c+8] is a recovery id and some key is recovered; it does not survive. *)
Theorem C80_unprotected_refuted c p r s pub1 pub2 x :
  chain mod 128 = 124 -> 1 <= r < curve_n -> 1 <= s <= curve_n / 2 ->
  recover (SHomestead c p) 0 r s = Some pub1 -> recover (SEip155 chain c p) 0 r s = Some pub2 ->
  to_cosmos (LegacyTx c p 27 r s) = Some x ->
  forall sd, to_eth x <> COk (LegacyTx c p 27 r s) sd.
Proof.
  intros Hc Hr Hs H1 H2 Hx sd Hback.
  destruct (cosmos_to_eth_inv keccak bech_dec pub_addr fee_denom decimals cid x _ sd Hback)
    as (m & md & sg & b & v & r' & s' & fee & tip & to & data & value & al & _ & _ & _ & _ & _ & Hsp & _ & _ & _ & _ & _ & Ht & _).
  pose proof (chain_range keccak cid).
  assert (Hv : 0 <= v).
  { unfold split_sig in Hsp. repeat case_decide; try done; injection Hsp as <- _ _; lia. }
  destruct (m_type md) as [|[[]|[]|]]; try done; injection Ht as _ _ E _ _; lia.
Qed.
(** On all other chain ids such transactions are refused, so no harm is done there. *)
Theorem C80_unprotected_refused c p v r s :
  v = 27 \/ v = 28 -> 3 < (2 * chain + 35 - v) mod 256 ->
  to_cosmos (LegacyTx c p v r s) = None.
Proof.
  intros Hv Hm. pose proof (chain_range keccak cid) as Hc. unfold eth_to_cosmos. cbn [tx_common mbind option_bind].
  destruct (fits256 _ && fits256 _); [|done]. cbn [negb]. destruct (_ =? f_value c); [|done]. cbn [negb].
  destruct (recover_sender _ _ _); [|done]. cbn [mbind option_bind tx_sig sig_v].
  assert (Hl : (3 < low_byte (v - (chain + chain + 35)))%N).
  { unfold low_byte. replace (Z.abs (v - (chain + chain + 35))) with (2 * chain + 35 - v) by lia. lia. }
  apply N.ltb_lt in Hl. rewrite Hl. done.
Qed.

(** ** C19 *)
(** Meaning of a message: recipient, input bytes, amount, access list. *)
Definition same_signature (x y : cosmos_tx) : Prop :=
  exists sx sy, c_sigs x = [sx] /\ c_sigs y = [sy] /\ s_pub sx = s_pub sy /\ s_data sx = s_data sy.
Definition is_evm_msg (m : cmsg) : Prop := match m with CCall _ _ _ _ _ | CCreate _ _ _ _ => True | _ => False end.
(** Unforgeability: one signature does not recover to one key on two different contents. *)
Definition no_forgery : Prop := forall c1 c2 v r s p1 p2,
  recover c1 v r s = Some p1 -> recover c2 v r s = Some p2 -> pub_addr p1 = pub_addr p2 -> c1 = c2.
(** Full statement: same messages and same fee. Proved: same nonce, gas limit, fee cap, and
    recipient, input and amount of an EVM message (in wei, hence in chain units for tokens
    with at most 18 decimals), and the same access list when there is one. Not true for the
    fee, for messages of other types, for the access list attached to a legacy transaction
    and for amounts of tokens with more than 18 decimals: see the refuted theorems. *)
Theorem C19_signature_binds_content_partial x y m n :
  no_forgery -> verifies x = true -> verifies y = true -> same_signature x y ->
  c_msgs x = [m] -> c_msgs y = [n] -> is_evm_msg m -> is_evm_msg n ->
  exists mx my, c_memo x = Some mx /\ c_memo y = Some my /\
  m_type mx = m_type my /\ m_fee_cap mx = m_fee_cap my /\ (m_type mx = 2%N -> m_tip_cap mx = m_tip_cap my) /\
  c_gas x = c_gas y /\ s_seq <$> head (c_sigs x) = s_seq <$> head (c_sigs y) /\
  match m, n with
  | CCall _ a i v al, CCall _ a' i' v' al' =>
      contract_address bech_dec a = contract_address bech_dec a' /\ hexutil_decode i = hexutil_decode i' /\
      (decimals <= 18 -> v = v') /\ (m_type mx <> 0%N -> al_of_text al = al_of_text al')
  | CCreate _ i v al, CCreate _ i' v' al' =>
      hexutil_decode i = hexutil_decode i' /\ (decimals <= 18 -> v = v') /\ (m_type mx <> 0%N -> al_of_text al = al_of_text al')
  | _, _ => False
  end.
Proof.
  intros Hnf Hx Hy (sx & sy & Hsx & Hsy & Hpub & Hdata) Hm Hn Hem Hen.
  unfold verify_eth in Hx, Hy.
  destruct (to_eth x) as [| |tx sdx] eqn:Ex; try done. destruct (to_eth y) as [| |ty sdy] eqn:Ey; try done.
  destruct (eth_sender recover pub_addr chain tx) as [ax|] eqn:Eax; [|done]. destruct (eth_sender recover pub_addr chain ty) as [ay|] eqn:Eay; [|done].
  apply bool_decide_eq_true in Hx, Hy. subst ax ay.
  apply cosmos_to_eth_inv in Ex as (m1 & mx & g1 & b1 & v1 & r1 & s1 & fee1 & tip1 & to1 & d1 & val1 & al1 & A1 & A2 & A3 & _ & A5 & A6 & A7 & A8 & A9 & _ & A11 & A12 & A13).
  apply cosmos_to_eth_inv in Ey as (m2 & my & g2 & b2 & v2 & r2 & s2 & fee2 & tip2 & to2 & d2 & val2 & al2 & B1 & B2 & B3 & _ & B5 & B6 & B7 & B8 & B9 & _ & B11 & B12 & B13).
  assert (m1 = m) as -> by congruence. assert (m2 = n) as -> by congruence.
  assert (g1 = sx) as -> by congruence. assert (g2 = sy) as -> by congruence.
  assert (b1 = b2) as -> by congruence. rewrite A6 in B6. injection B6 as <- <- <-.
  unfold eth_sender in Eax, Eay.
  destruct (recover_sender recover chain tx) as [p1|] eqn:R1; [|done]. destruct (recover_sender recover chain ty) as [p2|] eqn:R2; [|done].
  cbn in Eax, Eay. injection Eax as <-. injection Eay as <-.
  pose proof (chain_range keccak cid) as Hch.
  assert (Hv0 : 0 <= v1). { unfold split_sig in A6. repeat case_decide; try done; injection A6 as <- _ _; lia. }
  assert (Hprot : protected (v1 + (2 * chain + 35)) = true).
  { unfold protected. rewrite negb_true_iff, !orb_false_iff, !Z.eqb_neq. lia. }
  (* both recoveries use the same recovery id *)
  assert (Hrec : forall t c fee tip al md p, t = match m_type md with
        | 0%N => LegacyTx c fee (v1 + (2 * chain + 35)) r1 s1
        | 1%N => AccessListTx chain c fee al v1 r1 s1
        | _ => DynamicFeeTx chain c tip fee al v1 r1 s1
        end -> recover_sender recover chain t = Some p ->
        recover (hash_content chain t) (Z.to_N v1) r1 s1 = Some p).
  { intros t c fee tip al md p -> Hr. destruct (m_type md) as [|[q|q|]]; cbn [recover_sender] in Hr.
    - rewrite Hprot in Hr. destruct (derive_chain_id _ =? chain); [|done]. apply recover_plain_inv in Hr as (Hv & _ & _ & Hr).
      replace (v1 + (2 * chain + 35) - 2 * chain - 8 - 27) with v1 in Hr by lia. done.
    - rewrite Z.eqb_refl in Hr. apply recover_plain_inv in Hr as (Hv & _ & _ & Hr). replace (v1 + 27 - 27) with v1 in Hr by lia. done.
    - rewrite Z.eqb_refl in Hr. apply recover_plain_inv in Hr as (Hv & _ & _ & Hr). replace (v1 + 27 - 27) with v1 in Hr by lia. done.
    - rewrite Z.eqb_refl in Hr. apply recover_plain_inv in Hr as (Hv & _ & _ & Hr). replace (v1 + 27 - 27) with v1 in Hr by lia. done. }
  pose proof (Hrec tx _ fee1 tip1 al1 mx p1 A12 R1) as Q1. pose proof (Hrec ty _ fee2 tip2 al2 my p2 B12 R2) as Q2.
  assert (Hc : hash_content chain tx = hash_content chain ty) by (eapply Hnf; [exact Q1|exact Q2|congruence]).
  exists mx, my. split; [done|]. split; [done|].
  assert (Hall : m_type mx = m_type my /\ fee1 = fee2 /\ (m_type mx = 2%N -> tip1 = tip2) /\ (m_type mx <> 0%N -> al1 = al2) /\
     s_seq sx = s_seq sy /\ c_gas x = c_gas y /\ to1 = to2 /\ val1 = val2 /\ d1 = d2).
  { rewrite A12, B12 in Hc. destruct (m_type mx) as [|[[]|[]|]]; destruct (m_type my) as [|[[]|[]|]];
      try lia; cbn in Hc; try done; injection Hc; intros; subst; repeat split; try done; lia. }
  destruct Hall as (E1 & -> & E3 & E4 & E5 & E6 & -> & -> & ->).
  split; [done|]. split; [congruence|]. split; [intros Hx2; rewrite A8, B8; f_equal; apply E3; done|].
  split; [done|]. split; [rewrite Hsx, Hsy; cbn; congruence|].
  assert (Hval : forall v v', to_ethers decimals v = to_ethers decimals v' -> decimals <= 18 -> v = v').
  { intros v v' He Hd. unfold to_ethers in He. destruct (Z.eqb_spec decimals 18); [done|]. destruct (Z.ltb_spec 18 decimals); [lia|].
    apply Z.mul_cancel_r in He; [done|]. unfold pow10. pose proof (Z.pow_pos_nonneg 10 (18 - decimals)). lia. }
  destruct m as [? a i v al|? i v al| |]; try done; destruct n as [? a' i' v' al'|? i' v' al'| |]; try done; cbn [msg_fields] in A11, B11.
  - destruct (contract_address bech_dec a) as [aa|], (hexutil_decode i) as [ii|]; try done.
    destruct (contract_address bech_dec a') as [aa'|], (hexutil_decode i') as [ii'|]; try done.
    injection A11 as <- <- <- <-. injection B11 as <- <- Hv <-. split; [done|]. split; [done|]. split; [apply Hval; congruence|done].
  - destruct (contract_address bech_dec a) as [aa|], (hexutil_decode i) as [ii|]; try done.
    destruct (hexutil_decode i') as [ii'|]; try done. congruence.
  - destruct (hexutil_decode i) as [ii|]; try done.
    destruct (contract_address bech_dec a') as [aa'|], (hexutil_decode i') as [ii'|]; try done. congruence.
  - destruct (hexutil_decode i) as [ii|]; try done. destruct (hexutil_decode i') as [ii'|]; try done.
    injection A11 as <- <- <- <-. injection B11 as <- Hv <-. split; [done|]. split; [apply Hval; congruence|done].
Qed.

(** The fee is not covered by the signature: any amount, or none, verifies equally. *)
Theorem C19_fee_not_bound_refuted x amount :
  verifies x = true ->
  verifies (CTx (c_msgs x) (c_memo x) (c_sigs x) [(fee_denom, amount)] (c_gas x)) = true /\
  verifies (CTx (c_msgs x) (c_memo x) (c_sigs x) [] (c_gas x)) = true.
Proof.
  intros Hx.
  assert (Hok : match c_fee x with (d, _) :: _ => negb (bool_decide (d = fee_denom)) | [] => false end = false).
  { unfold verify_eth in Hx. destruct (to_eth x) as [| |t sd] eqn:E; try done.
    apply cosmos_to_eth_inv in E as (? & ? & ? & ? & ? & ? & ? & ? & ? & ? & ? & ? & ? & _ & _ & _ & Hf & _).
    destruct (c_fee x) as [|[d ?] ?]; [done|]. rewrite bool_decide_eq_true_2 by done. done. }
  assert (He : forall f, match f with (d, _) :: _ => negb (bool_decide (d = fee_denom)) | [] => false end = false ->
    to_eth (CTx (c_msgs x) (c_memo x) (c_sigs x) f (c_gas x)) = to_eth x).
  { intros f Hf. unfold cosmos_to_eth. cbn [c_msgs c_memo c_sigs c_fee c_gas]. rewrite Hf, Hok. done. }
  unfold verify_eth in *. rewrite !He; [done|done|]. rewrite bool_decide_eq_true_2 by done. done.
Qed.
(** A signature on an empty contract creation (no code, no value) verifies for any single
    Cosmos message whatever in its place. *)
Theorem C19_any_message_refuted x sender body :
  verifies x = true -> c_msgs x = [CCreate sender (txt "0x") 0 []] ->
  verifies (CTx [COther body] (c_memo x) (c_sigs x) (c_fee x) (c_gas x)) = true.
Proof.
  intros Hx Hm.
  assert (He : to_eth (CTx [COther body] (c_memo x) (c_sigs x) (c_fee x) (c_gas x)) = to_eth x).
  { unfold cosmos_to_eth. cbn [c_msgs c_memo c_sigs c_fee c_gas]. rewrite Hm. cbn [msg_fields].
    replace (hexutil_decode (txt "0x")) with (Some ([] : bytes)) by done.
    replace (to_ethers decimals 0) with 0; [done|]. symmetry. apply to_ethers_0. }
  unfold verify_eth in *. rewrite He. done.
Qed.
(** The access list of a message sent with a legacy signature is not covered. *)
Theorem C19_legacy_access_list_refuted x md sender code value al al' :
  verifies x = true -> c_memo x = Some md -> m_type md = 0%N ->
  c_msgs x = [CCreate sender code value al] ->
  verifies (CTx [CCreate sender code value al'] (c_memo x) (c_sigs x) (c_fee x) (c_gas x)) = true.
Proof.
  intros Hx Hmd Ht Hm.
  assert (He : to_eth (CTx [CCreate sender code value al'] (c_memo x) (c_sigs x) (c_fee x) (c_gas x)) = to_eth x).
  { unfold cosmos_to_eth. cbn [c_msgs c_memo c_sigs c_fee c_gas]. rewrite Hm, Hmd, Ht. cbn [msg_fields].
    destruct (hexutil_decode code); done. }
  unfold verify_eth in *. rewrite He. done.
Qed.
(** With more than 18 decimals the amount is covered only up to truncation. *)
Theorem C19_amount_above_18_decimals_refuted x sender caddr input value value' al :
  verifies x = true -> value / 10 ^ (decimals - 18) = value' / 10 ^ (decimals - 18) -> 18 < decimals ->
  c_msgs x = [CCall sender caddr input value al] ->
  verifies (CTx [CCall sender caddr input value' al] (c_memo x) (c_sigs x) (c_fee x) (c_gas x)) = true.
Proof.
  intros Hx Hv Hd Hm.
  assert (Hv' : to_ethers decimals value' = to_ethers decimals value).
  { unfold to_ethers, pow10. destruct (Z.eqb_spec decimals 18); [lia|]. destruct (Z.ltb_spec 18 decimals); [congruence|lia]. }
  assert (He : to_eth (CTx [CCall sender caddr input value' al] (c_memo x) (c_sigs x) (c_fee x) (c_gas x)) = to_eth x).
  { unfold cosmos_to_eth. cbn [c_msgs c_memo c_sigs c_fee c_gas]. rewrite Hm. cbn [msg_fields]. rewrite Hv'. done. }
  unfold verify_eth in *. rewrite He. done.
Qed.

(** ** C22 *)
Definition converts (x : cosmos_tx) : Prop := exists t sd, to_eth x = COk t sd.
(** Full statement: [classified x = true <-> converts x]. Each direction fails
    ([C22_converted_not_classified_refuted], [C22_classified_not_converted_refuted]); what
    holds: an EVM message that converts is classified, and a classified transaction converts
    exactly when its signature has 64 or 65 bytes, its memo carries a supported type and
    numeric caps, and its text fields decode. *)
Theorem C22_classification_partial x m :
  c_msgs x = [m] -> is_evm_msg m ->
  (converts x <->
   classified x = true /\
     exists md sg b, c_memo x = Some md /\ c_sigs x = [sg] /\ s_data sg = Some (mode_ethereum, b) /\
     (length b = 64%nat \/ length b = 65%nat) /\ (m_type md <= 2)%N /\ m_fee_cap md <> None /\ m_tip_cap md <> None /\
     match m with
     | CCall _ a i _ _ => contract_address bech_dec a <> None /\ hexutil_decode i <> None
     | CCreate _ i _ _ => hexutil_decode i <> None
     | _ => False
     end).
Proof.
  intros Hm Hem. split.
  - intros (t & sd & H).
    apply cosmos_to_eth_inv in H as (m1 & mx & g1 & b1 & v1 & r1 & s1 & fee1 & tip1 & to1 & d1 & val1 & al1 & A1 & A2 & A3 & A4 & A5 & A6 & A7 & A8 & A9 & A10 & A11 & A12 & A13).
    assert (m1 = m) as -> by congruence. split.
    + unfold is_ethereum_tx. rewrite A1, A2, A3, A5, Z.eqb_refl.
      assert (Hl : length (pub_addr (s_pub g1)) = 20%nat) by congruence.
      rewrite (bool_decide_eq_true_2 _ Hl).
      assert (Hf : match c_fee x with (d, _) :: _ => negb (bool_decide (d = fee_denom)) | [] => false end = false).
      { destruct (c_fee x) as [|[d ?] ?]; [done|]. rewrite bool_decide_eq_true_2 by done. done. }
      rewrite Hf. destruct m; done.
    + exists mx, g1, b1. repeat (split; [done|]). split; [|split; [done|]; split; [congruence|]; split; [congruence|]].
      * unfold split_sig in A6. repeat case_decide; try done; tauto.
      * destruct m as [? a i v al|? i v al| |]; try done; cbn [msg_fields] in A11.
        -- destruct (contract_address bech_dec a), (hexutil_decode i); done.
        -- destruct (hexutil_decode i); done.
  - intros (Hcl & md & sg & b & Hmd & Hsg & Hsd & Hlen & Hty & Hfc & Htc & Htxt).
    unfold is_ethereum_tx in Hcl. rewrite Hm, Hmd, Hsg, Hsd in Hcl. repeat (apply andb_true_iff in Hcl as [Hcl ?]).
    apply negb_true_iff in Hcl. apply bool_decide_eq_true in H0.
    unfold converts, cosmos_to_eth. rewrite Hm, Hmd, Hsg, Hcl, Hsd. rewrite (bool_decide_eq_true_2 _ H0). cbn [negb]. rewrite Z.eqb_refl. cbn [negb].
    destruct (m_fee_cap md) as [fee|]; [|done]. destruct (m_tip_cap md) as [tip|]; [|done].
    destruct (split_sig b) as [[[v r] s]|] eqn:Esp.
    2:{ exfalso. unfold split_sig in Esp. repeat case_decide; try done. destruct Hlen; done. }
    assert (Hmf : exists q, msg_fields bech_dec decimals m = inr q).
    { destruct m as [? a i v' al|? i v' al| |]; try done; cbn [msg_fields].
      - destruct (contract_address bech_dec a), (hexutil_decode i); try (destruct Htxt; done). eauto.
      - destruct (hexutil_decode i); [eauto|done]. }
    destruct Hmf as ([[[to d] val] al] & ->). destruct (m_type md) as [|[[]|[]|]]; try lia; eauto.
Qed.
(** Any message of another type converts. *)
Theorem C22_converted_not_classified_refuted x sender body :
  converts x -> c_msgs x = [CCreate sender (txt "0x") 0 []] ->
  let y := CTx [COther body] (c_memo x) (c_sigs x) (c_fee x) (c_gas x) in
  converts y /\ classified y = false.
Proof.
  intros (t & sd & Hx) Hm. cbn zeta. split.
  - exists t, sd. rewrite <- Hx. unfold cosmos_to_eth. cbn [c_msgs c_memo c_sigs c_fee c_gas]. rewrite Hm. cbn [msg_fields].
    replace (hexutil_decode (txt "0x")) with (Some ([] : bytes)) by done. rewrite to_ethers_0. done.
  - unfold is_ethereum_tx. cbn [c_msgs c_memo c_sigs c_fee]. destruct (c_memo x), (c_sigs x) as [|? [|]]; try done.
    rewrite andb_false_r. done.
Qed.
(** A classified transaction stays classified, but stops converting, when its signature is
    replaced by the empty one. *)
Theorem C22_classified_not_converted_refuted x sg :
  classified x = true -> c_sigs x = [sg] ->
  let y := CTx (c_msgs x) (c_memo x) [CSig (s_pub sg) (Some (mode_ethereum, [])) (s_seq sg)] (c_fee x) (c_gas x) in
  classified y = true /\ ~ converts y.
Proof.
  intros Hx Hsg. cbn zeta. split.
  - unfold is_ethereum_tx in *. rewrite Hsg in Hx. cbn [c_msgs c_memo c_sigs c_fee s_pub s_data].
    destruct (c_msgs x) as [|m [|]]; try done. destruct (c_memo x); [|done]. rewrite Z.eqb_refl.
    destruct (s_data sg) as [[mode b]|]; [|rewrite andb_false_r in Hx; done]. apply andb_true_iff in Hx as [Hx _].
    rewrite andb_true_r. done.
  - intros (t & sd & H).
    apply cosmos_to_eth_inv in H as (m1 & mx & g1 & b1 & v1 & r1 & s1 & fee1 & tip1 & to1 & d1 & val1 & al1 & A1 & A2 & A3 & A4 & A5 & A6 & _).
    cbn in A3. injection A3 as <-. cbn in A5. injection A5 as <-. done.
Qed.
End conv.

(** ** C58 *)
(** For typed transactions on their own chain, and for all legacy ones. *)
Theorem C58_rpc_round_trip t block number index chain q :
  match t with AccessListTx ch _ _ _ _ _ _ | DynamicFeeTx ch _ _ _ _ _ _ _ => ch = chain | _ => True end ->
  new_rpc_tx t block number index chain = Some q -> rpc_to_tx q = Some t.
Proof.
  intros Hch. destruct t as [c p v r s|ch c p al v r s|ch c tip fee al v r s|ty]; cbn; try done; intros [= <-]; cbn; destruct c; subst; done.
Qed.
(** The object carries the parity bit for typed transactions, and block data only when mined. *)
Theorem C58_rpc_fields t block number index chain q :
  new_rpc_tx t block number index chain = Some q ->
  (q_block q = None <-> block = zero_hash) /\ (q_block q <> None -> q_block q = Some (block, number, index)) /\
  q_gas_price q = Some (fee_cap t) /\ q_al q = Some (tx_al t) /\
  q_yparity q = match t with LegacyTx _ _ _ _ _ => None | _ => Some (fst (fst (tx_sig t)) mod 2 ^ 64) end.
Proof.
  intros H. unfold new_rpc_tx in H. destruct (tx_common t) as [c|]; [|done]. cbn in H. destruct (tx_sig t) as [[v r] s].
  injection H as <-. cbn [q_block q_gas_price q_al q_yparity fst snd].
  split; [|split; [|done]].
  - case_bool_decide; split; intros; try done.
  - case_bool_decide; intros Hx; [exfalso; apply Hx; done|done].
Qed.

(** ** Non-vacuity: a chain, a key, a transaction. *)
Definition w_kc (b : bytes) : bytes := replicate 32 1%N.
Definition w_ck (b : bytes) (i : nat) : bool := Nat.even i.
Definition w_benc (b : bytes) : text := txt "init1" ++ b.
Definition w_bdec (t : text) : option bytes := if decide (take 5 t = txt "init1") then Some (drop 5 t) else None.
Definition w_rec (c : content) (v : N) (r s : Z) : option bytes := Some (replicate 20 7%N).
Definition w_addr (p : bytes) : bytes := p.
Definition w_dyn := DynamicFeeTx (eth_chain_id w_kc []) (Com 3 21000 (Some (replicate 20 16%N)) 5000000000000 [1; 2; 255]%N)
  1 7 [(replicate 20 9%N, [replicate 32 4%N])] 1 77 99.
Example C18_hypotheses : wf_tx w_dyn /\ replay_protected w_dyn /\
  exists x, eth_to_cosmos w_kc w_ck w_benc w_rec w_addr (txt "umin") 6 [] w_dyn = Some x.
Proof.
  split; [|split; [done|eexists; vm_compute; reflexivity]].
  split; [split; [split; [done|]|]|]; repeat constructor; cbn; lia.
Qed.
Definition w_empty := LegacyTx (Com 3 21000 None 0 []) 7 (2 * eth_chain_id w_kc [] + 36) 77 99.
Example C19_hypotheses : exists x,
  eth_to_cosmos w_kc w_ck w_benc w_rec w_addr (txt "umin") 6 [] w_empty = Some x /\
  verify_eth w_kc w_bdec w_rec w_addr (txt "umin") 6 [] x = true /\
  (exists sd, c_msgs x = [CCreate sd (txt "0x") 0 []]) /\ is_ethereum_tx w_addr (txt "umin") x = true.
Proof. eexists. split; [vm_compute; reflexivity|]. split; [vm_compute; reflexivity|]. split; [eexists; reflexivity|vm_compute; reflexivity]. Qed.
(** A signature oracle that accepts one content only satisfies [no_forgery]. *)
Global Instance common_fields_eq_dec : EqDecision common_fields. Proof. solve_decision. Defined.
Global Instance content_eq_dec : EqDecision content. Proof. solve_decision. Defined.
Definition w_rec1 (c : content) (v : N) (r s : Z) : option bytes :=
  if decide (c = hash_content (eth_chain_id w_kc []) w_dyn) then Some (replicate 20 7%N) else None.
Example C19_no_forgery_satisfiable : no_forgery w_rec1 w_addr /\
  exists x, eth_to_cosmos w_kc w_ck w_benc w_rec1 w_addr (txt "umin") 6 [] w_dyn = Some x /\
    verify_eth w_kc w_bdec w_rec1 w_addr (txt "umin") 6 [] x = true.
Proof.
  split.
  - intros c1 c2 v r s p1 p2. unfold w_rec1. repeat case_decide; try done. congruence.
  - eexists. split; [vm_compute; reflexivity|]. vm_compute. reflexivity.
Qed.
(** Examples for C22, C53, C54, C58 with the transactions above. *)
Example C22_example : exists x m,
  eth_to_cosmos w_kc w_ck w_benc w_rec w_addr (txt "umin") 6 [] w_dyn = Some x /\ c_msgs x = [m] /\
  converts w_kc w_bdec w_addr (txt "umin") 6 [] x /\ is_ethereum_tx w_addr (txt "umin") x = true.
Proof.
  eexists _, _. split; [vm_compute; reflexivity|]. split; [reflexivity|]. split; [eexists _, _; vm_compute; reflexivity|vm_compute; reflexivity].
Qed.
Example C54_example :
  sig_v (eth_chain_id w_kc []) (LegacyTx (Com 3 21000 None 0 []) 7 (2 * eth_chain_id w_kc [] + 36) 77 99) = Some 1%N /\
  split_sig (sig_bytes 77 99 1) = Some (1, 77, 99).
Proof. vm_compute. auto. Qed.
Example C58_example :
  (q ← new_rpc_tx w_dyn (replicate 32 5%N) 10 2 (eth_chain_id w_kc []); rpc_to_tx q) = Some w_dyn /\
  (q ← new_rpc_tx w_empty (replicate 32 5%N) 10 2 (eth_chain_id w_kc []); rpc_to_tx q) = Some w_empty.
Proof. vm_compute. auto. Qed.
