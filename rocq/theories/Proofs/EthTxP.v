From Verif.Base Require Import Prelude Hex.
From Verif.Model Require Import Fees EthTx.
From Verif.Proofs Require Import BytesP HexP.
Local Open Scope Z_scope.

(** Well-formed binary fields: 20-byte addresses, 32-byte slots, bytes below 256. *)
Definition wf_address (a : bytes) : Prop := length a = 20%nat /\ bytes_ok a.
Definition wf_hash (h : bytes) : Prop := length h = 32%nat /\ bytes_ok h.
Definition wf_al (al : access_list) : Prop := Forall (fun e => wf_address (fst e) /\ Forall wf_hash (snd e)) al.

Lemma al_of_to_text ck al : wf_al al -> al_of_text (al_to_text ck al) = al.
Proof.
  intros H. induction H as [|[a ks] al [[Ha1 Ha2] Hk] _ IH]; [done|].
  unfold al_of_text, al_to_text in *. cbn [map fst snd] in *. rewrite IH. rewrite hex_to_address_hex by done. f_equal. f_equal.
  induction Hk as [|k ks [Hk1 Hk2] _ IHk]; [done|]. cbn [map]. rewrite IHk, hex_to_hash_hex by done. done.
Qed.

Lemma curve_bounds : 0 < curve_n < 2 ^ 256.
Proof. vm_compute. done. Qed.
Lemma pow256_32 : (256 ^ N.of_nat 32 = 2 ^ 256)%N. Proof. reflexivity. Qed.

Lemma split_sig_bytes r s v : 0 <= r < 2 ^ 256 -> 0 <= s < 2 ^ 256 -> split_sig (sig_bytes r s v) = Some (Z.of_N v, r, s).
Proof.
  intros Hr Hs. unfold split_sig, sig_bytes.
  assert (Hl1 : length (be 32 (Z.to_N r)) = 32%nat) by apply be_length.
  assert (Hl2 : length (be 32 (Z.to_N s)) = 32%nat) by apply be_length.
  rewrite decide_True by (rewrite !app_length, Hl1, Hl2; done).
  rewrite (take_app_alt _ _ 32) by done. rewrite (drop_app_alt _ _ 32) by done. rewrite (take_app_alt _ _ 32) by done.
  replace (drop 64 (be 32 (Z.to_N r) ++ be 32 (Z.to_N s) ++ [v])) with [v].
  2:{ rewrite app_assoc. rewrite (drop_app_alt _ _ 64); [done|]. rewrite app_length. lia. }
  assert (Hr' : (Z.to_N r < 256 ^ N.of_nat 32)%N) by (rewrite pow256_32; change (2 ^ 256)%N with (Z.to_N (2 ^ 256)); apply Z2N.inj_lt; lia).
  assert (Hs' : (Z.to_N s < 256 ^ N.of_nat 32)%N) by (rewrite pow256_32; change (2 ^ 256)%N with (Z.to_N (2 ^ 256)); apply Z2N.inj_lt; lia).
  rewrite (of_be_be_small _ _ Hr'), (of_be_be_small _ _ Hs'). rewrite !Z2N.id by lia.
  unfold of_be. cbn [fold_left]. replace (0 * 256 + v)%N with v by lia. done.
Qed.

Lemma recover_plain_inv rec ct v r s p : recover_plain rec ct v r s = Some p ->
  (v = 27 \/ v = 28) /\ 1 <= r < curve_n /\ 1 <= s <= curve_n / 2 /\ rec ct (Z.to_N (v - 27)) r s = Some p.
Proof.
  unfold recover_plain. destruct (_ && _) eqn:E; [|done]. intros Hr.
  repeat (apply andb_true_iff in E as [E ?]).
  apply orb_true_iff in E. rewrite !Z.eqb_eq in E. rewrite !Z.leb_le, !Z.ltb_lt in *. repeat split; try lia; done.
Qed.
Lemma recover_plain_some rec ct v r s p : (v = 27 \/ v = 28) -> 1 <= r < curve_n -> 1 <= s <= curve_n / 2 ->
  rec ct (Z.to_N (v - 27)) r s = Some p -> recover_plain rec ct v r s = Some p.
Proof.
  intros Hv Hr Hs Hp. unfold recover_plain.
  replace (((v =? 27) || (v =? 28)) && (1 <=? r) && (r <? curve_n) && (1 <=? s) && (s <=? curve_n / 2)) with true; [done|].
  symmetry. rewrite !andb_true_iff, orb_true_iff, !Z.eqb_eq, !Z.leb_le, Z.ltb_lt. lia.
Qed.
Lemma half_curve s : s <= curve_n / 2 -> s < 2 ^ 256.
Proof.
  intros Hs. assert (curve_n / 2 < 2 ^ 256) by (vm_compute; done). lia.
Qed.

Lemma derive_eip155 chain v : 0 <= chain < 4503599627370476 -> 35 <= v -> derive_chain_id v = chain -> v = 2 * chain + 35 \/ v = 2 * chain + 36.
Proof.
  intros Hc Hv. unfold derive_chain_id. destruct (Z.ltb_spec v (2 ^ 64)).
  - destruct (Z.eqb_spec v 27); [lia|]. destruct (Z.eqb_spec v 28); [lia|]. cbn [orb].
    rewrite Z.mod_small by lia. intros He. pose proof (Z.div_mod (v - 35) 2 ltac:(lia)). pose proof (Z.mod_pos_bound (v - 35) 2 ltac:(lia)). lia.
  - intros He. pose proof (Z.div_mod (v - 35) 2 ltac:(lia)). pose proof (Z.mod_pos_bound (v - 35) 2 ltac:(lia)). lia.
Qed.
Lemma derive_of_eip155 chain b : 0 <= chain < 4503599627370476 -> 0 <= b <= 1 -> derive_chain_id (2 * chain + 35 + b) = chain.
Proof.
  intros Hc Hb. unfold derive_chain_id. destruct (Z.ltb_spec (2 * chain + 35 + b) (2 ^ 64)); [|lia].
  destruct (Z.eqb_spec (2 * chain + 35 + b) 27); [lia|]. destruct (Z.eqb_spec (2 * chain + 35 + b) 28); [lia|]. cbn [orb].
  rewrite Z.mod_small by lia. replace (2 * chain + 35 + b - 35) with (b + chain * 2) by lia. rewrite Z.div_add by lia.
  rewrite Z.div_small by lia. lia.
Qed.
Lemma low_byte_small x : 0 <= x < 256 -> low_byte x = Z.to_N x.
Proof. intros. unfold low_byte. rewrite Z.abs_eq by lia. rewrite Z.mod_small by lia. done. Qed.

Lemma to_ethers_0 d : to_ethers d 0 = 0.
Proof. unfold to_ethers. destruct (d =? 18); [done|]. destruct (18 <? d); [apply Zdiv_0_l|done]. Qed.

Section conv.
Variable keccak : bytes -> bytes.
Variable ck : bytes -> nat -> bool.
Variable bech_enc : bytes -> text.
Variable bech_dec : text -> option bytes.
Variable recover : content -> N -> Z -> Z -> option bytes.
Variable pub_addr : bytes -> bytes.
Variable fee_denom : text.
Variable decimals : Z.
Variable cid : bytes.
Local Notation chain := (eth_chain_id keccak cid).
Local Notation eth_to_cosmos := (eth_to_cosmos keccak ck bech_enc recover pub_addr fee_denom decimals cid).
Local Notation cosmos_to_eth := (cosmos_to_eth keccak bech_dec pub_addr fee_denom decimals cid).
Local Notation verify_eth := (verify_eth keccak bech_dec recover pub_addr fee_denom decimals cid).

Lemma chain_range : 0 <= chain < 4503599627370476.
Proof. unfold eth_chain_id. apply Z.mod_pos_bound. lia. Qed.
Lemma u64_chain : Z.of_N (u64 (35 + u64 (Z.to_N chain * 2))) = 2 * chain + 35.
Proof.
  pose proof chain_range as Hc. assert (Hb : (Z.to_N chain < 4503599627370476)%N) by lia.
  unfold u64, two64. rewrite (N.mod_small (Z.to_N chain * 2)) by lia. rewrite N.mod_small by lia. lia.
Qed.

(** V of a signature-bearing transaction whose sender is recovered with chain protection. *)
Definition replay_protected (t : eth_tx) : Prop :=
  match t with LegacyTx _ _ v _ _ => protected v = true | _ => True end.
Definition wf_tx (t : eth_tx) : Prop :=
  match tx_common t with
  | Some c => match f_to c with Some a => wf_address a | None => True end /\ bytes_ok (f_data c)
  | None => True
  end /\ wf_al (tx_al t).

Lemma protected_legacy c p v r s pub : protected v = true -> recover_sender recover chain (LegacyTx c p v r s) = Some pub ->
  exists b : N, (b <= 1)%N /\ v = 2 * chain + 35 + Z.of_N b /\ low_byte (v - (chain + chain + 35)) = b /\
    recover (SEip155 chain c p) b r s = Some pub /\ 1 <= r < curve_n /\ 1 <= s <= curve_n / 2.
Proof.
  intros Hp. cbn. rewrite Hp. destruct (Z.eqb_spec (derive_chain_id v) chain) as [Hd|]; [|done]. intros Hr.
  apply recover_plain_inv in Hr as (Hv & Hr & Hs & Hrec). pose proof chain_range.
  exists (Z.to_N (v - 2 * chain - 35)). rewrite low_byte_small by lia.
  replace (Z.to_N (v - 2 * chain - 35)) with (Z.to_N (v - 2 * chain - 8 - 27)) by lia.
  repeat split; try lia. done.
Qed.

Lemma typed_sender t ct ch c v r s pub :
  match t with
  | AccessListTx ch' c' _ _ v' r' s' | DynamicFeeTx ch' c' _ _ _ v' r' s' => (ch', c', v', r', s') = (ch, c, v, r, s)
  | _ => False
  end -> hash_content chain t = ct ->
  recover_sender recover chain t = Some pub ->
  exists b : N, (b <= 1)%N /\ v = Z.of_N b /\ ch = chain /\ recover ct b r s = Some pub /\ 1 <= r < curve_n /\ 1 <= s <= curve_n / 2.
Proof.
  intros Ht Hct Hs. destruct t as [|ch' c' p' al' v' r' s'|ch' c' tip' fee' al' v' r' s'|]; try done; injection Ht as -> -> -> -> ->;
    cbn [recover_sender] in Hs; (destruct (Z.eqb_spec ch chain) as [->|]; [|done]); rewrite Hct in Hs;
    apply recover_plain_inv in Hs as (Hv & Hr & Hs & Hrec);
    (exists (Z.to_N v); replace (Z.to_N v) with (Z.to_N (v + 27 - 27)) by lia; repeat split; try lia; done).
Qed.

(** Everything [eth_to_cosmos] does on a protected transaction. *)
Lemma eth_to_cosmos_inv t x : replay_protected t -> eth_to_cosmos t = Some x ->
  exists c r s b pub, tx_common t = Some c /\
    recover_sender recover chain t = Some pub /\ recover (hash_content chain t) b r s = Some pub /\ (b <= 1)%N /\
    snd (fst (tx_sig t)) = r /\ snd (tx_sig t) = s /\
    match t with
    | LegacyTx _ _ v _ _ => v = 2 * chain + 35 + Z.of_N b
    | AccessListTx ch _ _ _ v _ _ | DynamicFeeTx ch _ _ _ _ v _ _ => v = Z.of_N b /\ ch = chain
    | OtherTx _ => False
    end /\
    1 <= r < curve_n /\ 1 <= s <= curve_n / 2 /\
    to_ethers decimals (from_ethers decimals (f_value c)) = f_value c /\
    let value := from_ethers decimals (f_value c) in
    let amount := compute_gas_fee_amount (fee_cap t) (Z.of_N (f_gas c)) decimals in
    let sender := bech_enc (pub_addr pub) in
    let al := al_to_text ck (tx_al t) in
    x = CTx [match f_to c with
             | None => CCreate sender (hexutil_encode (f_data c)) value al
             | Some to => CCall sender (address_hex ck to) (hexutil_encode (f_data c)) value al
             end] (Some (Meta (tx_type t) (Some (fee_cap t)) (Some (tip_cap t))))
            [CSig pub (Some (mode_ethereum, sig_bytes r s b)) (f_nonce c)]
            (if amount =? 0 then [] else [(fee_denom, amount)]) (f_gas c).
Proof.
  intros Hp. unfold EthTx.eth_to_cosmos. destruct (tx_common t) as [c|] eqn:Ec; [|done]. cbn [mbind option_bind].
  destruct (fits256 _ && fits256 _); [|done]. cbn [negb].
  destruct (Z.eqb_spec (to_ethers decimals (from_ethers decimals (f_value c))) (f_value c)) as [Hval|]; [|done]. cbn [negb].
  destruct (recover_sender recover chain t) as [pub|] eqn:Es; [|done]. cbn [mbind option_bind].
  destruct (tx_sig t) as [[v r] s] eqn:Esig.
  assert (Hb : exists b : N, (b <= 1)%N /\ sig_v chain t = Some b /\ recover (hash_content chain t) b r s = Some pub /\
    1 <= r < curve_n /\ 1 <= s <= curve_n / 2 /\
    match t with
    | LegacyTx _ _ v _ _ => v = 2 * chain + 35 + Z.of_N b
    | AccessListTx ch _ _ _ v _ _ | DynamicFeeTx ch _ _ _ _ v _ _ => v = Z.of_N b /\ ch = chain
    | OtherTx _ => False
    end).
  { destruct t as [c' p' v' r' s'|ch' c' p' al' v' r' s'|ch' c' tip' fee' al' v' r' s'|]; [| | |done]; cbn in Esig; injection Esig as -> -> ->.
    - destruct (protected_legacy c' p' v r s pub Hp Es) as (b & Hb & Hv & Hl & Hrec & Hr & Hs). exists b. cbn [sig_v].
      rewrite Hl. repeat split; try done; lia.
    - destruct (typed_sender (AccessListTx ch' c' p' al' v r s) _ ch' c' v r s pub eq_refl eq_refl Es) as (b & Hb & Hv & Hch & Hrec & Hr & Hs). exists b.
      cbn [sig_v]. subst v. rewrite low_byte_small by lia. rewrite N2Z.id. repeat split; try done; lia.
    - destruct (typed_sender (DynamicFeeTx ch' c' tip' fee' al' v r s) _ ch' c' v r s pub eq_refl eq_refl Es) as (b & Hb & Hv & Hch & Hrec & Hr & Hs). exists b.
      cbn [sig_v]. subst v. rewrite low_byte_small by lia. rewrite N2Z.id. repeat split; try done; lia. }
  destruct Hb as (b & Hb1 & Hsv & Hrec & Hr & Hs & Hv). rewrite Hsv. cbn [mbind option_bind].
  destruct (N.ltb_spec 3 b); [lia|]. rewrite Hrec. cbn [mbind option_bind]. intros [= <-].
  exists c, r, s, b, pub. cbn [fst snd]. repeat split; try done; try lia.
Qed.

Hypothesis pub_addr_20 : forall ct v r s p, recover ct v r s = Some p -> length (pub_addr p) = 20%nat.

Lemma round_trip t x : wf_tx t -> replay_protected t -> eth_to_cosmos t = Some x ->
  exists sender, eth_sender recover pub_addr chain t = Some sender /\ cosmos_to_eth x = COk t sender.
Proof.
  intros [Hwf Hal] Hp Hx. destruct (eth_to_cosmos_inv t x Hp Hx) as (c & r & s & b & pub & Hc & Hsend & Hrec & Hb & Hr & Hs & Hv & Hr2 & Hs2 & Hval & ->).
  exists (pub_addr pub). unfold eth_sender. rewrite Hsend. split; [done|].
  rewrite Hc in Hwf. destruct Hwf as [Hto Hdata].
  assert (Hfee : match (if compute_gas_fee_amount (fee_cap t) (Z.of_N (f_gas c)) decimals =? 0 then []
      else [(fee_denom, compute_gas_fee_amount (fee_cap t) (Z.of_N (f_gas c)) decimals)])
      with (d, _) :: _ => negb (bool_decide (d = fee_denom)) | [] => false end = false).
  { destruct (_ =? 0); [done|]. rewrite bool_decide_eq_true_2 by done. done. }
  unfold EthTx.cosmos_to_eth. cbn [c_msgs c_memo c_sigs c_fee]. rewrite Hfee. cbn [s_pub s_data s_seq].
  rewrite bool_decide_eq_true_2 by (eapply pub_addr_20; done). cbn [negb].
  rewrite Z.eqb_refl. cbn [negb].
  rewrite split_sig_bytes by (pose proof curve_bounds; pose proof (half_curve s); lia).
  cbn [m_fee_cap m_tip_cap m_type c_gas].
  assert (Hm : msg_fields bech_dec decimals
      (match f_to c with
       | None => CCreate (bech_enc (pub_addr pub)) (hexutil_encode (f_data c)) (from_ethers decimals (f_value c)) (al_to_text ck (tx_al t))
       | Some to => CCall (bech_enc (pub_addr pub)) (address_hex ck to) (hexutil_encode (f_data c)) (from_ethers decimals (f_value c)) (al_to_text ck (tx_al t))
       end) = inr (f_to c, f_data c, f_value c, tx_al t)).
  { destruct (f_to c) as [to|]; cbn [msg_fields].
    - destruct Hto as [Hl Hok]. unfold contract_address. rewrite is_hex_address_hex by done. rewrite hex_to_address_hex by done.
      rewrite hexutil_decode_encode by done. rewrite Hval, al_of_to_text by done. done.
    - rewrite hexutil_decode_encode by done. rewrite Hval, al_of_to_text by done. done. }
  rewrite Hm. rewrite u64_chain.
  destruct t as [c' p' v' r' s'|ch' c' p' al' v' r' s'|ch' c' tip' fee' al' v' r' s'|]; [| | |done]; cbn in Hc; injection Hc as ->;
    cbn in Hr, Hs; subst r' s'; cbn [tx_type fee_cap tip_cap tx_al]; destruct c as [n g to val dat]; cbn.
  - subst v'. f_equal. f_equal. lia.
  - destruct Hv as [-> ->]. done.
  - destruct Hv as [-> ->]. done.
Qed.

Lemma round_trip_verifies t x : wf_tx t -> replay_protected t -> eth_to_cosmos t = Some x -> verify_eth x = true.
Proof.
  intros Hwf Hp Hx. destruct (round_trip t x Hwf Hp Hx) as (sd & Hs & Hc). unfold EthTx.verify_eth. rewrite Hc, Hs.
  apply bool_decide_eq_true_2. done.
Qed.

(** What an accepted Ethereum-mode signature looks like, from the Cosmos side. *)
Lemma cosmos_to_eth_inv x t sd : cosmos_to_eth x = COk t sd ->
  exists m md sg b v r s fee tip to data value al,
    c_msgs x = [m] /\ c_memo x = Some md /\ c_sigs x = [sg] /\
    match c_fee x with (d, _) :: _ => d = fee_denom | [] => True end /\
    s_data sg = Some (mode_ethereum, b) /\ split_sig b = Some (v, r, s) /\
    m_fee_cap md = Some fee /\ m_tip_cap md = Some tip /\ sd = pub_addr (s_pub sg) /\ length sd = 20%nat /\
    msg_fields bech_dec decimals m = inr (to, data, value, al) /\
    let c := Com (s_seq sg) (c_gas x) to value data in
    t = match m_type md with
        | 0%N => LegacyTx c fee (v + (2 * chain + 35)) r s
        | 1%N => AccessListTx chain c fee al v r s
        | _ => DynamicFeeTx chain c tip fee al v r s
        end /\ (m_type md <= 2)%N.
Proof.
  unfold EthTx.cosmos_to_eth. destruct (c_msgs x) as [|m [|]] eqn:E1; [done| |done].
  destruct (c_memo x) as [md|]; [|done]. destruct (c_sigs x) as [|sg [|]]; [done| |done].
  assert (Hf : forall T (a b : T), (if match c_fee x with (d, _) :: _ => negb (bool_decide (d = fee_denom)) | [] => false end then a else b) = b /\
     match c_fee x with (d, _) :: _ => d = fee_denom | [] => True end \/
     (if match c_fee x with (d, _) :: _ => negb (bool_decide (d = fee_denom)) | [] => false end then a else b) = a).
  { intros T a b. destruct (c_fee x) as [|[d ?] ?]; [left; done|]. destruct (decide (d = fee_denom)) as [->|Hn].
    - left. rewrite bool_decide_eq_true_2 by done. done.
    - right. rewrite bool_decide_eq_false_2 by done. done. }
  intros H. match type of H with (if ?c then ?a else ?b) = _ => destruct (Hf _ a b) as [[Hfe Hfd]|Hfe]; rewrite Hfe in H; [|done] end.
  destruct (bool_decide_reflect (length (pub_addr (s_pub sg)) = 20%nat)) as [Hl|]; [|done]. cbn [negb] in H.
  destruct (s_data sg) as [[mode b]|] eqn:Esd; [|done]. destruct (Z.eqb_spec mode mode_ethereum) as [->|]; [|done]. cbn [negb] in H.
  destruct (split_sig b) as [[[v r] s]|] eqn:Esp; [|done]. destruct (m_fee_cap md) as [fee|] eqn:Efc; [|done]. destruct (m_tip_cap md) as [tip|] eqn:Etc; [|done].
  destruct (msg_fields bech_dec decimals m) as [e|[[[to data] value] al]] eqn:Em.
  { destruct m; cbn in Em; repeat (case_match; try done); injection Em as <-; done. }
  rewrite u64_chain in H.
  exists m, md, sg, b, v, r, s, fee, tip, to, data, value, al.
  assert (sd = pub_addr (s_pub sg)) as -> by (repeat (case_match; try done); injection H; done).
  repeat (split; [done|]). destruct (m_type md) as [|[[]|[]|]]; try done; injection H as <-; (split; [done|lia]).
Qed.
End conv.
