(** C138: what was indexed can be read back. *)
From Verif.Base Require Import Prelude Hex.
From Verif.Model Require Import EthLog EthTx Indexer StoredTx.
From Verif.Spec Require Import IndexerSpec.
From Verif.Proofs Require Import BytesP IndexerP EthTxP.
From Verif.Props Require Import LogProps EthTxProps.
Open Scope N_scope.

(** ** Big numbers as JSON *)
Lemma unhexd_hexd d : d < 16 → unhexd (hexd false d) = Some d.
Proof.
  intros H. assert (Hd : d ∈ [0;1;2;3;4;5;6;7;8;9;10;11;12;13;14;15]).
  { destruct d as [|p]; [left|]. do 5 (destruct p; try (cbn; set_solver)); lia. }
  repeat (apply elem_of_cons in Hd as [->|Hd]; [reflexivity|]). by apply elem_of_nil in Hd.
Qed.
Lemma hexd_zero d : d < 16 → hexd false d = 48 → d = 0.
Proof. unfold hexd. destruct (N.ltb_spec d 10); lia. Qed.
Lemma hex_value_app t1 : ∀ acc t2, hex_value acc (t1 ++ t2) = hex_value acc t1 ≫= (fun a => hex_value a t2).
Proof. induction t1 as [|c t1 IH]; intros acc t2; [done|]. cbn. destruct (unhexd c); [|done]. apply IH. Qed.
Lemma hex_value_shift k : ∀ n acc, n < 16 ^ N.of_nat k → hex_value acc (hex_num k n) = Some (acc * 16 ^ N.of_nat (length (hex_num k n)) + n).
Proof.
  induction k as [|k IH]; intros n acc Hn.
  - cbn in Hn. cbn. f_equal. lia.
  - cbn [hex_num]. destruct (N.ltb_spec n 16) as [Hs|Hs].
    + cbn [hex_value]. rewrite unhexd_hexd by done. cbn [length]. change (16 ^ N.of_nat 1) with 16. done.
    + rewrite hex_value_app, IH.
      2: { rewrite Nat2N.inj_succ, N.pow_succ_r' in Hn. apply N.div_lt_upper_bound; lia. }
      cbn [mbind option_bind hex_value]. pose proof (N.mod_lt n 16 ltac:(lia)) as Hm. rewrite unhexd_hexd by done.
      f_equal. rewrite app_length. cbn [length]. replace (length (hex_num k (n / 16)) + 1)%nat with (S (length (hex_num k (n / 16)))) by lia.
      rewrite Nat2N.inj_succ, N.pow_succ_r'. pose proof (N.div_mod n 16 ltac:(lia)) as Hd. lia.
Qed.
Lemma fuel_enough n : n < 16 ^ N.of_nat (S (N.size_nat n)).
Proof.
  assert (H : n < 2 ^ N.of_nat (N.size_nat n)).
  { destruct n as [|p]; [done|]. cbn [N.size_nat].
    induction p as [p IH|p IH|]; cbn [Pos.size_nat]; try rewrite Nat2N.inj_succ, N.pow_succ_r'; try lia. }
  eapply N.lt_le_trans; [exact H|]. change 16 with (2 ^ 4). rewrite <- N.pow_mul_r. apply N.pow_le_mono_r; lia.
Qed.
Lemma hex_len k : ∀ n m, n < 16 ^ N.of_nat k → (1 ≤ m)%nat → ((length (hex_num k n) ≤ m)%nat ↔ n < 16 ^ N.of_nat m) ∧ ((0 < k)%nat → (1 ≤ length (hex_num k n))%nat).
Proof.
  induction k as [|k IH]; intros n m Hn Hm.
  - cbn in Hn. assert (n = 0) as -> by lia. cbn. split; [|lia]. split; [|lia]. intros _. apply N.neq_0_lt_0. by apply N.pow_nonzero.
  - cbn [hex_num]. destruct (N.ltb_spec n 16) as [Hs|Hs].
    + cbn [length]. split; [|lia]. split; [|lia]. intros _. eapply N.lt_le_trans; [exact Hs|]. change 16 with (16 ^ 1) at 1. apply N.pow_le_mono_r; lia.
    + rewrite app_length. cbn [length]. split; [|lia].
      assert (Hn' : n / 16 < 16 ^ N.of_nat k) by (rewrite Nat2N.inj_succ, N.pow_succ_r' in Hn; apply N.div_lt_upper_bound; lia).
      assert (Hk : (0 < k)%nat). { destruct k; [|lia]. cbn in Hn'. assert (1 ≤ n / 16) by (apply N.div_le_lower_bound; lia). lia. }
      destruct m as [|[|m]]; [lia| |].
      * destruct (IH (n / 16) 1%nat Hn' ltac:(lia)) as [_ H2]. specialize (H2 Hk). change (16 ^ N.of_nat 1) with 16. split; lia.
      * destruct (IH (n / 16) (S m) Hn' ltac:(lia)) as [H1 _].
        rewrite (Nat2N.inj_succ (S m)), N.pow_succ_r'. split.
        -- intros Hl. assert (n / 16 < 16 ^ N.of_nat (S m)) as Hx by (apply H1; lia).
           pose proof (N.div_mod n 16 ltac:(lia)). pose proof (N.mod_lt n 16 ltac:(lia)). lia.
        -- intros Hl. assert (n / 16 < 16 ^ N.of_nat (S m)) as Hx by (apply N.div_lt_upper_bound; lia). apply H1 in Hx. lia.
Qed.
Lemma hex_head k : ∀ n, n < 16 ^ N.of_nat k → (0 < k)%nat → ∃ c r, hex_num k n = c :: r ∧ (c = 48 → r = []).
Proof.
  induction k as [|k IH]; intros n Hn Hk; [lia|]. cbn [hex_num]. destruct (N.ltb_spec n 16) as [Hs|Hs]; [by eexists _, []|].
  assert (Hn' : n / 16 < 16 ^ N.of_nat k) by (rewrite Nat2N.inj_succ, N.pow_succ_r' in Hn; apply N.div_lt_upper_bound; lia).
  assert (H1 : 1 ≤ n / 16) by (apply N.div_le_lower_bound; lia).
  assert (Hk' : (0 < k)%nat). { destruct k; [|lia]. cbn in Hn'. lia. }
  destruct (IH (n / 16) Hn' Hk') as (c & r & E & Hc). rewrite E. exists c, (r ++ [hexd false (n mod 16)]). split; [done|].
  intros ->. exfalso. specialize (Hc eq_refl). subst r.
  pose proof (hex_value_shift k (n / 16) 0 Hn') as Hv. rewrite E in Hv. cbn [length] in Hv.
  change (hex_value 0 [48]) with (Some 0) in Hv. injection Hv. intros. lia.
Qed.
(** Written and read: a number of at most 256 bits and without a sign comes back, any other is an
    error. *)
Theorem C138_big_numbers z : read_big (encode_big z) = if decide (0 ≤ z < 2 ^ 256)%Z then Some z else None.
Proof.
  unfold encode_big. destruct (Z.ltb_spec z 0) as [Hz|Hz].
  - rewrite decide_False by lia. done.
  - set (n := Z.to_N z). unfold hex_text. set (k := S (N.size_nat n)). assert (Hf : n < 16 ^ N.of_nat k) by apply fuel_enough.
    destruct (hex_head k n Hf ltac:(unfold k; lia)) as (c & r & E & Hc).
    destruct (hex_len k n 64 Hf ltac:(lia)) as [Hl _].
    cbn [app read_big]. rewrite N.eqb_refl. cbn [orb]. rewrite E. 
    assert (((c =? 48) && negb (bool_decide (r = []))) = false) as ->.
    { destruct (N.eqb_spec c 48) as [->|]; [|done]. rewrite Hc by done. done. }
    rewrite <- E. change (16 ^ N.of_nat 64) with (2 ^ 256) in Hl.
    destruct (Nat.ltb_spec 64 (length (hex_num k n))).
    + rewrite decide_False; [done|]. intros [_ Hlt]. assert (n < 2 ^ 256) as Hx by (unfold n; lia). apply Hl in Hx. lia.
    + rewrite decide_True; [|split; [lia|]; assert (n < 2 ^ 256) as Hx by (apply Hl; lia); unfold n in Hx; lia].
      rewrite hex_value_shift by done. cbn [fmap option_fmap option_map]. f_equal. unfold n. lia.
Qed.

(** ** One transaction *)
(** A number the chain's JSON can carry. *)
Definition num256 (z : Z) : Prop := (0 ≤ z < 2 ^ 256)%Z.
(** The numbers of a transaction that do not have a fixed width. *)
Definition numbers_of (t : eth_tx) : list Z :=
  match tx_common t with
  | Some c => let '(v, r, s) := tx_sig t in [fee_cap t; tip_cap t; f_value c; v; r; s]
  | None => []
  end.
Lemma big_ok z : num256 z → read_big (encode_big z) = Some z.
Proof. intros H. rewrite C138_big_numbers, decide_True; done. Qed.
Lemma big_bad z : ¬ num256 z → read_big (encode_big z) = None.
Proof. intros H. rewrite C138_big_numbers, decide_False; done. Qed.
Lemma big_read z y : read_big (encode_big z) = Some y → y = z ∧ num256 z.
Proof. rewrite C138_big_numbers. destruct (decide _); [|done]. intros [= <-]. done. Qed.
(** C138. A stored transaction can be read back exactly when all its numbers fit; what is read
    back is then the same Ethereum transaction at the same place. *)
Theorem C138_transaction t bh n i ch q :
  match t with AccessListTx ch' _ _ _ _ _ _ | DynamicFeeTx ch' _ _ _ _ _ _ _ => ch' = ch | _ => True end →
  new_rpc_tx t bh n i ch = Some q →
  (is_Some (read_tx (write_tx q)) ↔ Forall num256 (ch :: numbers_of t)) ∧
  (∀ q', read_tx (write_tx q) = Some q' → rpc_to_tx q' = Some t ∧ q_block q' = q_block q ∧
     q_gas_price q' = Some (fee_cap t) ∧ q_yparity q' = q_yparity q).
Proof.
  intros Hch Hq. assert (Hbig : is_Some (read_tx (write_tx q)) → Forall num256 (ch :: numbers_of t)).
  { intros [q' H]. unfold new_rpc_tx in Hq. unfold numbers_of. destruct (tx_common t) as [c|]; [|done]. cbn [mbind option_bind] in Hq.
    destruct (tx_sig t) as [[v r] s]. injection Hq as <-. unfold read_tx, write_tx in H.
    cbn [j_price j_fee j_tip j_value j_v j_r j_s j_chain q_gas_price q_fee q_tip q_value q_v q_r q_s q_chain fmap option_fmap option_map] in H.
    destruct (read_big (encode_big (fee_cap t))) eqn:E1; [|done]. cbn [mbind option_bind fmap option_fmap option_map] in H. rewrite ?E1 in H. cbn [mbind option_bind] in H.
    destruct (read_big (encode_big (tip_cap t))) eqn:E2; [|done]. cbn [mbind option_bind] in H.
    destruct (read_big (encode_big (f_value c))) eqn:E3; [|done]. cbn [mbind option_bind] in H.
    destruct (read_big (encode_big v)) eqn:E4; [|done]. cbn [mbind option_bind] in H.
    destruct (read_big (encode_big r)) eqn:E5; [|done]. cbn [mbind option_bind] in H.
    destruct (read_big (encode_big s)) eqn:E6; [|done]. cbn [mbind option_bind] in H.
    destruct (read_big (encode_big ch)) eqn:E7; [|done].
    apply big_read in E1 as [_ ?], E2 as [_ ?], E3 as [_ ?], E4 as [_ ?], E5 as [_ ?], E6 as [_ ?], E7 as [_ ?].
    repeat (apply Forall_cons; split; [done|]). by apply Forall_nil. }
  assert (Hback : Forall num256 (ch :: numbers_of t) → ∃ q', read_tx (write_tx q) = Some q' ∧ rpc_to_tx q' = Some t ∧ q_block q' = q_block q ∧
     q_gas_price q' = Some (fee_cap t) ∧ q_yparity q' = q_yparity q).
  { intros H. pose proof (C58_rpc_round_trip t bh n i ch q Hch Hq) as Hrt.
    unfold new_rpc_tx in Hq. unfold numbers_of in H. destruct (tx_common t) as [c|]; [|done]. cbn [mbind option_bind] in Hq.
    destruct (tx_sig t) as [[v r] s]. injection Hq as <-.
    apply Forall_cons in H as [H0 H]. apply Forall_cons in H as [H1 H]. apply Forall_cons in H as [H2 H]. apply Forall_cons in H as [H3 H].
    apply Forall_cons in H as [H4 H]. apply Forall_cons in H as [H5 H]. apply Forall_cons in H as [H6 _].
    unfold read_tx, write_tx.
    cbn [j_rest j_price j_fee j_tip j_value j_v j_r j_s j_chain q_gas_price q_fee q_tip q_value q_v q_r q_s q_chain q_type q_gas q_input q_nonce q_to q_al q_yparity q_block fmap option_fmap option_map].
    rewrite !big_ok by done. cbn [mbind option_bind fmap option_fmap option_map]. rewrite ?big_ok by done. cbn [mbind option_bind]. rewrite ?big_ok by done. cbn [mbind option_bind].
    rewrite ?big_ok by done. cbn [mbind option_bind]. rewrite ?big_ok by done. cbn [mbind option_bind]. rewrite ?big_ok by done. cbn [mbind option_bind]. rewrite ?big_ok by done. cbn [mbind option_bind].
    eexists. split; [reflexivity|]. split; [|done]. revert Hrt. unfold rpc_to_tx. cbn. destruct (tx_al t); done. }
  split; [split; [done|]|].
  - intros H. destruct (Hback H) as (q' & -> & _). by eexists.
  - intros q' Hq'. destruct (Hback (Hbig (ex_intro _ q' Hq'))) as (q2 & E & Hrest). rewrite Hq' in E. by injection E as <-.
Qed.

(** ** A converted Cosmos transaction *)
Section conv.
Variable keccak : bytes → bytes.
Variable bech_dec : text → option bytes.
Variable pub_addr : bytes → bytes.
Variable fee_denom : text.
Variable decimals : Z.
Variable cid : bytes.
Notation the_chain := (eth_chain_id keccak cid).
(** C138. What the indexer makes of a Cosmos transaction can be read back exactly when its fee
    cap, its tip cap and its value in wei are numbers of 256 bits without a sign: the signature
    and the chain id always are. *)
Theorem C138_converted x t sd bh n i q :
  Forall (fun sg => match s_data sg with Some (_, b) => bytes_ok b | None => True end) (c_sigs x) →
  cosmos_to_eth keccak bech_dec pub_addr fee_denom decimals cid x = COk t sd →
  new_rpc_tx t bh n i the_chain = Some q →
  is_Some (read_tx (write_tx q)) ↔
    num256 (fee_cap t) ∧ num256 (tip_cap t) ∧ ∀ c, tx_common t = Some c → num256 (f_value c).
Proof.
  intros Hb Hx Hq. destruct (cosmos_to_eth_inv keccak bech_dec pub_addr fee_denom decimals cid x t sd Hx)
    as (m & md & sg & b & v & r & s & fee & tip & to & data & value & al & _ & _ & Hsg & _ & Hd & Hsp & _ & _ & _ & _ & _ & Ht & Hty).
  cbv zeta in Ht.
  assert (Hch : match t with AccessListTx ch' _ _ _ _ _ _ | DynamicFeeTx ch' _ _ _ _ _ _ _ => ch' = the_chain | _ => True end)
    by (subst t; by repeat case_match; simplify_eq).
  rewrite Hsg in Hb. apply Forall_cons in Hb as [Hb _]. rewrite Hd in Hb.
  assert (Hbnd : ∀ k l, bytes_ok l → (length l ≤ k)%nat → (0 ≤ Z.of_N (of_be l) < 256 ^ Z.of_nat k)%Z).
  { intros k l Hl Hk. pose proof (of_be_bound l Hl) as H. split; [lia|].
    assert (of_be l < 256 ^ N.of_nat k) as H' by (eapply N.lt_le_trans; [exact H|]; apply N.pow_le_mono_r; lia).
    apply N2Z.inj_lt in H'. rewrite N2Z.inj_pow, nat_N_Z in H'. exact H'. }
  assert (Hvrs : (0 ≤ v < 256)%Z ∧ num256 r ∧ num256 s).
  { unfold split_sig in Hsp.
    assert (Hr : num256 (Z.of_N (of_be (take 32 b)))). { apply (Hbnd 32%nat); [by apply Forall_take|]. rewrite take_length. lia. }
    assert (Hs : num256 (Z.of_N (of_be (take 32 (drop 32 b))))). { apply (Hbnd 32%nat); [by apply Forall_take, Forall_drop|]. rewrite take_length. lia. }
    destruct (decide (length b = 65%nat)) as [E|]; [|destruct (decide (length b = 64%nat)); [|done]]; injection Hsp as <- <- <-; (split; [|done]); [|lia].
    apply (Hbnd 1%nat); [by apply Forall_drop|]. rewrite drop_length. lia. }
  assert (Hc : (0 ≤ the_chain < 4503599627370476)%Z) by (unfold eth_chain_id; apply Z.mod_pos_bound; lia).
  assert (Hn : ∀ z, (0 ≤ z < 2 ^ 64)%Z → num256 z). { intros z [H1 H2]. split; [done|]. eapply Z.lt_trans; [exact H2|]. done. }
  destruct Hvrs as (Hv & Hr & Hs). destruct (C138_transaction t bh n i the_chain q Hch Hq) as [Hiff _]. rewrite Hiff. clear Hiff.
  assert (Hcn : num256 the_chain) by (apply Hn; lia).
  assert (Hv1 : num256 v) by (apply Hn; lia). assert (Hv2 : num256 (v + (2 * the_chain + 35))) by (apply Hn; lia).
  subst t. destruct (m_type md) as [|[[]|[]|]]; unfold numbers_of; cbn [tx_common tx_sig fee_cap tip_cap];
    (split; [intros H; apply Forall_cons in H as [_ H]; apply Forall_cons in H as [H1 H]; apply Forall_cons in H as [H2 H]; apply Forall_cons in H as [H3 _];
             split; [done|]; split; [done|]; intros c [= <-]; done
            |intros (H1 & H2 & H3); specialize (H3 _ eq_refl); repeat (apply Forall_cons; split; [done|]); by apply Forall_nil]).
Qed.
End conv.

(** ** What clients are answered *)
Section readers.
Variable bloom_bits : bytes → list N.
Variable header_hash : header → bytes.
Notation sound := (sound_chain bloom_bits header_hash).
Variable eth_of : itx → eth_tx.
Variable chain_id : Z.
(** The indexed entries are Ethereum transactions of this chain, and their price is the fee cap
    (go-ethereum Transaction.GasPrice). *)
Definition entry_tx (t : itx) : Prop :=
  is_Some (tx_common (eth_of t)) ∧ it_price t = fee_cap (eth_of t) ∧
  match eth_of t with AccessListTx ch _ _ _ _ _ _ | DynamicFeeTx ch _ _ _ _ _ _ _ => ch = chain_id | _ => True end.
Definition entries_of (bs : list iblock) : Prop := ∀ b te, b ∈ bs → te ∈ eth_entries b → entry_tx te.1.
(** All numbers of the transaction fit. *)
Definition fits (t : itx) : Prop := Forall num256 (numbers_of (eth_of t)).
Notation indexed := (index_blocks bloom_bits header_hash).
Notation at_ := (hash_at header_hash).
Notation gtx := (get_tx eth_of chain_id).
Notation greceipt := (get_receipt eth_of chain_id).
Notation btxs := (block_txs_read eth_of chain_id).
Notation glogs := (get_logs_read bloom_bits header_hash eth_of chain_id).

Lemma readable_iff t bh n i : num256 chain_id → entry_tx t →
  (tx_readable eth_of chain_id (mkRtx t bh n i) = true ↔ fits t).
Proof.
  intros Hc ([c Hcm] & _ & Hch). unfold tx_readable, stored. cbn [rt_tx rt_block_hash rt_number rt_index].
  destruct (new_rpc_tx (eth_of t) bh n i chain_id) as [q|] eqn:Hq.
  - destruct (C138_transaction _ _ _ _ _ _ Hch Hq) as [Hiff _]. rewrite Forall_cons in Hiff. cbn [mbind option_bind].
    unfold fits. destruct (read_tx (write_tx q)).
    + split; [intros _; apply Hiff; by eexists|done].
    + split; [done|]. intros H. destruct (proj2 Hiff (conj Hc H)) as [? [=]].
  - exfalso. unfold new_rpc_tx in Hq. rewrite Hcm in Hq. cbn in Hq. by destruct (tx_sig (eth_of t)) as [[? ?] ?].
Qed.
Lemma receipt_iff t r : entry_tx t → rc_price r = it_price t → fits t → receipt_readable r = true.
Proof.
  intros ([c Hc] & Hp & _) Hr Hf. unfold receipt_readable. rewrite Hr, Hp, big_ok; [done|].
  unfold fits, numbers_of in Hf. rewrite Hc in Hf. destruct (tx_sig (eth_of t)) as [[? ?] ?]. by apply Forall_cons in Hf as [? _].
Qed.
Lemma mapM_ext_in {A B} (f g : A → option B) l : (∀ x, x ∈ l → f x = g x) → mapM f l = mapM g l.
Proof.
  induction l as [|x l IH]; intros H; [done|]. cbn [mapM]. rewrite (H x) by left. rewrite IH by (intros; apply H; by right). done.
Qed.
Lemma mapM_none {A B} (f : A → option B) l x : x ∈ l → f x = None → mapM f l = None.
Proof.
  induction 1 as [x l|x y l Hx IH]; intros Hf; cbn [mapM]; [by rewrite Hf|]. rewrite IH by done. by destruct (f y).
Qed.
Lemma entry_place bs b j t e : sound bs → b ∈ bs → eth_entries b !! j = Some (t, e) →
  tx_by_hash (indexed bs) (it_hash t) = Some (mkRtx t (at_ (indexed bs) (ib_height b)) (ib_height b) (N.of_nat j + 1)) ∧
  ∃ r, receipt_by_hash (indexed bs) (it_hash t) = Some r ∧ rc_price r = it_price t.
Proof.
  intros Hc Hb Hj. apply elem_of_list_lookup in Hb as [i Hi].
  destruct (C42_retrieval bloom_bits header_hash bs i b j t e Hc Hi Hj) as (H1 & _ & _ & r & H2 & H3). split; [done|]. exists r. split; [done|]. apply H3.
Qed.
Lemma block_height_in bs b : sound bs → b ∈ bs → block_hashes (indexed bs) (ib_height b) = map (fun te => it_hash te.1) (eth_entries b).
Proof.
  intros Hc Hb. apply elem_of_list_lookup in Hb as [i Hi]. destruct (view_at bloom_bits header_hash bs i b Hc Hi) as (h & V & _). by eapply view_hashes.
Qed.
Lemma header_pos bs n h : sound bs → header_by_number (indexed bs) n = Some h → 1 ≤ n.
Proof.
  unfold header_by_number. induction bs as [|b bs IH] using rev_ind; intros Hc Hh.
  - unfold index_blocks in Hh. cbn in Hh. by rewrite lookup_empty in Hh.
  - destruct (chain_snoc _ _ _ _ Hc) as (Hc' & Hb & Hix & _). rewrite index_blocks_snoc in Hh.
    rewrite (index_block_ok bloom_bits header_hash b _ Hix) in Hh. cbv zeta in Hh. cbn [fst i_header] in Hh.
    apply lookup_insert_Some in Hh as [[<- _]|[_ Hh]]; [lia|]. by apply IH.
Qed.
Lemma header_in bs n h : sound bs → header_by_number (indexed bs) n = Some h → ∃ b, b ∈ bs ∧ n = ib_height b ∧ hd_number h = n.
Proof.
  intros Hc Hh. destruct (chain_view_ok bloom_bits header_hash bs Hc) as [(W1 & W2 & W3 & W4) HV].
  pose proof (W2 n h Hh) as Hn. pose proof (header_pos bs n h Hc Hh) as Hn1.
  destruct (lookup_lt_is_Some_2 bs (N.to_nat (n - 1)) ltac:(lia)) as [b Hb]. pose proof (ch_heights _ Hc _ _ Hb) as Hhb.
  assert (ib_height b = n) as E by lia. exists b. split; [by eapply elem_of_list_lookup_2|]. split; [done|].
  destruct (HV _ _ Hb) as (h' & (V1 & V2 & _) & _). rewrite E in V1. unfold header_by_number in Hh. congruence.
Qed.
Lemma logs_read_same bs n : sound bs → entries_of bs → num256 chain_id → (∀ b te, b ∈ bs → te ∈ eth_entries b → fits te.1) →
  logs_by_height_read header_hash eth_of chain_id (indexed bs) n = logs_by_height header_hash (indexed bs) n ∧
  (header_by_number (indexed bs) n ≠ None → btxs (indexed bs) n = block_txs (indexed bs) n).
Proof.
  intros Hc He Hch Hf. unfold logs_by_height_read, logs_by_height. destruct (header_by_number (indexed bs) n) as [h|] eqn:Eh; [|done].
  destruct (header_in bs n h Hc Eh) as (b & Hb & -> & _).
  assert (Htx : btxs (indexed bs) (ib_height b) = block_txs (indexed bs) (ib_height b)).
  { unfold block_txs_read, block_txs. rewrite (block_height_in bs b Hc Hb). apply mapM_ext_in. intros x Hx.
    apply elem_of_list_fmap in Hx as ([t e] & -> & Hx). apply elem_of_list_lookup in Hx as Hj. destruct Hj as [j Hj].
    destruct (entry_place bs b j t e Hc Hb Hj) as [E _]. unfold tx_read. cbn [fst]. rewrite E.
    rewrite (proj2 (readable_iff t _ _ _ Hch (He b _ Hb Hx)) (Hf b _ Hb Hx)). done. }
  split; [|done]. rewrite Htx. apply elem_of_list_lookup in Hb as Hi. destruct Hi as [i Hi].
  destruct (C42_block_walk bloom_bits header_hash bs i b Hc Hi) as [Ew _]. rewrite Ew.
  f_equal. apply mapM_ext_in. intros q Hq. apply elem_of_lookup_imap in Hq as (j & [t e] & -> & Hj). cbn [rt_tx fst].
  destruct (entry_place bs b j t e Hc Hb Hj) as [_ (r & Er & Hp)]. unfold receipt_read. rewrite Er.
  apply elem_of_list_lookup_2 in Hj. rewrite (receipt_iff t r (He b _ Hb Hj) Hp (Hf b _ Hb Hj)). done.
Qed.
(** C138. If every indexed transaction can be read back, storing as JSON changes no answer: logs of
    any query, the transactions of any block, any transaction and any receipt. *)
Theorem C138_same_answers bs :
  sound bs → entries_of bs → num256 chain_id → (∀ b te, b ∈ bs → te ∈ eth_entries b → fits te.1) →
  let st := indexed bs in
  (∀ latest c w, glogs st latest c w = get_logs bloom_bits header_hash st latest c w) ∧
  (∀ b, b ∈ bs → btxs st (ib_height b) = block_txs st (ib_height b)) ∧
  (∀ b t e, b ∈ bs → (t, e) ∈ eth_entries b →
     (∃ q, gtx st (it_hash t) = Found q ∧ rpc_to_tx q = Some (eth_of t)) ∧
     ∃ x r, tx_by_hash st (it_hash t) = Some x ∧ receipt_by_hash st (it_hash t) = Some r ∧ greceipt st (it_hash t) = Found (x, r)).
Proof.
  intros Hc He Hch Hf st. split; [|split].
  - assert (Hbl : ∀ c h, block_logs_read bloom_bits header_hash eth_of chain_id st c h = block_logs bloom_bits header_hash st c h).
    { intros c h. unfold block_logs_read, block_logs. unfold st. by rewrite (proj1 (logs_read_same bs (hd_number h) Hc He Hch Hf)). }
    assert (Hrl : ∀ c n b, range_logs_read bloom_bits header_hash eth_of chain_id st c b n = range_logs bloom_bits header_hash st c b n).
    { intros c n. induction n as [|n IH]; intros b; [done|]. cbn [range_logs_read range_logs]. destruct (header_by_number st b); [|done].
      rewrite Hbl, IH. done. }
    assert (Hlr : ∀ l c a b, logs_range_read bloom_bits header_hash eth_of chain_id st l c a b = logs_range bloom_bits header_hash st l c a b).
    { intros l c a b. unfold logs_range_read, logs_range. destruct (header_by_number st l); [|done]. cbv zeta. rewrite Hrl. done. }
    intros l c [bh|from to]; unfold get_logs_read, get_logs; destruct (Nat.ltb 4 (length (cr_topics c))); try done.
    + rewrite Hlr. destruct (bool_decide _); [done|]. destruct (header_by_hash st bh); [|done]. by rewrite Hbl.
    + cbv zeta. rewrite Hlr. done.
  - intros b Hb. apply (logs_read_same bs (ib_height b) Hc He Hch Hf).
    apply elem_of_list_lookup in Hb as [i Hi]. destruct (view_at bloom_bits header_hash bs i b Hc Hi) as (h & (V1 & _) & _). unfold header_by_number. by rewrite V1.
  - intros b t e Hb Hx. apply elem_of_list_lookup in Hx as Hj. destruct Hj as [j Hj].
    destruct (entry_place bs b j t e Hc Hb Hj) as [Et (r & Er & Hp)]. fold st in Et, Er.
    pose proof (He b _ Hb Hx) as Ht. pose proof (Hf b _ Hb Hx) as Hft. cbn [fst] in Ht, Hft.
    pose proof (proj2 (readable_iff t (at_ st (ib_height b)) (ib_height b) (N.of_nat j + 1) Hch Ht) Hft) as Hrd. split.
    + unfold get_tx. rewrite Et. revert Hrd. unfold tx_readable, stored. cbn [rt_tx rt_block_hash rt_number rt_index].
      destruct (new_rpc_tx (eth_of t) _ _ _ chain_id) as [q|] eqn:Hq; [|done]. cbn [mbind option_bind].
      destruct Ht as (_ & _ & Hcc). destruct (C138_transaction _ _ _ _ _ _ Hcc Hq) as [_ Hback].
      destruct (read_tx (write_tx q)) as [q'|]; [|done]. intros _. exists q'. split; [done|]. by apply Hback.
    + eexists _, r. split; [exact Et|]. split; [exact Er|]. unfold get_receipt. rewrite Et, Hrd, Er.
      rewrite (receipt_iff t r Ht Hp Hft). done.
Qed.

(** The criteria concern the block: they ask for nothing in particular, or one of its logs matches. *)
Definition concerns (c : crit) (b : iblock) : Prop :=
  (cr_addresses c = [] ∧ Forall (fun s => s = []) (cr_topics c)) ∨
  ∃ te l, te ∈ eth_entries b ∧ l ∈ e_logs te.2 ∧ log_matches c l.
Lemma lost_block bs b t e : sound bs → entries_of bs → num256 chain_id → b ∈ bs → (t, e) ∈ eth_entries b → ¬ fits t →
  gtx (indexed bs) (it_hash t) = Failed ∧ greceipt (indexed bs) (it_hash t) = Failed ∧ btxs (indexed bs) (ib_height b) = None.
Proof.
  intros Hc He Hch Hb Hx Hn. apply elem_of_list_lookup in Hx as Hj. destruct Hj as [j Hj].
  destruct (entry_place bs b j t e Hc Hb Hj) as [Et _].
  assert (Hrd : tx_readable eth_of chain_id (mkRtx t (at_ (indexed bs) (ib_height b)) (ib_height b) (N.of_nat j + 1)) = false).
  { apply not_true_is_false. rewrite readable_iff; [done|done|]. exact (He b _ Hb Hx). }
  split; [|split].
  - unfold get_tx. rewrite Et. unfold tx_readable in Hrd. by destruct (stored _ _ _).
  - unfold get_receipt. by rewrite Et, Hrd.
  - unfold block_txs_read. rewrite (block_height_in bs b Hc Hb). apply (mapM_none _ _ (it_hash t)).
    + apply elem_of_list_fmap. by exists (t, e).
    + unfold tx_read. by rewrite Et, Hrd.
Qed.
Lemma bloom_concerns bs b h c : sound bs → b ∈ bs → header_by_number (indexed bs) (ib_height b) = Some h → concerns c b →
  bloom_filter bloom_bits (hd_bloom h) c = true ∧ hd_number h = ib_height b.
Proof.
  intros Hc Hb Hh Hcon. apply elem_of_list_lookup in Hb as [i Hi].
  destruct (view_at bloom_bits header_hash bs i b Hc Hi) as (h' & (V1 & V2 & V3 & _) & _). unfold header_by_number in Hh.
  assert (h' = h) as -> by congruence. split; [|done]. destruct Hcon as [[Ha Ht]|(te & l & Hte & Hl & Hm)].
  - unfold bloom_filter. rewrite Ha. cbn [andb]. apply forallb_forall. intros s Hs. apply elem_of_list_In in Hs.
    rewrite Forall_forall in Ht. by rewrite (Ht s Hs).
  - eapply (C43_bloom_sound bloom_bits c _ l (map (fun te => e_logs te.2) (eth_entries b))); [|apply elem_of_list_fmap; by exists te|exact Hl|exact Hm].
    rewrite V3, map_map. reflexivity.
Qed.
(** C138, what fails. One transaction of a block whose numbers do not fit, and the transaction, its
    receipt, the list of the block's transactions (which eth_getBlockByNumber, eth_getBlockByHash
    and the transaction counts start from) and the logs of the block, by hash and over every range
    with the block in it, are errors: for all transactions of the block and all logs of the
    range. *)
Theorem C138_block_lost_refuted bs b t e :
  sound bs → entries_of bs → num256 chain_id → b ∈ bs → (t, e) ∈ eth_entries b → ¬ fits t →
  let st := indexed bs in
  gtx st (it_hash t) = Failed ∧ greceipt st (it_hash t) = Failed ∧ btxs st (ib_height b) = None ∧
  ∀ c, concerns c b →
    (at_ st (ib_height b) ≠ zero_hash → ∀ latest, glogs st latest c (AtHash (at_ st (ib_height b))) = LErr) ∧
    ∀ from to, let head := Z.of_nat (length bs) in
      (bound head from ≤ Z.of_N (ib_height b) ≤ bound head to)%Z →
      glogs st (N.of_nat (length bs)) c (Between from to) = LErr.
Proof.
  intros Hc He Hch Hb Hx Hn st. destruct (lost_block bs b t e Hc He Hch Hb Hx Hn) as (E1 & E2 & E3). fold st in E1, E2, E3.
  split; [done|]. split; [done|]. split; [done|]. intros c Hcon.
  apply elem_of_list_lookup in Hb as Hi. destruct Hi as [i Hi].
  destruct (view_at bloom_bits header_hash bs i b Hc Hi) as (h & (V1 & V2 & _ & V4 & _) & Hat & _). fold st in V1, V4, Hat.
  assert (Hh : header_by_number st (ib_height b) = Some h) by exact V1.
  assert (Hbl : block_logs_read bloom_bits header_hash eth_of chain_id st c h = None).
  { unfold block_logs_read. destruct (bloom_concerns bs b h c Hc Hb Hh Hcon) as [-> ->]. unfold logs_by_height_read. by rewrite Hh, E3. }
  split.
  - intros Hz latest. unfold get_logs_read. destruct (Nat.ltb 4 (length (cr_topics c))); [done|].
    rewrite bool_decide_eq_false_2 by done.
    assert (header_by_hash st (at_ st (ib_height b)) = Some h) as ->.
    { unfold header_by_hash. rewrite Hat, V4. exact Hh. }
    by rewrite Hbl.
  - intros from to head Hr. unfold get_logs_read. destruct (Nat.ltb 4 (length (cr_topics c))); [done|]. cbv zeta.
    destruct (_ && _); [done|].
    assert (Hres : ∀ o, resolve_bound (default (-2)%Z o) head = bound head o).
    { intros o. unfold bound, resolve_bound. by destruct o. }
    pose proof (ch_heights _ Hc _ _ Hi) as Hhi. assert (Hlt : (i < length bs)%nat) by (by apply lookup_lt_Some in Hi).
    destruct (lookup_lt_is_Some_2 bs (length bs - 1) ltac:(lia)) as [bl Hbl'].
    destruct (view_at bloom_bits header_hash bs _ bl Hc Hbl') as (hl & (L1 & L2 & _) & _).
    pose proof (ch_heights _ Hc _ _ Hbl') as Hhl.
    unfold logs_range_read. assert (header_by_number st (N.of_nat (length bs)) = Some hl) as ->.
    { unfold header_by_number, st. replace (N.of_nat (length bs)) with (ib_height bl) by lia. exact L1. }
    assert (Hnum : Z.of_N (hd_number hl) = head) by (unfold head; lia). rewrite Hnum, !Hres. cbv zeta.
    assert (Hb1 : (1 ≤ bound head from)%Z).
    { unfold bound. destruct from as [x|]; [|unfold head; lia]. destruct (Z.ltb_spec x 0); [unfold head; lia|]. destruct (Z.eqb_spec x 0); lia. }
    destruct (Z.ltb_spec (bound head to) (bound head from)); [lia|]. destruct (Z.ltb_spec head (bound head from)); [unfold head in *; lia|].
    set (e' := if (head <? bound head to)%Z then head else bound head to).
    assert (He' : (e' = Z.min (bound head to) head)%Z) by (unfold e'; destruct (Z.ltb_spec head (bound head to)); lia).
    assert (G : ∀ n k, 1 ≤ k → k ≤ ib_height b → ib_height b < k + N.of_nat n → 
      range_logs_read bloom_bits header_hash eth_of chain_id st c k n = None).
    { induction n as [|n IH]; intros k Hk1 Hk Hn'; [lia|]. cbn [range_logs_read].
      destruct (decide (k = ib_height b)) as [->|Hne]; [by rewrite Hh, Hbl|].
      destruct (lookup_lt_is_Some_2 bs (N.to_nat (k - 1)) ltac:(lia)) as [bk Hbk].
      destruct (view_at bloom_bits header_hash bs _ bk Hc Hbk) as (hk & (K1 & _) & _). pose proof (ch_heights _ Hc _ _ Hbk) as Hhk.
      assert (header_by_number st k = Some hk) as ->. { unfold header_by_number, st. replace k with (ib_height bk) by lia. exact K1. }
      rewrite (IH (k + 1)) by lia. destruct (block_logs_read _ _ _ _ _ _ hk); reflexivity. }
    rewrite G; [done|..]; unfold head in *; lia.
Qed.
End readers.

From Verif.Model Require Import Fees SigVerify Token Bank CallTree EthDeliver.
From Verif.Spec Require Import TokenSpec CallTreeSpec WalletSpec.
From Verif.Proofs Require Import TokenP BankP TokenMore BankMore CallTreeP CallTreeAny EthDeliverP.
From Verif.Props Require Import CallTreeProps EthDeliverProps.
Local Open Scope N_scope.

(** ** Anyone's transaction can be one *)
(** C138. The tip cap is charged to nobody, bounded by nothing, and plays no part in whether the
    transaction gets into a block: an Ethereum transaction that its sender signed and
    eth_sendRawTransaction accepts is included under exactly the conditions of C117_included_iff
    whatever its tip cap, the indexer makes the same transaction of it again, and with a tip cap
    that does not fit nothing of it can be read back. *)
Theorem C138_wallet_refuted keccak ck bech_enc bech_dec recover_addr key_addr key_verify sign_bytes fee_denom decimals cid
    cost_k1 cost_r1 limit E B fee code_at ratio publishers create_addr init_of col t c a b x rest n acc used keep bh k i q :
  sane bech_enc bech_dec recover_addr decimals cost_k1 limit E B fee ratio col → holder fee_denom fee n a acc →
  sent keccak ck bech_enc recover_addr key_addr fee_denom decimals cid t c a b x →
  ¬ num256 (tip_cap t) →
  f_gas c ≠ 0%N → seq_of n a = Some (f_nonce c) → (compute_gas_fee_amount (fee_cap t) (Z.of_N (f_gas c)) decimals ≤ balance (s_w (nd_st n)) fee a)%Z →
  new_rpc_tx t bh k i (eth_chain_id keccak cid) = Some q →
  deliver keccak bech_dec recover_addr key_addr key_verify sign_bytes fee_denom decimals cid cost_k1 cost_r1 limit E B fee code_at ratio publishers create_addr init_of
    (wire key_addr (KEth b) rest x) used keep n ≠ Refused ∧
  read_tx (write_tx q) = None.
Proof.
  intros Hs Hh Ht Hn Hg Hseq Hbal Hq. split.
  - apply (C117_included_iff keccak ck bech_enc bech_dec recover_addr key_addr key_verify sign_bytes fee_denom decimals cid
      cost_k1 cost_r1 limit E B fee code_at ratio publishers create_addr init_of col t c a b x rest n acc used keep Hs Hh Ht). done.
  - assert (Hch : match t with AccessListTx ch' _ _ _ _ _ _ | DynamicFeeTx ch' _ _ _ _ _ _ _ => ch' = eth_chain_id keccak cid | _ => True end).
    { pose proof (se_signed _ _ _ _ _ _ _ _ _ _ _ _ _ Ht) as H. destruct t as [|ch' ? ? ? ? ? ?|ch' ? ? ? ? ? ? ?|]; try done; cbn in H;
      destruct (Z.eqb_spec ch' (eth_chain_id keccak cid)); done. }
    destruct (C138_transaction t bh k i _ q Hch Hq) as [[Hiff _] _]. destruct (read_tx (write_tx q)) as [q'|] eqn:Er; [|done]. exfalso.
    specialize (Hiff (ex_intro _ q' eq_refl)). apply Forall_cons in Hiff as [_ Hiff]. unfold numbers_of in Hiff.
    rewrite (se_com _ _ _ _ _ _ _ _ _ _ _ _ _ Ht) in Hiff. destruct (tx_sig t) as [[? ?] ?].
    apply Forall_cons in Hiff as [_ Hiff]. by apply Forall_cons in Hiff as [? _].
Qed.

(** Alice's payment of 10 with a tip cap of 2^256: accepted, included, and not to be read back; with
    the usual tip cap it can. *)
Definition z_tx (tip : Z) : eth_tx := DynamicFeeTx (eth_chain_id w_kc []) (Com 3 20 (Some x_bob) 10 []) tip 1 [] 1 77 99.
Example C138_example :
  Forall (fun tip : Z =>
    match eth_to_cosmos w_kc w_ck w_benc y_rec (fun a => a) x_stake 18 [] (z_tx tip) with
    | Some x =>
        (match deliver w_kc w_bdec y_rec y_key (fun _ _ _ => false) (fun _ _ _ _ _ _ => None) x_stake 18 [] 1000 500 10000
                 x_env (x_bank None) x_stake_at (fun _ _ => PStop) dec_one [] y_create (fun _ _ => PStop)
                 (wire y_key (KEth x_alice) [] x) (Some 15%N) false y_node with Included true _ => true | _ => false end,
         match cosmos_to_eth w_kc w_bdec (fun b => b) x_stake 18 [] x with
         | COk t _ => match new_rpc_tx t [1] 5 1 (eth_chain_id w_kc []) with
                      | Some q => match read_tx (write_tx q) with Some q' => bool_decide (q_tip q' = tip) | None => false end
                      | None => true end
         | _ => true end)
        = (true, bool_decide (tip = 1%Z))
    | None => False
    end) [1%Z; (2 ^ 256)%Z].
Proof. repeat constructor; vm_compute; reflexivity. Qed.
(** The chain of C42_example when one of its transactions, the failed one of block 1, is that one:
    block 1 is lost to its readers, block 2 is not. *)
Definition z_of (t : itx) : eth_tx := if bool_decide (it_hash t = [2]) then DynamicFeeTx 5 (Com 3 20 (Some x_bob) 10 []) (2 ^ 256) 7 [] 1 77 99
  else DynamicFeeTx 5 (Com 3 20 (Some x_bob) 10 []) 7 7 [] 1 77 99.
Example C138_block_example :
  let st := index_blocks ex_bits ex_hash ex_chain in
  let c := mkCrit [[10]] [[[20]]] in
  let q from to := match get_logs_read ex_bits ex_hash z_of 5 st 2 c (Between from to) with
             | LErr => None | LLogs l => Some (map (fun p => (pl_number p, pl_tx_index p, pl_index p)) l) end in
  q (Some 1%Z) None = None ∧ q (Some 2%Z) None = Some [(2, 1, 0)] ∧
  block_txs_read z_of 5 st 1 = None ∧ length <$> block_txs_read z_of 5 st 2 = Some 1%nat ∧
  (match get_tx z_of 5 st [1], get_tx z_of 5 st [2], get_tx z_of 5 st [9] with Found _, Failed, Null => True | _, _, _ => False end).
Proof. vm_compute. repeat split. Qed.
