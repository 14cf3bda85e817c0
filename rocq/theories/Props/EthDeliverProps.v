(** C117-C120: Ethereum transactions from the wallet to their last effect (Model/EthDeliver.v). *)
From Verif.Base Require Import Prelude Hex.
From Verif.Model Require Import Fees EthTx SigVerify Token Bank CallTree EthDeliver.
From Verif.Spec Require Import TokenSpec CallTreeSpec WalletSpec.
From Verif.Proofs Require Import BytesP HexP EthTxP TokenP BankP TokenMore BankMore CallTreeP CallTreeAny EthDeliverP.
From Verif.Props Require Import EthTxProps FeesProps CallTreeProps.
Local Open Scope Z_scope.

Section props.
Variable keccak : bytes -> bytes.
Variable ck : bytes -> nat -> bool.
Variable bech_enc : bytes -> text.
Variable bech_dec : text -> option bytes.
Variable recover_addr : content -> N -> Z -> Z -> option bytes.
Variable key_addr : pubkey -> bytes.
Variable key_verify : pubkey -> bytes -> bytes -> bool.
Variable sign_bytes : Z -> bytes -> N -> N -> pubkey -> vtx -> option bytes.
Variable fee_denom : text.
Variable decimals : Z.
Variable cid : bytes.
Variable cost_k1 cost_r1 limit : N.
Variable E : env.
Variable B : bank_env.
Variable fee : bytes.
Variable code_at : bytes -> bytes -> prog.
Variable ratio : Z.
Variable publishers : list text.
Variable create_addr : bytes -> N -> bytes.
Variable init_of : bytes -> bytes -> prog.
Variable col : bytes.
Notation to_cosmos := (eth_to_cosmos keccak ck bech_enc recover_addr (fun a => a) fee_denom decimals cid).
Notation sigs := (ante_sigs keccak bech_dec recover_addr key_addr key_verify sign_bytes fee_denom decimals cid cost_k1 cost_r1 false false limit).
Notation ante := (ante keccak bech_dec recover_addr key_addr key_verify sign_bytes fee_denom decimals cid cost_k1 cost_r1 limit B).
Notation run_tx := (run_tx keccak bech_dec recover_addr key_addr key_verify sign_bytes fee_denom decimals cid cost_k1 cost_r1 limit E B fee code_at ratio publishers create_addr init_of).
Notation deliver := (deliver keccak bech_dec recover_addr key_addr key_verify sign_bytes fee_denom decimals cid cost_k1 cost_r1 limit E B fee code_at ratio publishers create_addr init_of).

(** The chain: keepers call the EVM as modelled, no send restriction, a fee collector, a refund
    ratio between 0 and 1, an address codec that reads what it writes. *)
Record sane : Prop := {
  sn_calls : chain_calls E (be_call B);
  sn_restr : be_restr B = None;
  sn_col : exists ps, be_modules B !! be_fee_collector B = Some (col, ps);
  sn_col20 : length col = 20%nat;
  sn_ratio : 0 <= ratio <= dec_one;
  sn_bech : forall a, length a = 20%nat -> bech_dec (bech_enc a) = Some a;
  sn_rec : forall ct v r s p, recover_addr ct v r s = Some p -> length p = 20%nat;
  sn_cost : (cost_k1 <= limit)%N;
  sn_fee : fee <> null_addr;
  sn_dec : 0 <= decimals }.
(** The state: the fee denomination names a token of the provided kind with its books in order
    (as in every reachable state, [healthy_reachable] below). *)
Record healthy (n : node) : Prop := {
  hy_den : denom_to_contract (s_w (nd_st n)) fee_denom = Some fee;
  hy_tok : exists t, is_token (s_w (nd_st n)) fee t /\ tok_ok t /\ t_kind t = KERC20 }.
(** The account of [y]: from the signers' table, or one that a transfer has made. *)
Definition acct_of (n : node) (y : bytes) : option vacc :=
  match nd_accs n !! y with
  | Some v => Some v
  | None => (fun c => VAcc None (ac_seq c) (ac_num c)) <$> w_accts (s_w (nd_st n)) !! y
  end.
(** [a] has an account with an ordinary key or none yet. *)
Definition ordinary (acc : vacc) : Prop := match a_key acc with None | Some (KEth _) | Some (KSecp _) => True | _ => False end.
Record holder (n : node) (a : bytes) (acc : vacc) : Prop := {
  hd_ok : healthy n;
  hd_acc : acct_of n a = Some acc;
  hd_key : ordinary acc }.
(** The transaction: [a] signed the Ethereum transaction [t], a call or a creation; the node made
    [x] of it. *)
Record sent (t : eth_tx) (c : common_fields) (a b : bytes) (x : cosmos_tx) : Prop := {
  se_wf : wf_tx t;
  se_prot : replay_protected t;
  se_com : tx_common t = Some c;
  se_signed : recover_sender recover_addr (eth_chain_id keccak cid) t = Some a;
  se_key : key_addr (KEth b) = a;
  se_x : to_cosmos t = Some x;
  se_val : 0 <= f_value c;
  se_cap : 0 <= fee_cap t;
  se_gas : (f_gas c < 2 ^ 63)%N;
  se_nonce : (f_nonce c < 2 ^ 64 - 1)%N }.
(** The fee and the value in units of the fee token. *)
Definition fee_of (t : eth_tx) (c : common_fields) : Z := compute_gas_fee_amount (fee_cap t) (Z.of_N (f_gas c)) decimals.
Definition value_of (c : common_fields) : Z := from_ethers decimals (f_value c).
(** Only a transaction with one message, a call or a creation, is refunded. *)
Theorem C117_no_refund x used n :
  (forall m, v_msgs x = [m] -> match m with CCall _ _ _ _ _ | CCreate _ _ _ _ => False | _ => True end) ->
  refund key_addr fee_denom B ratio x used n = Some n.
Proof.
  intros H. unfold refund, is_eth. destruct (v_msgs x) as [|m [|]]; [done| |done].
  specialize (H m eq_refl). destruct (v_memo x); [|done]. destruct (v_sigs x) as [|sg [|]]; [done| |done].
  destruct (negb (SigVerify.fee_ok fee_denom x)); [done|]. by destruct m.
Qed.
Notation node_tx b rest x := (wire key_addr (KEth b) rest x).
(** The same transaction with the fee [F]. *)
Definition refee (F : Z) (x : cosmos_tx) : cosmos_tx :=
  CTx (c_msgs x) (c_memo x) (c_sigs x) (if F =? 0 then [] else [(fee_denom, F)]) (c_gas x).

Lemma healthy_reachable n t : reachable E (s_w (nd_st n)) -> denom_to_contract (s_w (nd_st n)) fee_denom = Some fee ->
  is_token (s_w (nd_st n)) fee t -> t_kind t = KERC20 -> healthy n.
Proof. intros Hr Hd Ht Hk. split; [done|]. exists t. split; [done|]. split; [|done]. by apply (iv_tok E _ (inv_reachable E _ Hr) fee t). Qed.
Lemma sync_lookup n y : nd_accs (sync n) !! y = acct_of n y.
Proof.
  unfold sync, acct_of. cbn [nd_accs]. rewrite lookup_union, lookup_fmap. destruct (nd_accs n !! y) as [v|].
  - by destruct (w_accts _ !! y).
  - by destruct (w_accts _ !! y).
Qed.

Section one.
Context (t : eth_tx) (c : common_fields) (a b : bytes) (x : cosmos_tx) (rest : bytes) (n : node) (acc : vacc).
Hypothesis Hsane : sane.
Hypothesis Hold : holder n a acc.
Hypothesis Hsent : sent t c a b x.
Notation w := (s_w (nd_st n)).
Notation l0 := (Ledger (balance w fee) (s_sto (nd_st n)) (s_log (nd_st n))).
Notation X := (node_tx b rest x).

Lemma from_ethers_pos z : 0 <= z -> 0 <= from_ethers decimals z.
Proof.
  intros Hz. unfold from_ethers. destruct (_ =? _); [done|]. destruct (Z.ltb_spec 18 decimals).
  - assert (0 < pow10 (decimals - 18)) by (apply pow10_pos; lia). nia.
  - apply Z.div_pos; [done|]. apply pow10_pos. lia.
Qed.
Lemma fits : amount_ok (fee_of t c) /\ amount_ok (value_of c).
Proof.
  destruct Hsent. pose proof se_x0 as Hx. unfold eth_to_cosmos in Hx. rewrite se_com0 in Hx. cbn [mbind option_bind] in Hx.
  fold (fee_of t c) in Hx. fold (value_of c) in Hx.
  destruct (fits256 (fee_of t c) && fits256 (value_of c)) eqn:Ef; [|done]. clear Hx.
  apply andb_true_iff in Ef as [E1 E2]. unfold fits256 in E1, E2. rewrite Z.ltb_lt in E1, E2.
  assert (0 <= value_of c) by (by apply from_ethers_pos).
  assert (0 <= fee_of t c).
  { unfold fee_of, compute_gas_fee_amount. destruct (_ =? 0); [done|].
    pose proof (from_ethers_pos (fee_cap t * Z.of_N (f_gas c)) ltac:(nia)). lia. }
  unfold amount_ok, two256. lia.
Qed.
Lemma x_is : exists sb : bytes,
  x = CTx [match f_to c with
           | None => CCreate (bech_enc a) (hexutil_encode (f_data c)) (value_of c) (al_to_text ck (tx_al t))
           | Some to => CCall (bech_enc a) (address_hex ck to) (hexutil_encode (f_data c)) (value_of c) (al_to_text ck (tx_al t))
           end]
          (Some (Meta (tx_type t) (Some (fee_cap t)) (Some (tip_cap t))))
          [CSig a (Some (mode_ethereum, sb)) (f_nonce c)]
          (if fee_of t c =? 0 then [] else [(fee_denom, fee_of t c)]) (f_gas c).
Proof.
  destruct Hsent.
  destruct (eth_to_cosmos_inv keccak ck bech_enc recover_addr (fun a => a) fee_denom decimals cid t x se_prot0 se_x0)
    as (c' & r & s & b' & pub & Hc & Hs & _ & _ & _ & _ & _ & _ & _ & _ & Hx).
  rewrite se_com0 in Hc. injection Hc as <-. rewrite se_signed0 in Hs. injection Hs as <-.
  eexists. exact Hx.
Qed.
Lemma a20 : length a = 20%nat.
Proof.
  destruct Hsent.
  destruct (eth_to_cosmos_inv keccak ck bech_enc recover_addr (fun a => a) fee_denom decimals cid t x se_prot0 se_x0)
    as (c' & r & s & b' & pub & Hc & Hs & Hr & _). rewrite se_signed0 in Hs. injection Hs as <-. eapply (sn_rec Hsane), Hr.
Qed.
Lemma wire_with_key sg : v_sigs X = [sg] -> with_key key_addr X sg (KEth b) = x.
Proof.
  destruct x_is as (sb & Hx'); rewrite Hx'. intros [= <-]. unfold with_key. cbn. rewrite (se_key _ _ _ _ _ Hsent). done.
Qed.

(** The signature decorators *)
Definition accs1 : vaccs := match a_key acc with
                            | None => <[a := VAcc (Some (KEth b)) (a_seq acc) (a_num acc)]> (nd_accs (sync n))
                            | Some _ => nd_accs (sync n) end.
Definition key_after : pubkey := default (KEth b) (a_key acc).
Lemma accs1_key : accs1 !! a = Some (VAcc (Some key_after) (a_seq acc) (a_num acc)).
Proof.
  unfold accs1, key_after. pose proof (hd_acc _ _ _ Hold) as Ha. rewrite <- sync_lookup in Ha.
  destruct (a_key acc) as [pk|] eqn:Ek; [|by rewrite lookup_insert]. rewrite Ha. destruct acc. cbn in *. by rewrite Ek.
Qed.
Lemma accs1_a : exists pk, accs1 !! a = Some (VAcc (Some pk) (a_seq acc) (a_num acc)) /\
  match pk with KEth _ | KSecp _ => True | _ => False end.
Proof.
  unfold accs1. pose proof (hd_acc _ _ _ Hold) as Ha. rewrite <- sync_lookup in Ha. pose proof (hd_key _ _ _ Hold) as Hk. unfold ordinary in Hk.
  destruct (a_key acc) as [pk|] eqn:Ek.
  - exists pk. split; [|done]. rewrite Ha. destruct acc. cbn in *. by rewrite Ek.
  - exists (KEth b). by rewrite lookup_insert.
Qed.
Lemma sigs_are : sigs (nd_accs (sync n)) X = if decide (f_nonce c = a_seq acc) then Some accs1 else None.
Proof.
  destruct x_is as (sb & Hx).
  assert (Hsig : v_sigs X = [VSig (Some (KEth b)) (SSingle mode_ethereum sb) (f_nonce c)]) by (rewrite Hx; done).
  assert (Hsgn : v_signers X = [a]) by (rewrite Hx; cbn; by rewrite (se_key _ _ _ _ _ Hsent)).
  unfold ante_sigs. rewrite Hsig, Hsgn. cbn [length]. rewrite bool_decide_eq_true_2 by done. cbn [negb zip zip_with].
  cbn [set_keys v_key]. rewrite (se_key _ _ _ _ _ Hsent), bool_decide_eq_true_2 by done. cbn [negb].
  rewrite sync_lookup, (hd_acc _ _ _ Hold). cbn [mbind option_bind].
  assert ((match a_key acc with Some _ => Some (nd_accs (sync n)) | None => Some (<[a:=VAcc (Some (KEth b)) (a_seq acc) (a_num acc)]> (nd_accs (sync n))) end) = Some accs1) as ->
    by (unfold accs1; by destruct (a_key acc)).
  cbn [mbind option_bind]. destruct accs1_a as (pk & Hpk & Hk).
  cbn [gas_sum]. rewrite Hpk. cbn [mbind option_bind a_key v_data].
  assert (sig_gas cost_k1 cost_r1 (SSingle mode_ethereum sb) pk = Some cost_k1) as -> by by destruct pk.
  cbn [mbind option_bind]. destruct (N.ltb_spec limit (cost_k1 + 0)) as [Hl|_].
  { pose proof (sn_cost Hsane). lia. }
  cbn [verify_all]. unfold verify_one. rewrite Hpk. cbn [a_key a_seq v_seq v_data].
  destruct (decide (f_nonce c = a_seq acc)) as [Hn|Hn].
  - rewrite Hn, N.eqb_refl. cbn [negb]. unfold verify_signature. rewrite Z.eqb_refl.
    unfold convert. rewrite Hsig. cbn [v_key].
    assert (v_msgs X = c_msgs x) as -> by done. assert (v_memo X = c_memo x) as -> by done.
    assert (fee_ok fee_denom X = true) as ->.
    { unfold fee_ok. change (v_fee X) with (c_fee x). rewrite Hx. cbn [c_fee]. destruct (_ =? 0); [done|]. by rewrite bool_decide_eq_true_2. }
    rewrite (wire_with_key _ Hsig).
    destruct (round_trip keccak ck bech_enc bech_dec recover_addr (fun a => a) fee_denom decimals cid (sn_rec Hsane) t x (se_wf _ _ _ _ _ Hsent) (se_prot _ _ _ _ _ Hsent) (se_x _ _ _ _ _ Hsent)) as (sd & Hs & Hc).
    unfold eth_sender in Hs. rewrite (se_signed _ _ _ _ _ Hsent) in Hs. cbn in Hs. injection Hs as <-.
    rewrite Hc. rewrite Hx. cbn [c_msgs c_memo negb]. rewrite (se_signed _ _ _ _ _ Hsent), bool_decide_eq_true_2 by done. done.
  - destruct (N.eqb_spec (f_nonce c) (a_seq acc)); [done|]. done.
Qed.

(** The ante handler *)
Notation R := (shows E fee w (supply w fee)).
Lemma shows0 : R (nd_st n) l0.
Proof.
  destruct (hy_tok _ (hd_ok _ _ _ Hold)) as (tk & Htk & Hok & Hk). pose proof (shows_start_ok E fee w tk (s_sto (nd_st n)) (s_log (nd_st n)) Htk Hok Hk) as H.
  by destruct (nd_st n).
Qed.
Notation Rb w0 := (shows E fee w0 (supply w0 fee)).
Lemma shows_pos w0 sup s l y : shows E fee w0 sup s l -> 0 <= l_bal l y.
Proof.
  intros HR. destruct (sh_fee _ _ _ _ _ _ HR) as (tk & Ht & Hok & _). rewrite <- (sh_bal _ _ _ _ _ _ HR).
  unfold balance. unfold is_token in Ht. rewrite Ht. by apply bal_range.
Qed.
Lemma senders : call_senders bech_dec X = [a].
Proof. destruct x_is as (sb & Hx'); rewrite Hx'. unfold call_senders. cbn. destruct (f_to c); by rewrite (sn_bech Hsane) by apply a20. Qed.
Lemma signers_X : v_signers X = [a].
Proof. destruct x_is as (sb & Hx'); rewrite Hx'. cbn. by rewrite (se_key _ _ _ _ _ Hsent). Qed.
Lemma seqs_same : f_nonce c = a_seq acc -> ante_seqs bech_dec X accs1 = accs1.
Proof.
  intros Hnn. unfold ante_seqs. rewrite signers_X, senders. cbn [fold_left]. unfold prev_seq, next_seq.
  destruct accs1_a as (pk & Hpk & _). apply map_eq. intros y. destruct (decide (y = a)) as [->|Hy].
  - rewrite !lookup_alter, Hpk. cbn. pose proof (se_nonce _ _ _ _ _ Hsent) as Hs. rewrite Hnn in Hs. f_equal. f_equal.
    unfold u64_sub, u64, two64. rewrite (N.mod_small (a_seq acc + 1)) by lia. change (1 mod _)%N with 1%N.
    replace (a_seq acc + 1 + _ - 1)%N with (a_seq acc + 1 * 18446744073709551616)%N by lia.
    rewrite N.mod_add by done. apply N.mod_small. lia.
  - by rewrite !lookup_alter_ne.
Qed.
Definition accepted : Prop := f_gas c <> 0%N /\ f_nonce c = a_seq acc /\ fee_of t c <= balance w fee a.
Lemma ante_is :
  (accepted -> exists w1, ante X (sync n) = Some (Node (st_world w1 (nd_st n)) accs1) /\ R (st_world w1 (nd_st n)) (pay l0 a col (fee_of t c))) /\
  (~ accepted -> ante X (sync n) = None).
Proof.
  destruct (sn_col Hsane) as (ps & Hcol). destruct fits as [HF _].
  pose proof (pay_fee_shows E B fee w (supply w fee) fee_denom (sn_calls Hsane) (hy_den _ (hd_ok _ _ _ Hold)) col ps
     (nd_st n) l0 a X (fee_of t c) (sn_restr Hsane) Hcol (sn_col20 Hsane) shows0 a20 HF) as Hp.
  assert (Hfee : v_fee X = if fee_of t c =? 0 then [] else [(fee_denom, fee_of t c)]) by (destruct x_is as (sb & Hx'); rewrite Hx'; done).
  specialize (Hp Hfee (shows_pos _ _ _ _ a shows0)). cbn [l_bal] in Hp.
  assert (Hg : v_gas X = f_gas c) by (destruct x_is as (sb & Hx'); rewrite Hx'; done).
  unfold EthDeliver.ante. change (nd_st (sync n)) with (nd_st n). rewrite Hg, signers_X. cbn [head mbind option_bind]. unfold accepted. split.
  - intros (H1 & H2 & H3). destruct (N.eqb_spec (f_gas c) 0); [done|]. rewrite decide_True in Hp by done.
    destruct Hp as (w1 & -> & HR). cbn [mbind option_bind]. rewrite sigs_are, decide_True by done. cbn [mbind option_bind].
    rewrite seqs_same by done. by eexists.
  - intros Hn. destruct (N.eqb_spec (f_gas c) 0); [done|].
    destruct (decide (fee_of t c <= balance w fee a)) as [Hle|Hlt].
    + destruct Hp as (w1 & -> & _). cbn [mbind option_bind]. rewrite sigs_are, decide_False by tauto. done.
    + by rewrite Hp.
Qed.

(** The message *)
Definition call_body (to : bytes) : prog := match w_code w !! to with None => PStop | Some _ => code_at to (f_data c) end.
(** Where the transaction goes: the address called, or that of the contract to be made. *)
Definition target : bytes := match f_to c with Some to => to | None => create_addr a (f_nonce c) end.
Definition made : option bytes := match f_to c with Some _ => None | None => Some (create_addr a (f_nonce c)) end.
Definition body_of : prog := match f_to c with Some to => call_body to | None => init_of target (f_data c) end.
(** A contract may be made at [y]: nothing is there, or only an account never used. *)
Definition free (y : bytes) : Prop :=
  w_code w !! y = None /\ (forall v, acct_of n y = Some v -> a_key v = None /\ a_seq v = 0%N) /\
  (forall v, w_accts w !! y = Some v -> ac_kind v = KBase /\ ac_pub v = false /\ ac_seq v = 0%N) /\
  (forall k, s_sto (nd_st n) !! (y, k) = None) /\ y <> a.
Definition allowed : Prop := match f_to c with
  | Some _ => True
  | None => (publishers = [] \/ bech_enc a ∈ publishers) /\ free (create_addr a (f_nonce c))
  end.
Notation the_call := (outer target (value_of c) body_of).
(** The world after the message, apart from what the call did. *)
Record rebased (w0 : world) : Prop := {
  rb_sup : supply w0 fee = supply w fee;
  rb_tab : same_tables w w0;
  rb_code : forall k, k <> fee -> Some k <> made -> w_code w0 !! k = w_code w !! k;
  rb_made : forall k, made = Some k -> k <> fee /\ w_code w !! k = None /\ w_code w0 !! k = Some CCustom;
  rb_acc : forall y, Some y <> made ->
    match w_accts w !! y with
    | Some v => w_accts w0 !! y = Some v
    | None => w_accts w0 !! y = None \/ exists k, w_accts w0 !! y = Some (Acct k 0 false KBase)
    end }.
Lemma rebased_refl : made = None -> rebased w.
Proof.
  intros Hm. split; try done.
  - rewrite Hm. done.
  - intros y _. destruct (w_accts w !! y); [done|by left].
Qed.
Lemma accs1_other y : y <> a -> accs1 !! y = acct_of n y.
Proof. intros Hy. rewrite <- sync_lookup. unfold accs1. destruct (a_key acc); [done|]. by rewrite lookup_insert_ne. Qed.
Lemma next_seq_other m y : y <> a -> next_seq m a !! y = m !! y.
Proof. intros Hy. unfold next_seq. by rewrite lookup_alter_ne. Qed.
Lemma increase_is : increase_nonce accs1 a = next_seq accs1 a.
Proof. unfold increase_nonce. by rewrite accs1_key. Qed.
Lemma taken_is s1 l1 y : R s1 l1 -> l_sto l1 = s_sto (nd_st n) -> y <> fee ->
  taken_addr (Node s1 (next_seq accs1 a)) y = false <-> free y.
Proof.
  intros HR Hst Hyf. unfold taken_addr, free. cbn [nd_st nd_accs]. rewrite !orb_false_iff.
  rewrite (sh_sto _ _ _ _ _ _ HR), Hst, (sh_other _ _ _ _ _ _ HR) by done.
  pose proof (sh_acc _ _ _ _ _ _ HR y) as Hg.
  assert (Hexb : existsb (fun e : bytes * Z * Z => bool_decide (e.1.1 = y)) (map_to_list (s_sto (nd_st n))) = false <-> forall k, s_sto (nd_st n) !! (y, k) = None).
  { split.
    - intros He k. destruct (s_sto (nd_st n) !! (y, k)) as [v|] eqn:Hk; [|done]. exfalso.
      apply elem_of_map_to_list in Hk. apply elem_of_list_In in Hk. assert (existsb (fun e : bytes * Z * Z => bool_decide (e.1.1 = y)) (map_to_list (s_sto (nd_st n))) = true) as Ht; [|congruence].
      apply existsb_exists. exists (y, k, v). split; [done|]. by apply bool_decide_eq_true_2.
    - intros Hk. apply not_true_iff_false. intros He. apply existsb_exists in He as ([[y' k'] v'] & Hin & Hb).
      apply bool_decide_eq_true in Hb. cbn in Hb. subst y'. apply elem_of_list_In, elem_of_map_to_list in Hin. by rewrite Hk in Hin. }
  rewrite Hexb. clear Hexb. split.
  - intros [[[H1 H2] H3] H4].
    assert (Hya : y <> a).
    { intros ->. unfold next_seq in H1. rewrite lookup_alter, accs1_key in H1. done. }
    rewrite next_seq_other, accs1_other in H1 by done.
    split; [by destruct (w_code w !! y)|]. split.
    { intros v Hv. rewrite Hv in H1. destruct (a_key v); [done|]. split; [done|]. apply negb_false_iff in H1. by apply N.eqb_eq. }
    split; [|done]. intros v Hv. rewrite Hv in Hg. rewrite Hg in H3. apply negb_false_iff in H3.
    unfold is_empty_acct in H3. destruct (ac_kind v); try done. apply andb_true_iff in H3 as [Ha Hb]. split; [done|].
    split; [by apply negb_true_iff|by apply N.eqb_eq].
  - intros (H1 & H2 & H3 & H4 & Hya). rewrite next_seq_other, accs1_other by done. split; [|done]. split.
    + split.
      * destruct (acct_of n y) as [v|] eqn:Ev; [|done]. destruct (H2 v eq_refl) as [-> ->]. done.
      * by rewrite H1.
    + destruct (w_accts w !! y) as [v|] eqn:Ev.
      * rewrite Hg. destruct (H3 v eq_refl) as (Hk & Hp & Hs). unfold is_empty_acct. by rewrite Hk, Hp, Hs.
      * destruct Hg as [-> | (k & ->)]; done.
Qed.
(** The run on the plain ledger never comes to a failure that is caught. *)
Definition smooth_from (l1 : ledger) : Prop := (eth (is_blocked E w) the_call a l1).1.1 <> CatchesFailure.
(** Whatever is caught: what a call can never do. *)
Definition bounded (l1 l' : ledger) : Prop :=
  (forall y, y <> a -> never_pays y target body_of -> l_bal l1 y <= l_bal l' y) /\
  (forall y, ~ runs_as y target body_of -> forall k, l_sto l' !! (y, k) = l_sto l1 !! (y, k)) /\
  l_ev l1 `prefix_of` l_ev l'.
Lemma exec_is s1 l1 : R s1 l1 -> l_sto l1 = s_sto (nd_st n) -> f_nonce c = a_seq acc -> prog_ok body_of ->
  match exec bech_dec E fee code_at publishers create_addr init_of X (Node s1 accs1) with
  | MsgPanic => smooth_from l1 -> allowed -> (eth (is_blocked E w) the_call a l1).1.1 = PaysBlocked
  | MsgErr => smooth_from l1 -> allowed -> exists l', eth (is_blocked E w) the_call a l1 = (Told, false, l')
  | MsgOk n2 => allowed /\
      (forall y, Some y <> made -> nd_accs n2 !! y = next_seq accs1 a !! y) /\
      (forall y, made = Some y -> y <> a /\ exists k, nd_accs n2 !! y = Some (VAcc None 1 k) /\ forall v, acct_of n y = Some v -> k = a_num v) /\
      ((made <> None -> smooth_from l1) ->
       exists w0 sup l', rebased w0 /\ sup <= supply w fee /\ shows E fee w0 sup (nd_st n2) l' /\
         (smooth_from l1 -> sup = supply w fee /\ eth (is_blocked E w) the_call a l1 = (Told, true, l')) /\
         (made = None -> bounded l1 l'))
  end.
Proof.
  intros HR Hst Hnn Hp. destruct fits as [_ Hv]. unfold exec.
  assert (Hpr : prog_ok the_call).
  { split; [done|]. split; [done|]. by intros []. }
  assert (v_msgs X = c_msgs x) as -> by done. destruct x_is as (sb & Hx'); rewrite Hx'. cbn [c_msgs].
  pose proof (se_wf _ _ _ _ _ Hsent) as [Hwf _]. rewrite (se_com _ _ _ _ _ Hsent) in Hwf.
  assert (Hbig : (two256 <=? Z.abs (value_of c)) = false).
  { apply Z.leb_gt. unfold amount_ok in Hv. lia. }
  assert (Hfeetok : exists tk, w_code w !! fee = Some (CTok tk)).
  { destruct (hy_tok _ (hd_ok _ _ _ Hold)) as (tk' & Ht' & _). by exists tk'. }
  unfold body_of, target, made, allowed in *. destruct (f_to c) as [to|] eqn:Eto.
  - destruct Hwf as [[Hto1 Hto2] Hdata]. rewrite (sn_bech Hsane) by apply a20.
    unfold contract_address. rewrite is_hex_address_hex by done. rewrite hex_to_address_hex by done.
    rewrite hexutil_decode_encode by done. rewrite Hbig.
    rewrite pack_id by done. cbn [nd_st nd_accs].
    assert ((match w_code (s_w s1) !! to with None => PStop | Some _ => code_at to (f_data c) end) = call_body to) as ->.
    { unfold call_body. destruct (decide (to = fee)) as [->|Hne].
      - destruct (sh_fee _ _ _ _ _ _ HR) as (tk & Ht & _). destruct Hfeetok as (tk' & Ht').
        unfold is_token in Ht. by rewrite Ht, Ht'.
      - by rewrite (sh_other _ _ _ _ _ _ HR). }
    pose proof (execute_shows E fee w (supply w fee) (sn_fee Hsane) (fun s => s) s1 l1 a to (value_of c) (call_body to) HR eq_refl Hp Hv) as H.
    destruct (execute E fee _ a to _ _ s1) as [[[|] s']|] eqn:Hex.
    + split; [done|]. cbn [nd_accs]. rewrite increase_is. split; [done|]. split; [done|]. intros _. cbn [nd_st].
      destruct (execute_any E fee w (supply w fee) s1 l1 a to (value_of c) (call_body to) s' HR Hp Hv Hex) as [(sup1 & l2 & Hsup1 & HR1) Hany].
      assert (Hrb : rebased w) by (apply rebased_refl; unfold made; by rewrite Eto).
      assert (Hbd : forall sup l', shows E fee w sup s' l' -> bounded l1 l').
      { intros sup l' HR'. destruct (Hany sup l' HR') as (_ & H1 & H2 & H3). unfold bounded, body_of, target. rewrite Eto. split; [|done].
        intros y Hy Hq. apply H1; [right; congruence|done]. }
      unfold smooth_from, body_of, target. rewrite Eto. destruct (eth _ _ a l1) as [[[| |] [|]] l'].
      * destruct H as (s2 & [= <-] & HR'). exists w, (supply w fee), l'. split; [done|]. split; [done|]. split; [done|]. split; [by intros _|]. intros _. by eapply Hbd.
      * by destruct H.
      * done.
      * done.
      * exists w, sup1, l2. split; [done|]. split; [done|]. split; [done|]. split; [intros Hs; by destruct Hs|]. intros _. by eapply Hbd.
      * exists w, sup1, l2. split; [done|]. split; [done|]. split; [done|]. split; [intros Hs; by destruct Hs|]. intros _. by eapply Hbd.
    + unfold smooth_from, body_of, target. rewrite Eto. intros Hs _. destruct (eth _ _ a l1) as [[[| |] [|]] l'] eqn:He; try done.
      * by destruct H as (? & ? & _).
      * by exists l'.
    + unfold smooth_from, body_of, target. rewrite Eto. intros Hs _. destruct (eth _ _ a l1) as [[[| |] [|]] l'] eqn:He; try done.
      * by destruct H as (? & ? & _).
      * by destruct H as (? & ?).
  - destruct Hwf as [_ Hdata]. rewrite (sn_bech Hsane) by apply a20. unfold exec_create.
    assert (Hcode : exists h tl, hexutil_encode (f_data c) = h :: tl) by (unfold hexutil_encode; eexists _, _; reflexivity).
    destruct Hcode as (h & tl & Hh). rewrite Hh. rewrite <- Hh. clear h tl Hh.
    rewrite hexutil_decode_encode by done. rewrite Hbig.
    assert (Hpub : bool_decide (publishers = []) || bool_decide (bech_enc a ∈ publishers) = true <-> publishers = [] \/ bech_enc a ∈ publishers).
    { rewrite orb_true_iff, !bool_decide_eq_true. done. }
    destruct (bool_decide (publishers = []) || bool_decide (bech_enc a ∈ publishers)) eqn:Epub; cycle 1.
    { intros _ [Hb _]. apply Hpub in Hb. done. }
    destruct Hpub as [Hpub _]. specialize (Hpub eq_refl). cbn [negb nd_st nd_accs].
    set (y := create_addr a (f_nonce c)) in *.
    rewrite pack_id by done.
    (* the payment *)
    destruct (can_transfer (s_w s1) fee a (value_of c)) eqn:Ect; cycle 1.
    { intros _ _. exists l1. unfold outer. cbn [eth].
      assert (Hct : value_of c <> 0 /\ ~ value_of c <= l_bal l1 a).
      { unfold can_transfer in Ect. destruct (Z.eqb_spec (value_of c) 0) as [|Hz]; [done|]. split; [done|].
        rewrite (bool_decide_eq_false_2 (fee = null_addr)) in Ect by apply (sn_fee Hsane).
        destruct (sh_fee _ _ _ _ _ _ HR) as (tk & Ht & _). unfold balance_of in Ect. unfold is_token in Ht. rewrite Ht in Ect.
        rewrite <- (sh_bal _ _ _ _ _ _ HR). unfold balance. rewrite Ht. apply Z.leb_gt in Ect. lia. }
      rewrite decide_True by (split; [tauto|lia]). cbn [eth]. done. }
    cbn [negb]. rewrite accs1_key. cbn [a_seq]. rewrite <- Hnn. fold y.
    pose proof (se_nonce _ _ _ _ _ Hsent) as Hnb.
    destruct (N.eqb_spec (f_nonce c + 1) two64) as [Hov|_]; [unfold two64 in Hov; lia|].
    rewrite increase_is.
    destruct (decide (y = fee)) as [Hyf|Hyf].
    { assert (taken_addr (Node s1 (next_seq accs1 a)) y = true) as ->.
      { unfold taken_addr. cbn [nd_st nd_accs]. destruct (sh_fee _ _ _ _ _ _ HR) as (tk & Ht & _). unfold is_token in Ht.
        rewrite Hyf, Ht. by rewrite orb_true_r. }
      intros _ (_ & Hfr & _). rewrite Hyf in Hfr. destruct Hfeetok as (? & Hft). by rewrite Hft in Hfr. }
    pose proof (taken_is s1 l1 y HR Hst Hyf) as Htk.
    destruct (taken_addr (Node s1 (next_seq accs1 a)) y) eqn:Etk.
    { intros _ (_ & Hfr). by apply Htk in Hfr. }
    destruct Htk as [Htk _]. specialize (Htk eq_refl).
    assert (Hacc1 : match w_accts (s_w s1) !! y with Some v => is_empty_acct v = true | None => True end).
    { unfold taken_addr in Etk. rewrite !orb_false_iff in Etk. destruct Etk as [[_ He] _]. cbn [nd_st] in He.
      destruct (w_accts (s_w s1) !! y); [|done]. by apply negb_false_iff in He. }
    assert (Hcode1 : w_code (s_w s1) !! y = None) by (rewrite (sh_other _ _ _ _ _ _ HR) by done; apply Htk).
    destruct (deploy (s_w s1) y CCustom) as [w2|] eqn:Edep; cycle 1.
    { exfalso. unfold deploy in Edep. rewrite Hcode1 in Edep. unfold contract_acct in Edep. destruct (w_accts (s_w s1) !! y) as [v|]; [rewrite Hacc1 in Edep|]; done. }
    assert (Hw2 : w_code w2 = <[y := CCustom]> (w_code (s_w s1)) /\ same_tables (s_w s1) w2 /\
                  (forall z, z <> y -> w_accts w2 !! z = w_accts (s_w s1) !! z) /\ (forall z, is_blocked E w2 z = is_blocked E (s_w s1) z) /\
                  exists k, w_accts w2 !! y = Some (Acct k 0 false KContract)).
    { unfold deploy in Edep. rewrite Hcode1 in Edep. unfold contract_acct in Edep. unfold is_blocked, origin_of.
      destruct (w_accts (s_w s1) !! y) as [v|] eqn:Ev; [rewrite Hacc1 in Edep|]; cbn [mbind option_bind] in Edep; injection Edep as <-; cbn.
      - split; [done|]. split; [by split_and!|]. split; [intros z Hz; by rewrite lookup_insert_ne|]. split; [|eexists; by rewrite lookup_insert].
        intros z. destruct (decide (z = y)) as [->|Hz]; [rewrite lookup_insert, Ev|by rewrite lookup_insert_ne].
        unfold is_empty_acct in Hacc1. destruct v as [? ? ? []]; done.
      - split; [done|]. split; [by split_and!|]. split; [intros z Hz; by rewrite lookup_insert_ne|]. split; [|eexists; by rewrite lookup_insert].
        intros z. destruct (decide (z = y)) as [->|Hz]; [by rewrite lookup_insert, Ev|by rewrite lookup_insert_ne]. }
    destruct Hw2 as (Wc & Wt & Wa & Wb & Wy).
    assert (Wfee : w_code w2 !! fee = w_code (s_w s1) !! fee) by (rewrite Wc; by rewrite lookup_insert_ne).
    destruct (sh_fee _ _ _ _ _ _ HR) as (tk & Ht & Hok & Hk & Hsup).
    assert (HR2 : Rb w2 (st_world w2 s1) l1).
    { eapply shows_ext; [apply (shows_start_ok E fee w2 tk (s_sto s1) (s_log s1)); [unfold is_token in *; by rewrite Wfee|done|done]|..]; cbn [l_bal l_sto l_ev].
      - intros z. rewrite <- (sh_bal _ _ _ _ _ _ HR). unfold balance. by rewrite Wfee.
      - apply (sh_sto _ _ _ _ _ _ HR).
      - apply (sh_ev _ _ _ _ _ _ HR). }
    assert (Hblk : forall z, is_blocked E w2 z = is_blocked E w z).
    { intros z. rewrite Wb. apply (sh_blk _ _ _ _ _ _ HR). }
    assert (Hctw : can_transfer (s_w s1) fee a (value_of c) = can_transfer (s_w (st_world w2 s1)) fee a (value_of c)).
    { unfold can_transfer, balance_of. cbn [s_w st_world]. by rewrite Wfee. }
    pose proof (execute_shows E fee w2 (supply w2 fee) (sn_fee Hsane) (st_world w2) s1 l1 a y (value_of c) (init_of y (f_data c)) HR2 Hctw Hp Hv) as H.
    rewrite (eth_ext (is_blocked E w2) (is_blocked E w) _ Hblk) in H.
    assert (Hrb : rebased w2).
    { split.
      * unfold supply. rewrite Wfee. unfold is_token in Ht. rewrite Ht, Hsup. done.
      * eapply same_tables_trans; [exact (sh_tab _ _ _ _ _ _ HR)|exact Wt].
      * unfold made. rewrite Eto. intros k Hkf Hky. rewrite Wc, lookup_insert_ne by (intros Hyk; apply Hky; by rewrite <- Hyk). by apply (sh_other _ _ _ _ _ _ HR).
      * unfold made. rewrite Eto. intros k [= <-]. fold y. split; [done|]. split; [apply Htk|]. by rewrite Wc, lookup_insert.
      * unfold made. rewrite Eto. intros z Hz. rewrite Wa by (intros Hyk; apply Hz; by rewrite Hyk). apply (sh_acc _ _ _ _ _ _ HR z). }
    assert (Hs2 : supply w2 fee = supply w fee) by apply (rb_sup _ Hrb).
    destruct (execute E fee (st_world w2) a y _ _ s1) as [[[|] s']|] eqn:Hex.
    + split; [split; done|]. cbn [nd_accs nd_st]. split.
      { intros z Hz. rewrite lookup_insert_ne by congruence. done. }
      split.
      { intros z [= <-]. split; [apply Htk|]. eexists. rewrite lookup_insert. split; [done|].
        intros v0 Hv0. assert (y <> a) as Hya by apply Htk. rewrite accs1_other, Hv0 by done. done. }
      intros Hsm. specialize (Hsm ltac:(done)).
      unfold smooth_from, body_of, target in *. rewrite Eto in *. fold y in Hsm |- *. destruct (eth _ _ a l1) as [[[| |] [|]] l'].
      * destruct H as (s2 & [= <-] & HR'). exists w2, (supply w2 fee), l'. split; [done|]. split; [by rewrite Hs2|]. split; [done|]. split; [by intros _|]. done.
      * by destruct H.
      * done.
      * done.
      * by destruct Hsm.
      * by destruct Hsm.
    + unfold smooth_from, body_of, target. rewrite Eto. fold y. intros Hs _. destruct (eth _ _ a l1) as [[[| |] [|]] l'] eqn:He; try done.
      * by destruct H as (? & ? & _).
      * by exists l'.
    + unfold smooth_from, body_of, target. rewrite Eto. fold y. intros Hs _. destruct (eth _ _ a l1) as [[[| |] [|]] l'] eqn:He; try done.
      * by destruct H as (? & ? & _).
      * by destruct H as (? & ?).
Qed.

(** The refund *)
Definition back (g : N) : Z :=
  refund_coin (gas_price_of_fee (fee_of t c) (Z.of_N (f_gas c))) (refund_gas ratio (Z.of_N (f_gas c - g))).
Lemma back_bound g : f_gas c <> 0%N -> 0 <= back g <= fee_of t c /\ back g * Z.of_N (f_gas c) <= fee_of t c * Z.of_N (f_gas c - g).
Proof.
  intros Hg. destruct fits as [[HF _] _].
  destruct (refund_share (fee_of t c) (Z.of_N (f_gas c)) ratio (Z.of_N (f_gas c - g)) HF ltac:(lia) (sn_ratio Hsane) ltac:(lia)) as (H1 & H2 & H3).
  fold (back g) in H2, H3. split; [|nia]. split; [done|]. nia.
Qed.
Lemma refund_is w0 sup s2 l2 m g : f_gas c <> 0%N -> denom_to_contract w0 fee_denom = Some fee -> shows E fee w0 sup s2 l2 ->
  if decide (back g <= l_bal l2 col)
  then exists w3, refund key_addr fee_denom B ratio X g (Node s2 m) = Some (Node (st_world w3 s2) m) /\ shows E fee w0 sup (st_world w3 s2) (pay l2 col a (back g))
  else refund key_addr fee_denom B ratio X g (Node s2 m) = None.
Proof.
  intros Hg Hd0 HR. destruct (back_bound g Hg) as [Hb _]. destruct fits as [HF _].
  unfold refund.
  assert (is_eth key_addr fee_denom X = Some true) as ->.
  { destruct x_is as (sb & Hx).
    assert (Hsig : v_sigs X = [VSig (Some (KEth b)) (SSingle mode_ethereum sb) (f_nonce c)]) by (rewrite Hx; done).
    unfold is_eth. rewrite Hsig. cbn [v_key]. rewrite (wire_with_key _ Hsig).
    assert (v_msgs X = c_msgs x) as -> by done. assert (v_memo X = c_memo x) as -> by done.
    assert (fee_ok fee_denom X = true) as ->.
    { unfold fee_ok. change (v_fee X) with (c_fee x). rewrite Hx. cbn [c_fee]. destruct (_ =? 0); [done|]. by rewrite bool_decide_eq_true_2. }
    rewrite Hx at 1. cbn [c_msgs c_memo negb]. rewrite Hx at 1. cbn [c_msgs c_memo negb].
    unfold is_ethereum_tx. rewrite Hx. cbn [c_msgs c_memo c_sigs c_fee s_pub s_data].
    rewrite (bool_decide_eq_true_2 (length a = 20%nat)) by apply a20.
    destruct (f_to c); (destruct (_ =? 0); [done|]; by rewrite bool_decide_eq_true_2). }
  assert (Hl : refund_of ratio X g = if back g =? 0 then [] else [Coin fee_denom (back g)]).
  { unfold refund_of. assert (v_gas X = f_gas c) as -> by (destruct x_is as (sb & Hx'); rewrite Hx'; done).
    assert (v_fee X = if fee_of t c =? 0 then [] else [(fee_denom, fee_of t c)]) as -> by (destruct x_is as (sb & Hx'); rewrite Hx'; done).
    assert (u64_sub (f_gas c) (N.min g (f_gas c)) = f_gas c - g)%N as ->.
    { rewrite u64_sub_le by (pose proof (se_gas _ _ _ _ _ Hsent); unfold two64 in *; lia). lia. }
    destruct (Z.eqb_spec (fee_of t c) 0) as [Hz|Hz].
    - assert (back g = 0) as -> by lia. done.
    - cbn [map List.filter fst snd c_amt]. fold (back g). by destruct (back g =? 0). }
  rewrite Hl. destruct (sn_col Hsane) as (ps & Hcol).
  destruct (Z.eqb_spec (back g) 0) as [Hz|Hz].
  - rewrite Hz. rewrite decide_True by by apply (shows_pos _ _ _ _ _ HR). exists (s_w s2).
    replace (st_world (s_w s2) s2) with s2 by by destruct s2. split; [done|].
    eapply shows_ext; [exact HR| |done|done]. intros y. simpl. repeat case_bool_decide; lia.
  - cbv iota. rewrite signers_X. cbn [head mbind option_bind]. rewrite Hcol. cbn [fmap option_fmap option_map mbind option_bind fst nd_st nd_accs].
    pose proof (chain_move E B fee w0 sup fee_denom (sn_calls Hsane) Hd0 s2 l2 col a (back g) HR (sn_col20 Hsane) a20) as Hm.
    specialize (Hm ltac:(unfold amount_ok in *; lia)).
    destruct (decide (back g <= l_bal l2 col)).
    + destruct Hm as (w3 & -> & HR3). by exists w3.
    + destruct (k_send_coins _ _ _ _ _) as [ok w3]. simpl in Hm. by subst ok.
Qed.
(** *** The same transaction with another fee
    [F]: the fee in the Cosmos form, [rest']: what else it carries (fee payer, fee granter, timeout
    height, extension options). *)
Section fee.
Context (F : Z) (rest' : bytes).
Hypothesis HF : amount_ok F.
Notation Y := (node_tx b rest' (refee F x)).
Lemma sigs_refee : sigs (nd_accs (sync n)) Y = if decide (f_nonce c = a_seq acc) then Some accs1 else None.
Proof.
  rewrite <- sigs_are. destruct x_is as (sb & Hx).
  assert (HsX : v_sigs X = [VSig (Some (KEth b)) (SSingle mode_ethereum sb) (f_nonce c)]) by (rewrite Hx; done).
  assert (HsY : v_sigs Y = v_sigs X) by done. assert (HgY : v_signers Y = v_signers X) by done.
  assert (Hcv : convert keccak bech_dec key_addr fee_denom decimals cid Y = convert keccak bech_dec key_addr fee_denom decimals cid X).
  { unfold convert. rewrite HsY, HsX. change (v_msgs Y) with (v_msgs X). change (v_memo Y) with (v_memo X).
    assert (fee_ok fee_denom X = true) as ->.
    { unfold fee_ok. change (v_fee X) with (c_fee x). rewrite Hx. cbn [c_fee]. destruct (_ =? 0); [done|]. by rewrite bool_decide_eq_true_2. }
    assert (fee_ok fee_denom Y = true) as ->.
    { unfold fee_ok. change (v_fee Y) with (c_fee (refee F x)). cbn [c_fee refee]. destruct (F =? 0); [done|]. by rewrite bool_decide_eq_true_2. }
    cbn [negb v_key]. destruct (v_msgs X) as [|? [|]]; [done| |done]. destruct (v_memo X); [|done]. f_equal.
    assert (HY : match v_fee Y with (d, _) :: _ => negb (bool_decide (d = fee_denom)) | [] => false end = false).
    { change (v_fee Y) with (if F =? 0 then [] else [(fee_denom, F)]). destruct (F =? 0); [done|]. by rewrite bool_decide_eq_true_2. }
    assert (HX : match v_fee X with (d, _) :: _ => negb (bool_decide (d = fee_denom)) | [] => false end = false).
    { change (v_fee X) with (c_fee x). rewrite Hx. cbn [c_fee]. destruct (fee_of t c =? 0); [done|]. by rewrite bool_decide_eq_true_2. }
    unfold cosmos_to_eth, with_key. cbn [c_msgs c_memo c_sigs c_fee c_gas]. rewrite HX, HY. reflexivity. }
  unfold ante_sigs. rewrite HsY, HgY, signers_X, HsX. cbn [length zip zip_with].
  destruct (set_keys _ _ _) as [m|]; cbn [negb mbind option_bind]; [|done].
  destruct (gas_sum _ _ _ _) as [g|]; cbn [mbind option_bind]; [|done]. destruct (limit <? g)%N; [done|].
  cbn [verify_all]. unfold verify_one. destruct (m !! a) as [v|]; [|done]. destruct (a_key v); [|done].
  destruct (negb _); [done|]. unfold verify_signature. cbn [v_data]. rewrite Z.eqb_refl, Hcv. done.
Qed.
Definition accepted_at : Prop := f_gas c <> 0%N /\ f_nonce c = a_seq acc /\ F <= balance w fee a.
Lemma ante_refee :
  (accepted_at -> exists w1, ante Y (sync n) = Some (Node (st_world w1 (nd_st n)) accs1) /\ R (st_world w1 (nd_st n)) (pay l0 a col F)) /\
  (~ accepted_at -> ante Y (sync n) = None).
Proof.
  destruct (sn_col Hsane) as (ps & Hcol).
  pose proof (pay_fee_shows E B fee w (supply w fee) fee_denom (sn_calls Hsane) (hy_den _ (hd_ok _ _ _ Hold)) col ps
     (nd_st n) l0 a Y F (sn_restr Hsane) Hcol (sn_col20 Hsane) shows0 a20 HF eq_refl (shows_pos _ _ _ _ a shows0)) as Hp.
  cbn [l_bal] in Hp.
  assert (Hg : v_gas Y = f_gas c) by (destruct x_is as (sb & Hx'); rewrite Hx'; done).
  assert (HgY : v_signers Y = v_signers X) by done.
  unfold EthDeliver.ante. change (nd_st (sync n)) with (nd_st n). rewrite Hg, HgY, signers_X. cbn [head mbind option_bind]. unfold accepted_at. split.
  - intros (H1 & H2 & H3). destruct (N.eqb_spec (f_gas c) 0); [done|]. rewrite decide_True in Hp by done.
    destruct Hp as (w1 & -> & HR). cbn [mbind option_bind]. rewrite sigs_refee, decide_True by done. cbn [mbind option_bind].
    change (ante_seqs bech_dec Y accs1) with (ante_seqs bech_dec X accs1). rewrite seqs_same by done. by eexists.
  - intros Hn. destruct (N.eqb_spec (f_gas c) 0); [done|].
    destruct (decide (F <= balance w fee a)) as [Hle|Hlt].
    + destruct Hp as (w1 & -> & _). cbn [mbind option_bind]. rewrite sigs_refee, decide_False by tauto. done.
    + by rewrite Hp.
Qed.
Definition back_at (g : N) : Z :=
  refund_coin (gas_price_of_fee F (Z.of_N (f_gas c))) (refund_gas ratio (Z.of_N (f_gas c - g))).
Lemma back_at_bound g : f_gas c <> 0%N -> 0 <= back_at g <= F /\ back_at g * Z.of_N (f_gas c) <= F * Z.of_N (f_gas c - g).
Proof.
  intros Hg. destruct HF as [HF0 _].
  destruct (refund_share F (Z.of_N (f_gas c)) ratio (Z.of_N (f_gas c - g)) HF0 ltac:(lia) (sn_ratio Hsane) ltac:(lia)) as (H1 & H2 & H3).
  fold (back_at g) in H2, H3. split; [|nia]. split; [done|]. nia.
Qed.
Lemma refund_refee w0 sup s2 l2 m g : f_gas c <> 0%N -> denom_to_contract w0 fee_denom = Some fee -> shows E fee w0 sup s2 l2 ->
  if decide (back_at g <= l_bal l2 col)
  then exists w3, refund key_addr fee_denom B ratio Y g (Node s2 m) = Some (Node (st_world w3 s2) m) /\ shows E fee w0 sup (st_world w3 s2) (pay l2 col a (back_at g))
  else refund key_addr fee_denom B ratio Y g (Node s2 m) = None.
Proof.
  intros Hg Hd0 HR. destruct (back_at_bound g Hg) as [Hb _].
  unfold refund.
  assert (is_eth key_addr fee_denom Y = Some true) as ->.
  { destruct x_is as (sb & Hx). unfold is_eth. change (v_msgs Y) with (c_msgs x). change (v_memo Y) with (c_memo x). change (v_sigs Y) with (v_sigs X).
    assert (Hsig : v_sigs X = [VSig (Some (KEth b)) (SSingle mode_ethereum sb) (f_nonce c)]) by (rewrite Hx; done).
    rewrite Hsig. cbn [v_key].
    assert (fee_ok fee_denom Y = true) as ->.
    { unfold fee_ok. change (v_fee Y) with (c_fee (refee F x)). cbn [c_fee refee]. destruct (F =? 0); [done|]. by rewrite bool_decide_eq_true_2. }
    unfold is_ethereum_tx, with_key. change (v_msgs Y) with (c_msgs x). change (v_memo Y) with (c_memo x). change (v_fee Y) with (c_fee (refee F x)).
    rewrite Hx. cbn [c_msgs c_memo c_sigs c_fee s_pub s_data negb refee v_data]. rewrite (se_key _ _ _ _ _ Hsent).
    rewrite (bool_decide_eq_true_2 (length a = 20%nat)) by apply a20.
    destruct (f_to c); (destruct (F =? 0); [done|]; by rewrite bool_decide_eq_true_2). }
  assert (Hl : refund_of ratio Y g = if back_at g =? 0 then [] else [Coin fee_denom (back_at g)]).
  { unfold refund_of. assert (v_gas Y = f_gas c) as -> by (destruct x_is as (sb & Hx'); rewrite Hx'; done).
    change (v_fee Y) with (if F =? 0 then [] else [(fee_denom, F)]).
    assert (u64_sub (f_gas c) (N.min g (f_gas c)) = f_gas c - g)%N as ->.
    { rewrite u64_sub_le by (pose proof (se_gas _ _ _ _ _ Hsent); unfold two64 in *; lia). lia. }
    destruct (Z.eqb_spec F 0) as [Hz|Hz].
    - assert (back_at g = 0) as -> by lia. done.
    - cbn [map List.filter fst snd c_amt]. fold (back_at g). by destruct (back_at g =? 0). }
  rewrite Hl. destruct (sn_col Hsane) as (ps & Hcol).
  destruct (Z.eqb_spec (back_at g) 0) as [Hz|Hz].
  - rewrite Hz. rewrite decide_True by by apply (shows_pos _ _ _ _ _ HR). exists (s_w s2).
    replace (st_world (s_w s2) s2) with s2 by by destruct s2. split; [done|].
    eapply shows_ext; [exact HR| |done|done]. intros y. simpl. repeat case_bool_decide; lia.
  - cbv iota. change (v_signers Y) with (v_signers X). rewrite signers_X. cbn [head mbind option_bind]. rewrite Hcol. cbn [fmap option_fmap option_map mbind option_bind fst nd_st nd_accs].
    pose proof (chain_move E B fee w0 sup fee_denom (sn_calls Hsane) Hd0 s2 l2 col a (back_at g) HR (sn_col20 Hsane) a20) as Hm.
    specialize (Hm ltac:(unfold amount_ok in *; lia)).
    destruct (decide (back_at g <= l_bal l2 col)).
    + destruct Hm as (w3 & -> & HR3). by exists w3.
    + destruct (k_send_coins _ _ _ _ _) as [ok w3]. simpl in Hm. by subst ok.
Qed.
End fee.
End one.

(** ** C117 *)
(** Accounts other than [a] and the contract [made], if one is, keep key and sequence; new ones
    have sequence 0 and no key. *)
Definition others_kept (n : node) (a : bytes) (mk : option bytes) (n' : node) : Prop :=
  forall y, y <> a -> Some y <> mk -> match acct_of n y with
                      | Some v => acct_of n' y = Some v
                      | None => acct_of n' y = None \/ exists num, acct_of n' y = Some (VAcc None 0 num)
                      end.
(** Whether there is code at [k]. *)
Definition has_code (n : node) (k : bytes) : bool := match w_code (s_w (nd_st n)) !! k with Some _ => true | None => false end.
(** The node after the transaction shows the ledger [l]: native balances, storage and logs are
    those of [l]; the native supply is [sup], no other supply and no other token has changed, no
    other account's sequence, and code is where it was and at the contract made. *)
Definition after_but (n : node) (a : bytes) (mk : option bytes) (l : ledger) (sup : Z) (n' : node) : Prop :=
  (forall y, balance (s_w (nd_st n')) fee y = l_bal l y) /\
  s_sto (nd_st n') = l_sto l /\ s_log (nd_st n') = l_ev l /\
  (forall k, supply (s_w (nd_st n')) k = if decide (k = fee) then sup else supply (s_w (nd_st n)) k) /\
  (forall k y, k <> fee -> balance (s_w (nd_st n')) k y = balance (s_w (nd_st n)) k y) /\
  others_kept n a mk n' /\ healthy n' /\
  (forall k, has_code n' k = has_code n k || bool_decide (mk = Some k)).
(** ... and no supply has changed. *)
Definition after (n : node) (a : bytes) (mk : option bytes) (l : ledger) (n' : node) : Prop :=
  after_but n a mk l (supply (s_w (nd_st n)) fee) n'.
Lemma after_supply n a mk l n' : after n a mk l n' -> forall k, supply (s_w (nd_st n')) k = supply (s_w (nd_st n)) k.
Proof. intros (_ & _ & _ & H & _) k. rewrite H. by destruct (decide (k = fee)) as [->|]. Qed.
(** The sender's account: its key is known from its first transaction on. *)
Definition acct_after (b : bytes) (acc : vacc) (s : N) : vacc := VAcc (Some (default (KEth b) (a_key acc))) s (a_num acc).
Definition before (n : node) : ledger := Ledger (balance (s_w (nd_st n)) fee) (s_sto (nd_st n)) (s_log (nd_st n)).
Definition seq_of (n : node) (a : bytes) : option N := a_seq <$> acct_of n a.

Lemma after_rebased n c a l n' w0 sup : healthy n -> rebased c a n w0 -> shows E fee w0 sup (nd_st n') l ->
  (forall y, y <> a -> Some y <> made c a -> nd_accs n' !! y = nd_accs (sync n) !! y) -> after_but n a (made c a) l sup n'.
Proof.
  intros Hh [B1 B2 B3 B4 B5] HR Hacc. destruct (hy_tok _ Hh) as (tk0 & Ht0 & _).
  pose proof HR as [(tk & Ht & Hok & Hk & Hs) H2 H3 H4 H5 H6 H7 H8].
  assert (Hoc : forall k, k <> fee -> match w_code (s_w (nd_st n')) !! k with Some (CTok t) => Some t | _ => None end =
                                 match w_code (s_w (nd_st n)) !! k with Some (CTok t) => Some t | _ => None end).
  { intros k Hkf. rewrite H6 by done. destruct (decide (made c a = Some k)) as [Hm|Hm].
    - destruct (B4 k Hm) as (_ & -> & ->). done.
    - by rewrite B3. }
  unfold after_but. split_and!; try done.
  - intros k. destruct (decide (k = fee)) as [->|Hkf].
    + rewrite <- Hs. unfold supply at 1. unfold is_token in Ht. by rewrite Ht.
    + specialize (Hoc k Hkf). unfold supply. destruct (w_code (s_w (nd_st n')) !! k) as [[]|], (w_code (s_w (nd_st n)) !! k) as [[]|]; simplify_eq; done.
  - intros k y Hkf. specialize (Hoc k Hkf). unfold balance. destruct (w_code (s_w (nd_st n')) !! k) as [[]|], (w_code (s_w (nd_st n)) !! k) as [[]|]; simplify_eq; done.
  - intros y Hy Hm. specialize (Hacc y Hy Hm). rewrite sync_lookup in Hacc.
    destruct (acct_of n y) as [v|] eqn:Ev.
    + unfold acct_of. by rewrite Hacc.
    + unfold acct_of. rewrite Hacc. specialize (B5 y Hm). specialize (H8 y).
      assert (w_accts (s_w (nd_st n)) !! y = None) as H0.
      { unfold acct_of in Ev. destruct (nd_accs n !! y); [done|]. by destruct (w_accts _ !! y). }
      rewrite H0 in B5. destruct B5 as [B5 | (k & B5)]; rewrite B5 in H8.
      * destruct H8 as [-> | (num & ->)]; [by left|]. right. by exists num.
      * rewrite H8. right. by exists k.
  - split.
    + rewrite (same_tables_d2c (s_w (nd_st n)) _ _ (same_tables_trans _ _ _ B2 H7)). apply (hy_den _ Hh).
    + by exists tk.
  - intros k. unfold has_code. destruct (decide (k = fee)) as [->|Hkf].
    + unfold is_token in Ht, Ht0. by rewrite Ht, Ht0.
    + rewrite H6 by done. destruct (decide (made c a = Some k)) as [Hm|Hm].
      * destruct (B4 k Hm) as (_ & -> & ->). by rewrite bool_decide_eq_true_2.
      * rewrite B3 by done. rewrite bool_decide_eq_false_2 by done. by rewrite orb_false_r.
Qed.
(** nothing made *)
Lemma after_shows n a l n' : healthy n -> shows E fee (s_w (nd_st n)) (supply (s_w (nd_st n)) fee) (nd_st n') l ->
  (forall y, y <> a -> nd_accs n' !! y = nd_accs (sync n) !! y) -> after n a None l n'.
Proof.
  intros Hh HR Hacc.
  pose proof (after_rebased n (Com 0 0 (Some a) 0 []) a l n' (s_w (nd_st n)) (supply (s_w (nd_st n)) fee) Hh) as H.
  apply H; [by apply rebased_refl|done|]. intros y Hy _. by apply Hacc.
Qed.
Lemma acct_of_accs n (a : bytes) v : nd_accs n !! a = Some v -> acct_of n a = Some v.
Proof. intros H. unfold acct_of. by rewrite H. Qed.

(** The transaction is taken into the block exactly when it carries gas, its nonce is the
    account's, and the account can pay the fee; calls and creations alike. *)
Theorem C117_included_iff t c a b x rest n acc used keep :
  sane -> holder n a acc -> sent t c a b x ->
  deliver (node_tx b rest x) used keep n <> Refused <->
  f_gas c <> 0%N /\ seq_of n a = Some (f_nonce c) /\ fee_of t c <= balance (s_w (nd_st n)) fee a.
Proof.
  intros Hsane Hold Hsent. destruct (ante_is t c a b x rest n acc Hsane Hold Hsent) as [Hyes Hno].
  unfold seq_of. rewrite (hd_acc _ _ _ Hold). cbn [fmap option_fmap option_map].
  assert (Hacc : accepted t c a n acc <-> f_gas c <> 0%N /\ Some (a_seq acc) = Some (f_nonce c) /\ fee_of t c <= balance (s_w (nd_st n)) fee a).
  { unfold accepted. split; intros (H1 & H2 & H3); (split; [done|]; split; [congruence|done]). }
  rewrite <- Hacc. unfold EthDeliver.deliver, EthDeliver.run_tx. split.
  - intros H. destruct (decide (accepted t c a n acc)) as [Hd|Hd]; [done|]. by rewrite (Hno Hd) in H.
  - intros H. destruct (Hyes H) as (w1 & -> & _). repeat case_match; done.
Qed.
(** Both kinds at once; the theorems below are the two cases. *)
Lemma refund_accs X g n n' : refund key_addr fee_denom B ratio X g n = Some n' -> nd_accs n' = nd_accs n.
Proof.
  unfold refund. destruct (is_eth _ _ _) as [[|]|]; [| |done]; [|by intros [= <-]]. destruct (refund_of _ _ _); [by intros [= <-]|].
  destruct (head _); [|done]. cbn [mbind option_bind]. destruct (fst <$> _); [|done]. cbn [mbind option_bind].
  destruct (k_send_coins _ _ _ _ _) as [[|] w']; [|done]. by intros [= <-].
Qed.
(** On the plain ledger, no failure is caught. *)
Definition smooth (t : eth_tx) (c : common_fields) (a : bytes) (n : node) : Prop :=
  smooth_from c a n (pay (before n) a col (fee_of t c)).
Lemma effects_both t c a b x rest n acc used keep ok n' :
  sane -> holder n a acc -> sent t c a b x -> prog_ok (body_of c a n) ->
  deliver (node_tx b rest x) used keep n = Included ok n' ->
  let F := fee_of t c in
  if ok then exists g, used = Some g /\ allowed c a n /\
      0 <= back t c g <= F /\ back t c g * Z.of_N (f_gas c) <= F * Z.of_N (f_gas c - g) /\
      acct_of n' a = Some (acct_after b acc (f_nonce c + 1)%N) /\
      (forall y, made c a = Some y -> y <> a /\ exists num, acct_of n' y = Some (VAcc None 1 num) /\ forall v, acct_of n y = Some v -> num = a_num v) /\
      ((made c a <> None -> smooth t c a n) ->
       exists sup l', sup <= supply (s_w (nd_st n)) fee /\ after_but n a (made c a) (pay l' col a (back t c g)) sup n' /\
         back t c g <= l_bal l' col /\
         (smooth t c a n -> sup = supply (s_w (nd_st n)) fee /\
            eth (is_blocked E (s_w (nd_st n))) (outer (target c a) (value_of c) (body_of c a n)) a (pay (before n) a col F) = (Told, true, l')) /\
         (made c a = None -> bounded c a n (pay (before n) a col F) l'))
  else after n a None (only_fee (before n) a col F) n' /\
      (acct_of n' a = Some (acct_after b acc (f_nonce c)) \/ acct_of n' a = Some (acct_after b acc (f_nonce c + 1)%N)).
Proof.
  intros Hsane Hold Hsent Hp Hd F. destruct (ante_is t c a b x rest n acc Hsane Hold Hsent) as [Hyes Hno].
  destruct (decide (accepted t c a n acc)) as [Ha|Ha]; cycle 1.
  { unfold EthDeliver.deliver, EthDeliver.run_tx in Hd. by rewrite (Hno Ha) in Hd. }
  destruct (Hyes Ha) as (w1 & Han & HR1). unfold EthDeliver.deliver, EthDeliver.run_tx in Hd. rewrite Han in Hd.
  pose proof (accs1_key a b n acc Hold) as Hpk.
  assert (Hseq : a_seq acc = f_nonce c) by (symmetry; apply Ha).
  assert (Hnext : next_seq (accs1 a b n acc) a !! a = Some (acct_after b acc (f_nonce c + 1)%N)).
  { unfold next_seq. rewrite lookup_alter, Hpk. cbn. f_equal. unfold acct_after. f_equal. rewrite Hseq. pose proof (se_nonce _ _ _ _ _ Hsent). unfold u64, two64. apply N.mod_small. lia. }
  assert (Hother : forall y, y <> a -> next_seq (accs1 a b n acc) a !! y = nd_accs (sync n) !! y).
  { intros y Hy. rewrite next_seq_other, accs1_other by done. by rewrite sync_lookup. }
  assert (Hfail : Included false (Node (st_world w1 (nd_st n)) (accs1 a b n acc)) = Included ok n' ->
     ok = false /\ after n a None (only_fee (before n) a col F) n' /\ acct_of n' a = Some (acct_after b acc (f_nonce c))).
  { intros [= <- <-]. split; [done|]. split.
    - apply after_shows; [apply (hd_ok _ _ _ Hold)|exact HR1|]. intros y Hy. cbn [nd_accs]. rewrite accs1_other by done. by rewrite sync_lookup.
    - apply acct_of_accs. cbn [nd_accs]. rewrite Hpk, Hseq. done. }
  destruct used as [g|]; [|by destruct (Hfail Hd) as (-> & ? & ?); auto].
  pose proof (exec_is t c a b x rest n acc Hsane Hold Hsent _ _ HR1 eq_refl (proj1 (proj2 Ha)) Hp) as He.
  destruct (exec _ _ _ _ _ _ _ _ _) as [| |n2]; [by destruct (Hfail Hd) as (-> & ? & ?); auto| |].
  - destruct keep; [|by destruct (Hfail Hd) as (-> & ? & ?); auto].
    injection Hd as <- <-. split.
    + apply after_shows; [apply (hd_ok _ _ _ Hold)|exact HR1|]. intros y Hy. unfold post_failed. cbn [nd_accs]. rewrite (senders t c a b x rest Hsane Hsent). cbn [fold_left].
      by apply Hother.
    + right. apply (acct_of_accs _ _ (acct_after b acc (f_nonce c + 1)%N)). unfold post_failed. cbn [nd_accs]. rewrite (senders t c a b x rest Hsane Hsent). exact Hnext.
  - destruct He as (Hal & Hacc & Hmk & Hw).
    destruct Ha as (Hg & _ & _).
    destruct (refund key_addr fee_denom B ratio (node_tx b rest x) g n2) as [n3|] eqn:Hr; [|by destruct (Hfail Hd) as (-> & ? & ?); auto].
    injection Hd as <- <-. pose proof (refund_accs _ _ _ _ Hr) as Hra.
    destruct (back_bound t c a b x Hsane Hsent g Hg) as [Hb1 Hb2].
    exists g. split; [done|]. split; [done|]. split; [done|]. split; [done|]. split; [|split].
    + apply acct_of_accs. rewrite Hra, Hacc; [exact Hnext|].
      intros Hm. by destruct (Hmk a (eq_sym Hm)) as [Hne _].
    + intros y Hy. destruct (Hmk y Hy) as (Hne & k & Hk & Hnum). split; [done|]. exists k. split; [apply acct_of_accs; by rewrite Hra|done].
    + intros Hsm. destruct (Hw Hsm) as (w0 & sup & l' & Hrb & Hsup & HR2 & Htold & Hbd).
      assert (Hd0 : denom_to_contract w0 fee_denom = Some fee).
      { rewrite (same_tables_d2c (s_w (nd_st n)) _ _ (rb_tab _ _ _ _ Hrb)). apply (hy_den _ (hd_ok _ _ _ Hold)). }
      pose proof (refund_is t c a b x rest Hsane Hsent w0 sup (nd_st n2) l' (nd_accs n2) g Hg Hd0 HR2) as Hr'.
      replace (Node (nd_st n2) (nd_accs n2)) with n2 in Hr' by by destruct n2. rewrite Hr in Hr'.
      destruct (decide (back t c g <= l_bal l' col)); [|done]. destruct Hr' as (w3 & [= ->] & HR3).
      exists sup, l'. split; [done|]. split; [|split; [done|split; [exact Htold|exact Hbd]]].
      eapply after_rebased; [apply (hd_ok _ _ _ Hold)|exact Hrb|exact HR3|]. intros y Hy Hm. cbn [nd_accs]. rewrite Hacc by done. by apply Hother.
Qed.
Lemma succeeds_both t c a b x rest n acc used keep :
  sane -> holder n a acc -> sent t c a b x -> prog_ok (body_of c a n) ->
  a <> col -> never_pays col (target c a) (body_of c a n) -> smooth t c a n ->
  (exists n', deliver (node_tx b rest x) used keep n = Included true n') <->
  (f_gas c <> 0%N /\ seq_of n a = Some (f_nonce c) /\ fee_of t c <= balance (s_w (nd_st n)) fee a) /\
  used <> None /\ allowed c a n /\
  exists l', eth (is_blocked E (s_w (nd_st n))) (outer (target c a) (value_of c) (body_of c a n)) a
                 (pay (before n) a col (fee_of t c)) = (Told, true, l').
Proof.
  intros Hsane Hold Hsent Hp Hac Hnp Hsm. destruct (ante_is t c a b x rest n acc Hsane Hold Hsent) as [Hyes Hno].
  unfold seq_of. rewrite (hd_acc _ _ _ Hold). cbn [fmap option_fmap option_map].
  assert (Hacc : accepted t c a n acc <-> f_gas c <> 0%N /\ Some (a_seq acc) = Some (f_nonce c) /\ fee_of t c <= balance (s_w (nd_st n)) fee a).
  { unfold accepted. split; intros (H1 & H2 & H3); (split; [done|]; split; [congruence|done]). }
  rewrite <- Hacc. destruct (decide (accepted t c a n acc)) as [Ha|Ha]; cycle 1.
  { unfold EthDeliver.deliver, EthDeliver.run_tx. rewrite (Hno Ha). split; [by intros (? & ?)|]. by intros (? & _). }
  destruct (Hyes Ha) as (w1 & Han & HR1). unfold EthDeliver.deliver, EthDeliver.run_tx. rewrite Han.
  destruct used as [g|]; cycle 1.
  { split; [by intros (? & ?)|]. by intros (_ & ? & _). }
  pose proof (exec_is t c a b x rest n acc Hsane Hold Hsent _ _ HR1 eq_refl (proj1 (proj2 Ha)) Hp) as He.
  change (Ledger (balance (s_w (nd_st n)) fee) (s_sto (nd_st n)) (s_log (nd_st n))) with (before n) in *.
  destruct (exec _ _ _ _ _ _ _ _ _) as [| |n2].
  - split; [by intros (? & ?)|]. intros (_ & _ & Hal & l' & Hl'). specialize (He Hsm Hal). rewrite Hl' in He. done.
  - split; [by intros (? & ?)|]. intros (_ & _ & Hal & l' & Hl'). specialize (He Hsm Hal). rewrite Hl' in He. destruct He as (? & ?). done.
  - destruct He as (Hal & Hac2 & _ & Hw). destruct (Hw (fun _ => Hsm)) as (w0 & sup & l' & Hrb & _ & HR2 & Htold & _).
    destruct (Htold Hsm) as [_ Hl']. split; [intros _; split; [done|]; split; [done|]; split; [done|]; by exists l'|]. intros _.
    destruct Ha as (Hg & _ & HF).
    assert (Hd0 : denom_to_contract w0 fee_denom = Some fee).
    { rewrite (same_tables_d2c (s_w (nd_st n)) _ _ (rb_tab _ _ _ _ Hrb)). apply (hy_den _ (hd_ok _ _ _ Hold)). }
    pose proof (refund_is t c a b x rest Hsane Hsent w0 sup (nd_st n2) l' (nd_accs n2) g Hg Hd0 HR2) as Hr.
    replace (Node (nd_st n2) (nd_accs n2)) with n2 in Hr by by destruct n2.
    rewrite decide_True in Hr.
    + destruct Hr as (w3 & -> & _). by eexists.
    + destruct (back_bound t c a b x Hsane Hsent g Hg) as [Hb _].
      destruct (eth_keeps (is_blocked E (s_w (nd_st n))) col (outer (target c a) (value_of c) (body_of c a n))) with (self := a) (l := pay (before n) a col (fee_of t c)) as [_ Hk].
      * destruct (fits t c a b x Hsent) as [_ Hv]. split; [done|]. split; [done|]. by intros [].
      * split; [by right|]. split; [done|]. by intros [].
      * intros y. apply (shows_pos _ _ _ _ y HR1).
      * rewrite Hl' in Hk. simpl in Hk. rewrite (bool_decide_eq_false_2 (col = a)), (bool_decide_eq_true_2 (col = col)) in Hk by done.
        assert (0 <= balance (s_w (nd_st n)) fee col) by apply (shows_pos _ _ _ _ col (shows0 a n acc Hold)). simpl in Hk. lia.
Qed.
(** Calls that come to no caught failure: the effects are those of the plain ledger: a successful
    transaction pays the fee, makes the call, gets back part of the fee (never more than the share
    of the gas not used) and moves the nonce by one. A failed one, of whatever code, pays the fee,
    and that is all. *)
Theorem C117_effects t c a to b x rest n acc used keep ok n' :
  sane -> holder n a acc -> sent t c a b x -> f_to c = Some to -> prog_ok (call_body c n to) ->
  deliver (node_tx b rest x) used keep n = Included ok n' ->
  let F := fee_of t c in
  if ok then
      catches_none (is_blocked E (s_w (nd_st n))) (before n) a to col (value_of c) F (call_body c n to) ->
      exists g l, used = Some g /\
      succeeded (is_blocked E (s_w (nd_st n))) (before n) a to col (value_of c) F (back t c g) (call_body c n to) l /\
      0 <= back t c g <= F /\ back t c g * Z.of_N (f_gas c) <= F * Z.of_N (f_gas c - g) /\
      after n a None l n' /\ acct_of n' a = Some (acct_after b acc (f_nonce c + 1)%N)
  else after n a None (only_fee (before n) a col F) n' /\
      (acct_of n' a = Some (acct_after b acc (f_nonce c)) \/ acct_of n' a = Some (acct_after b acc (f_nonce c + 1)%N)).
Proof.
  intros Hsane Hold Hsent Hto Hp Hd.
  pose proof (effects_both t c a b x rest n acc used keep ok n' Hsane Hold Hsent) as H.
  unfold smooth, smooth_from, bounded, body_of, target, made in H. rewrite Hto in H. specialize (H Hp Hd). cbv zeta in *. destruct ok; [|done].
  intros Hcn. destruct H as (g & H1 & _ & H3 & H4 & H5 & _ & H6). destruct H6 as (sup & l' & _ & Haf & _ & Htold & _); [done|].
  destruct (Htold Hcn) as [-> Hl']. exists g, (pay l' col a (back t c g)). split; [done|]. split; [by exists l'|]. split; [done|]. split; [done|]. split; [exact Haf|done].
Qed.
(** Whatever the code does and catches: a successful call moves the nonce by one and gets back no
    more than that share; no supply grows, no other token and no other account's key or nonce
    changes, nor does any code; who does not pay does not lose, and the collector keeps the fee
    but for what comes back; a contract no code runs as keeps its storage; no log is lost. *)
Theorem C117_any t c a to b x rest n acc used keep n' :
  sane -> holder n a acc -> sent t c a b x -> f_to c = Some to -> prog_ok (call_body c n to) ->
  deliver (node_tx b rest x) used keep n = Included true n' ->
  let F := fee_of t c in let body := call_body c n to in
  exists g, used = Some g /\ 0 <= back t c g <= F /\ back t c g * Z.of_N (f_gas c) <= F * Z.of_N (f_gas c - g) /\
    acct_of n' a = Some (acct_after b acc (f_nonce c + 1)%N) /\ others_kept n a None n' /\ healthy n' /\
    (forall k, supply (s_w (nd_st n')) k <= supply (s_w (nd_st n)) k) /\
    (forall k y, k <> fee -> balance (s_w (nd_st n')) k y = balance (s_w (nd_st n)) k y) /\
    (forall k, has_code n' k = has_code n k) /\
    (forall y, y <> a -> y <> col -> never_pays y to body -> balance (s_w (nd_st n)) fee y <= balance (s_w (nd_st n')) fee y) /\
    (a <> col -> never_pays col to body -> balance (s_w (nd_st n)) fee col + F - back t c g <= balance (s_w (nd_st n')) fee col) /\
    (forall y, ~ runs_as y to body -> forall k, s_sto (nd_st n') !! (y, k) = s_sto (nd_st n) !! (y, k)) /\
    s_log (nd_st n) `prefix_of` s_log (nd_st n').
Proof.
  intros Hsane Hold Hsent Hto Hp Hd F body.
  pose proof (effects_both t c a b x rest n acc used keep true n' Hsane Hold Hsent) as H.
  unfold smooth, smooth_from, bounded, body_of, target, made in H. rewrite Hto in H. specialize (H Hp Hd). cbv zeta in H.
  destruct H as (g & H1 & _ & H3 & H4 & H5 & _ & H6). destruct H6 as (sup & l' & Hsup & (G1 & G2 & G3 & G4 & G5 & G6 & G7 & G8) & _ & _ & Hbd); [done|].
  destruct (Hbd eq_refl) as (B1 & B2 & B3). fold F body in B1, B2, B3, H3, H4, G1 |- *. exists g. split_and!; try done; try lia.
  - intros k. rewrite G4. by destruct (decide (k = fee)) as [->|].
  - intros k. rewrite G8. rewrite bool_decide_eq_false_2 by done. apply orb_false_r.
  - intros y Hya Hyc Hq. specialize (B1 y Hya Hq). rewrite G1. simpl in *.
    rewrite (bool_decide_eq_false_2 (y = a)), (bool_decide_eq_false_2 (y = col)) in * by done. lia.
  - intros Hac Hq. specialize (B1 col (not_eq_sym Hac) Hq). rewrite G1. simpl in *.
    rewrite (bool_decide_eq_false_2 (col = a)), (bool_decide_eq_true_2 (col = col)) in * by done. lia.
  - intros y Hq k. rewrite G2. by apply B2.
  - rewrite G3. exact B3.
Qed.

(** It succeeds exactly when it is taken, stays within its gas, and the call succeeds on the
    plain ledger after the fee; the collector's own code is assumed not to spend the fees. *)
Theorem C117_succeeds_iff t c a to b x rest n acc used keep :
  sane -> holder n a acc -> sent t c a b x -> f_to c = Some to -> prog_ok (call_body c n to) ->
  a <> col -> never_pays col to (call_body c n to) ->
  catches_none (is_blocked E (s_w (nd_st n))) (before n) a to col (value_of c) (fee_of t c) (call_body c n to) ->
  (exists n', deliver (node_tx b rest x) used keep n = Included true n') <->
  (f_gas c <> 0%N /\ seq_of n a = Some (f_nonce c) /\ fee_of t c <= balance (s_w (nd_st n)) fee a) /\
  used <> None /\
  exists l', eth (is_blocked E (s_w (nd_st n))) (outer to (value_of c) (call_body c n to)) a
                 (pay (before n) a col (fee_of t c)) = (Told, true, l').
Proof.
  intros Hsane Hold Hsent Hto Hp Hac Hnp Hcn.
  pose proof (succeeds_both t c a b x rest n acc used keep Hsane Hold Hsent) as H.
  unfold smooth, smooth_from, body_of, target, allowed in H. rewrite Hto in H. rewrite (H Hp Hac Hnp Hcn). tauto.
Qed.

(** A payment to an account without code: every account's balance afterwards. *)
Theorem C117_payment t c a to b x rest n acc g keep :
  sane -> holder n a acc -> sent t c a b x -> f_to c = Some to -> a <> col ->
  w_code (s_w (nd_st n)) !! to = None -> is_blocked E (s_w (nd_st n)) to = false ->
  f_gas c <> 0%N -> seq_of n a = Some (f_nonce c) ->
  fee_of t c + value_of c <= balance (s_w (nd_st n)) fee a ->
  exists n' back, deliver (node_tx b rest x) (Some g) keep n = Included true n' /\
    0 <= back <= fee_of t c /\ back * Z.of_N (f_gas c) <= fee_of t c * Z.of_N (f_gas c - g) /\
    seq_of n' a = Some (f_nonce c + 1)%N /\
    (forall y, balance (s_w (nd_st n')) fee y = balance (s_w (nd_st n)) fee y
        - (if bool_decide (y = a) then value_of c + fee_of t c - back else 0)
        + (if bool_decide (y = to) then value_of c else 0)
        + (if bool_decide (y = col) then fee_of t c - back else 0)) /\
    s_sto (nd_st n') = s_sto (nd_st n) /\
    (forall k y, k <> fee -> balance (s_w (nd_st n')) k y = balance (s_w (nd_st n)) k y) /\
    others_kept n a None n'.
Proof.
  intros Hsane Hold Hsent Hto Hac Hcode Hblk Hg Hseq Hle.
  destruct (fits t c a b x Hsent) as [[HF0 _] Hv].
  assert (Hbody : call_body c n to = PStop) by (unfold call_body; by rewrite Hcode).
  set (l' := if decide (value_of c = 0) then pay (before n) a col (fee_of t c)
             else note (pay (pay (before n) a col (fee_of t c)) a to (value_of c)) [EMoved a to (value_of c)]).
  assert (Heth : eth (is_blocked E (s_w (nd_st n))) (outer to (value_of c) (call_body c n to)) a (pay (before n) a col (fee_of t c)) = (Told, true, l')).
  { rewrite Hbody. unfold outer, l'. cbn [eth]. rewrite decide_False.
    - rewrite Hblk. rewrite decide_False by (by intros [_ ?]). by destruct (decide (value_of c = 0)).
    - simpl. rewrite (bool_decide_eq_true_2 (a = a)), (bool_decide_eq_false_2 (a = col)) by done. lia. }
  assert (Hl' : forall y, l_bal l' y = balance (s_w (nd_st n)) fee y
        - (if bool_decide (y = a) then value_of c + fee_of t c else 0)
        + (if bool_decide (y = to) then value_of c else 0)
        + (if bool_decide (y = col) then fee_of t c else 0)).
  { intros y. unfold l'. destruct (decide (value_of c = 0)); simpl; repeat case_bool_decide; lia. }
  assert (Hsto : l_sto l' = s_sto (nd_st n)) by (unfold l'; by destruct (decide _)).
  clearbody l'.
  assert (Hpok : prog_ok (call_body c n to)) by by rewrite Hbody.
  assert (Hcn : catches_none (is_blocked E (s_w (nd_st n))) (before n) a to col (value_of c) (fee_of t c) (call_body c n to)) by (unfold catches_none; by rewrite Heth).
  destruct (C117_succeeds_iff t c a to b x rest n acc (Some g) keep Hsane Hold Hsent Hto Hpok Hac) as [_ (n' & Hd)]; [by rewrite Hbody|done| |].
  { split; [split; [done|]; split; [done|]; unfold amount_ok in Hv; lia|]. split; [done|]. by exists l'. }
  pose proof (C117_effects t c a to b x rest n acc (Some g) keep true n' Hsane Hold Hsent Hto Hpok Hd) as H. cbv zeta in H. specialize (H Hcn).
  destruct H as (g' & l & [= <-] & (l2 & Hl2 & ->) & Hb1 & Hb2 & (G1 & G2 & G3 & G4 & G5 & G6 & _) & Hs').
  rewrite Heth in Hl2. injection Hl2 as <-.
  exists n', (back t c g). split; [done|]. split; [done|]. split; [done|]. split; [unfold seq_of; by rewrite Hs'|]. split.
  { intros y. rewrite G1. simpl. rewrite Hl'. repeat case_bool_decide; lia. }
  split; [|done]. rewrite G2. exact Hsto.
Qed.
(** ... and in wei, as wallets show it: the recipient gets the value, to the wei, and the sender
    loses the value and at most the fee it offered and one unit of the fee token (a wei, if the
    token has more than 18 decimals). *)
Theorem C117_payment_wei t c a to b x rest n acc g keep :
  sane -> holder n a acc -> sent t c a b x -> f_to c = Some to -> a <> col -> a <> to -> to <> col ->
  w_code (s_w (nd_st n)) !! to = None -> is_blocked E (s_w (nd_st n)) to = false ->
  f_gas c <> 0%N -> seq_of n a = Some (f_nonce c) ->
  fee_of t c + value_of c <= balance (s_w (nd_st n)) fee a ->
  let unit := if decide (decimals <= 18) then 10 ^ (18 - decimals) else 1 in
  let wei n y := to_ethers decimals (balance (s_w (nd_st n)) fee y) in
  exists n', deliver (node_tx b rest x) (Some g) keep n = Included true n' /\
    wei n' to = wei n to + f_value c /\
    wei n a - f_value c - fee_cap t * Z.of_N (f_gas c) - unit <= wei n' a <= wei n a - f_value c.
Proof.
  intros Hsane Hold Hsent Hto Hac Hat Htc Hcode Hblk Hg Hseq Hle unit wei.
  destruct (C117_payment t c a to b x rest n acc g keep Hsane Hold Hsent Hto Hac Hcode Hblk Hg Hseq Hle)
    as (n' & bk & Hdl & Hb1 & _ & _ & Hbal & _). exists n'. split; [done|].
  destruct (eth_to_cosmos_inv keccak ck bech_enc recover_addr (fun a => a) fee_denom decimals cid t x (se_prot _ _ _ _ _ Hsent) (se_x _ _ _ _ _ Hsent))
    as (c' & r & s & b' & pub & Hc & _ & _ & _ & _ & _ & _ & _ & _ & Hrt & _).
  rewrite (se_com _ _ _ _ _ Hsent) in Hc. injection Hc as <-.
  pose proof (se_val _ _ _ _ _ Hsent) as Hv0. pose proof (se_cap _ _ _ _ _ Hsent) as Hc0.
  unfold wei. rewrite !Hbal.
  rewrite (bool_decide_eq_false_2 (to = a)), (bool_decide_eq_true_2 (to = to)), (bool_decide_eq_false_2 (to = col)) by done.
  rewrite (bool_decide_eq_true_2 (a = a)), (bool_decide_eq_false_2 (a = to)), (bool_decide_eq_false_2 (a = col)) by done.
  replace (balance (s_w (nd_st n)) fee to - 0 + value_of c + 0) with (balance (s_w (nd_st n)) fee to + value_of c) by lia.
  fold (value_of c) in Hrt.
  set (B0 := balance (s_w (nd_st n)) fee to). set (A0 := balance (s_w (nd_st n)) fee a) in *.
  set (V := value_of c) in *.
  assert (HF : fee_of t c = 0 \/ fee_of t c = from_ethers decimals (fee_cap t * Z.of_N (f_gas c)) + 1).
  { unfold fee_of, compute_gas_fee_amount. destruct (Z.eqb_spec (fee_cap t) 0); [by left|]. right. lia. }
  set (G := fee_cap t * Z.of_N (f_gas c)) in *. assert (HG : 0 <= G) by (unfold G; nia).
  assert (HF0 : 0 <= fee_of t c) by lia. set (F := fee_of t c) in *. clearbody F G A0 B0.
  unfold to_ethers, from_ethers in *. pose proof (sn_dec Hsane).
  unfold unit. destruct (decide (decimals <= 18)) as [Hd|Hd].
  - set (u := 10 ^ (18 - decimals)). assert (Hu : 0 < u) by (apply Z.pow_pos_nonneg; lia).
    destruct (Z.eqb_spec decimals 18) as [He|He].
    + assert (u = 1) as -> by (unfold u; by rewrite He). lia.
    + destruct (Z.ltb_spec 18 decimals); [lia|]. change (pow10 (18 - decimals)) with u in *.
      pose proof (Z.mul_div_le G u Hu). split; [lia|]. split; [|nia]. destruct HF as [-> | ->]; nia.
  - destruct (Z.eqb_spec decimals 18); [lia|]. destruct (Z.ltb_spec 18 decimals); [|lia].
    set (p := pow10 (decimals - 18)) in *. assert (Hp : 0 < p) by (apply pow10_pos; lia).
    assert (Hp10 : 1 < p). { unfold p, pow10. apply Z.pow_gt_1; lia. }
    assert (HV : V = f_value c * p).
    { unfold V, value_of, from_ethers. destruct (Z.eqb_spec decimals 18); [lia|]. destruct (Z.ltb_spec 18 decimals); [done|lia]. }
    rewrite HV. clear HV Hrt. rewrite Z.div_add by lia. split; [done|].
    replace (A0 - (f_value c * p + F - bk) + 0 + 0) with (A0 - (F - bk) + - f_value c * p) by lia.
    rewrite Z.div_add by lia.
    assert (H1 : (A0 - (F - bk)) / p <= A0 / p) by (apply Z.div_le_mono; lia).
    assert (H2 : (A0 + - (G + 1) * p) / p <= (A0 - (F - bk)) / p) by (apply Z.div_le_mono; [lia|]; destruct HF as [-> | ->]; nia).
    rewrite Z.div_add in H2 by lia. lia.
Qed.

(** ** C120: contract creations *)
(** The constructor does not destroy the contract at [y] that it makes. *)
Fixpoint not_destroyed (y self : bytes) (p : prog) : Prop :=
  match p with
  | PStop | PRevert => True
  | PDestruct _ => self <> y
  | PStore _ _ k | PLog _ k => not_destroyed y self k
  | PLoad _ k | PBalance _ k => forall x, not_destroyed y self (k x)
  | PSend _ _ k => forall b, not_destroyed y self (k b)
  | PCall to _ body k => not_destroyed y to body /\ forall b, not_destroyed y self (k b)
  | PDelegate body k => not_destroyed y self body /\ forall b, not_destroyed y self (k b)
  | PStatic _ _ k => forall b, not_destroyed y self (k b)
  end.
(** A creation that succeeds was allowed, made its contract at the address given by sender and
    nonce, where nothing was, with nonce 1 and no key, and otherwise has the effects of the
    constructor on the plain ledger; one that fails pays its fee, makes nothing and changes
    nothing else. *)
Theorem C120_effects t c a b x rest n acc used keep ok n' :
  sane -> holder n a acc -> sent t c a b x -> f_to c = None ->
  let y := create_addr a (f_nonce c) in let body := init_of y (f_data c) in
  prog_ok body -> not_destroyed y y body ->
  catches_none (is_blocked E (s_w (nd_st n))) (before n) a y col (value_of c) (fee_of t c) body ->
  deliver (node_tx b rest x) used keep n = Included ok n' ->
  let F := fee_of t c in
  if ok then exists g l, used = Some g /\
      (publishers = [] \/ bech_enc a ∈ publishers) /\ free a n y /\
      succeeded (is_blocked E (s_w (nd_st n))) (before n) a y col (value_of c) F (back t c g) body l /\
      0 <= back t c g <= F /\ back t c g * Z.of_N (f_gas c) <= F * Z.of_N (f_gas c - g) /\
      after n a (Some y) l n' /\ acct_of n' a = Some (acct_after b acc (f_nonce c + 1)%N) /\
      has_code n' y = true /\
      exists num, acct_of n' y = Some (VAcc None 1 num) /\ forall v, acct_of n y = Some v -> num = a_num v
  else after n a None (only_fee (before n) a col F) n' /\
      (acct_of n' a = Some (acct_after b acc (f_nonce c)) \/ acct_of n' a = Some (acct_after b acc (f_nonce c + 1)%N)).
Proof.
  intros Hsane Hold Hsent Hto y body Hp _ Hcn Hd.
  pose proof (effects_both t c a b x rest n acc used keep ok n' Hsane Hold Hsent) as H.
  unfold smooth, smooth_from, bounded, body_of, target, made, allowed in H. rewrite Hto in H. specialize (H Hp Hd). cbv zeta in *. destruct ok; [|done].
  destruct H as (g & H1 & [Ha1 Ha2] & H3 & H4 & H5 & H7 & H6). destruct H6 as (sup & l' & _ & Haf & _ & Htold & _); [done|].
  destruct (Htold Hcn) as [-> Hl']. exists g, (pay l' col a (back t c g)). do 3 (split; [done|]). split; [by exists l'|]. do 4 (split; [done|]). split.
  - destruct Haf as (_ & _ & _ & _ & _ & _ & _ & Hc). rewrite Hc. rewrite bool_decide_eq_true_2 by done. apply orb_true_r.
  - by apply H7.
Qed.
(** It succeeds exactly when it is taken, stays within its gas, its sender may publish, its
    address is free and the constructor succeeds on the plain ledger after the fee. *)
Theorem C120_succeeds_iff t c a b x rest n acc used keep :
  sane -> holder n a acc -> sent t c a b x -> f_to c = None ->
  let y := create_addr a (f_nonce c) in let body := init_of y (f_data c) in
  prog_ok body -> not_destroyed y y body -> a <> col -> never_pays col y body ->
  catches_none (is_blocked E (s_w (nd_st n))) (before n) a y col (value_of c) (fee_of t c) body ->
  (exists n', deliver (node_tx b rest x) used keep n = Included true n') <->
  (f_gas c <> 0%N /\ seq_of n a = Some (f_nonce c) /\ fee_of t c <= balance (s_w (nd_st n)) fee a) /\
  used <> None /\ (publishers = [] \/ bech_enc a ∈ publishers) /\ free a n y /\
  exists l', eth (is_blocked E (s_w (nd_st n))) (outer y (value_of c) body) a
                 (pay (before n) a col (fee_of t c)) = (Told, true, l').
Proof.
  intros Hsane Hold Hsent Hto y body Hp _ Hac Hnp Hcn.
  pose proof (succeeds_both t c a b x rest n acc used keep Hsane Hold Hsent) as H.
  unfold smooth, smooth_from, body_of, target, allowed in H. rewrite Hto in H. fold y body in H. rewrite (H Hp Hac Hnp Hcn). tauto.
Qed.

(** ** C118: what wallets show and does not hold *)
(** "Send everything": with a fee token of 18 decimals, a payment of the balance less fee cap
    times gas, which is what wallets compute, is taken and always fails, and its fee is gone. *)
Theorem C118_max_send_refuted t c a to b x rest n acc used keep :
  sane -> holder n a acc -> sent t c a b x -> f_to c = Some to -> a <> col ->
  w_code (s_w (nd_st n)) !! to = None ->
  decimals = 18 -> 0 < fee_cap t -> f_gas c <> 0%N -> seq_of n a = Some (f_nonce c) -> 0 < f_value c ->
  f_value c + fee_cap t * Z.of_N (f_gas c) = balance (s_w (nd_st n)) fee a ->
  exists n', deliver (node_tx b rest x) used keep n = Included false n' /\
    balance (s_w (nd_st n')) fee a = f_value c - 1 /\
    forall y, y <> a -> y <> col -> balance (s_w (nd_st n')) fee y = balance (s_w (nd_st n)) fee y.
Proof.
  intros Hsane Hold Hsent Hto Hac Hcode Hd Hcap Hg Hseq Hv Hmax.
  assert (HF : fee_of t c = fee_cap t * Z.of_N (f_gas c) + 1).
  { unfold fee_of, compute_gas_fee_amount, from_ethers. rewrite Hd. destruct (Z.eqb_spec (fee_cap t) 0); [lia|]. done. }
  assert (HV : value_of c = f_value c) by (unfold value_of, from_ethers; by rewrite Hd).
  assert (Hbody : call_body c n to = PStop) by (unfold call_body; by rewrite Hcode).
  assert (Hpok : prog_ok (call_body c n to)) by by rewrite Hbody.
  assert (Hne : deliver (node_tx b rest x) used keep n <> Refused).
  { apply (C117_included_iff t c a b x rest n acc used keep Hsane Hold Hsent). split; [done|]. split; [done|]. lia. }
  destruct (deliver (node_tx b rest x) used keep n) as [|[|] n'] eqn:Hdl; [done| |].
  - exfalso.
    assert (Heth : eth (is_blocked E (s_w (nd_st n))) (outer to (value_of c) (call_body c n to)) a (pay (before n) a col (fee_of t c)) = (Told, false, pay (before n) a col (fee_of t c))).
    { rewrite Hbody, HV. unfold outer. cbn [eth]. rewrite decide_True; [done|]. split; [lia|]. simpl. rewrite (bool_decide_eq_true_2 (a = a)), (bool_decide_eq_false_2 (a = col)) by done. lia. }
    destruct (C117_succeeds_iff t c a to b x rest n acc used keep Hsane Hold Hsent Hto Hpok Hac) as [(_ & _ & l' & Hl') _]; [by rewrite Hbody|unfold catches_none; by rewrite Heth|by exists n'|].
    by rewrite Heth in Hl'.
  - exists n'. split; [done|].
    destruct (C117_effects t c a to b x rest n acc used keep false n' Hsane Hold Hsent Hto Hpok Hdl) as [(G1 & _) _].
    split.
    + rewrite G1. simpl. rewrite (bool_decide_eq_true_2 (a = a)), (bool_decide_eq_false_2 (a = col)) by done. lia.
    + intros y H1 H2. rewrite G1. simpl. rewrite (bool_decide_eq_false_2 (y = a)), (bool_decide_eq_false_2 (y = col)) by done. lia.
Qed.
(** "At most gas times fee cap": a failed transaction takes one wei more. *)
Theorem C118_cost_above_cap_refuted t c a to b x rest n acc used keep n' :
  sane -> holder n a acc -> sent t c a b x -> f_to c = Some to -> a <> col -> prog_ok (call_body c n to) ->
  decimals = 18 -> 0 < fee_cap t ->
  deliver (node_tx b rest x) used keep n = Included false n' ->
  balance (s_w (nd_st n)) fee a - balance (s_w (nd_st n')) fee a = fee_cap t * Z.of_N (f_gas c) + 1.
Proof.
  intros Hsane Hold Hsent Hto Hac Hpok Hd Hcap Hdl.
  assert (HF : fee_of t c = fee_cap t * Z.of_N (f_gas c) + 1).
  { unfold fee_of, compute_gas_fee_amount, from_ethers. rewrite Hd. destruct (Z.eqb_spec (fee_cap t) 0); [lia|]. done. }
  destruct (C117_effects t c a to b x rest n acc used keep false n' Hsane Hold Hsent Hto Hpok Hdl) as [(G1 & _) _].
  rewrite G1. simpl. rewrite (bool_decide_eq_true_2 (a = a)), (bool_decide_eq_false_2 (a = col)) by done. lia.
Qed.
(** ** C134: whoever submits it *)
(** The plain run after paying the fee [F]. *)
Definition smooth_at (c : common_fields) (a : bytes) (n : node) (F : Z) : Prop :=
  smooth_from c a n (pay (before n) a col F).
(** Included, whatever fee the submitter writes into it, exactly if the sender has that much. *)
Theorem C134_included_iff t c a b x n acc F rest used keep :
  sane -> holder n a acc -> sent t c a b x -> amount_ok F ->
  deliver (node_tx b rest (refee F x)) used keep n <> Refused <->
  f_gas c <> 0%N /\ seq_of n a = Some (f_nonce c) /\ F <= balance (s_w (nd_st n)) fee a.
Proof.
  intros Hsane Hold Hsent HF. destruct (ante_refee t c a b x rest n acc Hsane Hold Hsent F rest HF) as [Hyes Hno].
  unfold seq_of. rewrite (hd_acc _ _ _ Hold). cbn [fmap option_fmap option_map].
  assert (Hacc : accepted_at c a n acc F <-> f_gas c <> 0%N /\ Some (a_seq acc) = Some (f_nonce c) /\ F <= balance (s_w (nd_st n)) fee a).
  { unfold accepted_at. split; intros (H1 & H2 & H3); (split; [done|]; split; [congruence|done]). }
  rewrite <- Hacc. unfold EthDeliver.deliver, EthDeliver.run_tx. split.
  - intros H. destruct (decide (accepted_at c a n acc F)) as [Hd|Hd]; [done|]. by rewrite (Hno Hd) in H.
  - intros H. destruct (Hyes H) as (w1 & -> & _). repeat case_match; done.
Qed.
Lemma effects_refee t c a b x n acc F rest used keep ok n' :
  sane -> holder n a acc -> sent t c a b x -> amount_ok F -> prog_ok (body_of c a n) ->
  deliver (node_tx b rest (refee F x)) used keep n = Included ok n' ->
  if ok then exists g, used = Some g /\ allowed c a n /\
      0 <= back_at c F g <= F /\ back_at c F g * Z.of_N (f_gas c) <= F * Z.of_N (f_gas c - g) /\
      acct_of n' a = Some (acct_after b acc (f_nonce c + 1)%N) /\
      (forall y, made c a = Some y -> y <> a /\ exists num, acct_of n' y = Some (VAcc None 1 num) /\ forall v, acct_of n y = Some v -> num = a_num v) /\
      ((made c a <> None -> smooth_at c a n F) ->
       exists sup l', sup <= supply (s_w (nd_st n)) fee /\ after_but n a (made c a) (pay l' col a (back_at c F g)) sup n' /\
         back_at c F g <= l_bal l' col /\
         (smooth_at c a n F -> sup = supply (s_w (nd_st n)) fee /\
            eth (is_blocked E (s_w (nd_st n))) (outer (target c a) (value_of c) (body_of c a n)) a (pay (before n) a col F) = (Told, true, l')) /\
         (made c a = None -> bounded c a n (pay (before n) a col F) l'))
  else after n a None (only_fee (before n) a col F) n' /\
      (acct_of n' a = Some (acct_after b acc (f_nonce c)) \/ acct_of n' a = Some (acct_after b acc (f_nonce c + 1)%N)).
Proof.
  intros Hsane Hold Hsent HF Hp Hd. destruct (ante_refee t c a b x rest n acc Hsane Hold Hsent F rest HF) as [Hyes Hno].
  destruct (decide (accepted_at c a n acc F)) as [Ha|Ha]; cycle 1.
  { unfold EthDeliver.deliver, EthDeliver.run_tx in Hd. by rewrite (Hno Ha) in Hd. }
  destruct (Hyes Ha) as (w1 & Han & HR1). unfold EthDeliver.deliver, EthDeliver.run_tx in Hd. rewrite Han in Hd.
  pose proof (accs1_key a b n acc Hold) as Hpk.
  assert (Hseq : a_seq acc = f_nonce c) by (symmetry; apply Ha).
  assert (Hnext : next_seq (accs1 a b n acc) a !! a = Some (acct_after b acc (f_nonce c + 1)%N)).
  { unfold next_seq. rewrite lookup_alter, Hpk. cbn. f_equal. unfold acct_after. f_equal. rewrite Hseq. pose proof (se_nonce _ _ _ _ _ Hsent). unfold u64, two64. apply N.mod_small. lia. }
  assert (Hother : forall y, y <> a -> next_seq (accs1 a b n acc) a !! y = nd_accs (sync n) !! y).
  { intros y Hy. rewrite next_seq_other, accs1_other by done. by rewrite sync_lookup. }
  assert (Hfail : Included false (Node (st_world w1 (nd_st n)) (accs1 a b n acc)) = Included ok n' ->
     ok = false /\ after n a None (only_fee (before n) a col F) n' /\ acct_of n' a = Some (acct_after b acc (f_nonce c))).
  { intros [= <- <-]. split; [done|]. split.
    - apply after_shows; [apply (hd_ok _ _ _ Hold)|exact HR1|]. intros y Hy. cbn [nd_accs]. rewrite accs1_other by done. by rewrite sync_lookup.
    - apply acct_of_accs. cbn [nd_accs]. rewrite Hpk, Hseq. done. }
  destruct used as [g|]; [|by destruct (Hfail Hd) as (-> & ? & ?); auto].
  pose proof (exec_is t c a b x rest n acc Hsane Hold Hsent _ _ HR1 eq_refl (proj1 (proj2 Ha)) Hp) as He.
  change (exec bech_dec E fee code_at publishers create_addr init_of (node_tx b rest (refee F x))) with (exec bech_dec E fee code_at publishers create_addr init_of (node_tx b rest x)) in Hd.
  destruct (exec _ _ _ _ _ _ _ _ _) as [| |n2]; [by destruct (Hfail Hd) as (-> & ? & ?); auto| |].
  - destruct keep; [|by destruct (Hfail Hd) as (-> & ? & ?); auto].
    injection Hd as <- <-. split.
    + apply after_shows; [apply (hd_ok _ _ _ Hold)|exact HR1|]. intros y Hy. unfold post_failed. cbn [nd_accs]. change (call_senders bech_dec (node_tx b rest (refee F x))) with (call_senders bech_dec (node_tx b rest x)); rewrite (senders t c a b x rest Hsane Hsent). cbn [fold_left].
      by apply Hother.
    + right. apply (acct_of_accs _ _ (acct_after b acc (f_nonce c + 1)%N)). unfold post_failed. cbn [nd_accs]. change (call_senders bech_dec (node_tx b rest (refee F x))) with (call_senders bech_dec (node_tx b rest x)); rewrite (senders t c a b x rest Hsane Hsent). exact Hnext.
  - destruct He as (Hal & Hacc & Hmk & Hw).
    destruct Ha as (Hg & _ & _).
    destruct (refund key_addr fee_denom B ratio (node_tx b rest (refee F x)) g n2) as [n3|] eqn:Hr; [|by destruct (Hfail Hd) as (-> & ? & ?); auto].
    injection Hd as <- <-. pose proof (refund_accs _ _ _ _ Hr) as Hra.
    destruct (back_at_bound c Hsane F HF g Hg) as [Hb1 Hb2].
    exists g. split; [done|]. split; [done|]. split; [done|]. split; [done|]. split; [|split].
    + apply acct_of_accs. rewrite Hra, Hacc; [exact Hnext|].
      intros Hm. by destruct (Hmk a (eq_sym Hm)) as [Hne _].
    + intros y Hy. destruct (Hmk y Hy) as (Hne & k & Hk & Hnum). split; [done|]. exists k. split; [apply acct_of_accs; by rewrite Hra|done].
    + intros Hsm. destruct (Hw Hsm) as (w0 & sup & l' & Hrb & Hsup & HR2 & Htold & Hbd).
      assert (Hd0 : denom_to_contract w0 fee_denom = Some fee).
      { rewrite (same_tables_d2c (s_w (nd_st n)) _ _ (rb_tab _ _ _ _ Hrb)). apply (hy_den _ (hd_ok _ _ _ Hold)). }
      pose proof (refund_refee t c a b x rest Hsane Hsent F rest HF w0 sup (nd_st n2) l' (nd_accs n2) g Hg Hd0 HR2) as Hr'.
      replace (Node (nd_st n2) (nd_accs n2)) with n2 in Hr' by by destruct n2. rewrite Hr in Hr'.
      destruct (decide (back_at c F g <= l_bal l' col)); [|done]. destruct Hr' as (w3 & [= ->] & HR3).
      exists sup, l'. split; [done|]. split; [|split; [done|split; [exact Htold|exact Hbd]]].
      eapply after_rebased; [apply (hd_ok _ _ _ Hold)|exact Hrb|exact HR3|]. intros y Hy Hm. cbn [nd_accs]. rewrite Hacc by done. by apply Hother.
Qed.
(** Its effects are the ledger's with that fee: the signature binds the call, not what the sender
    pays for it. *)
Theorem C134_effects t c a to b x n acc F rest used keep ok n' :
  sane -> holder n a acc -> sent t c a b x -> amount_ok F -> f_to c = Some to -> prog_ok (call_body c n to) ->
  deliver (node_tx b rest (refee F x)) used keep n = Included ok n' ->
  if ok then
      catches_none (is_blocked E (s_w (nd_st n))) (before n) a to col (value_of c) F (call_body c n to) ->
      exists g l back, used = Some g /\
      succeeded (is_blocked E (s_w (nd_st n))) (before n) a to col (value_of c) F back (call_body c n to) l /\
      0 <= back <= F /\ back * Z.of_N (f_gas c) <= F * Z.of_N (f_gas c - g) /\
      after n a None l n' /\ acct_of n' a = Some (acct_after b acc (f_nonce c + 1)%N)
  else after n a None (only_fee (before n) a col F) n' /\
      (acct_of n' a = Some (acct_after b acc (f_nonce c)) \/ acct_of n' a = Some (acct_after b acc (f_nonce c + 1)%N)).
Proof.
  intros Hsane Hold Hsent HF Hto Hp Hd.
  pose proof (effects_refee t c a b x n acc F rest used keep ok n' Hsane Hold Hsent HF) as H.
  unfold smooth_at, smooth_from, bounded, body_of, target, made in H. rewrite Hto in H. specialize (H Hp Hd). destruct ok; [|done].
  intros Hcn. destruct H as (g & H1 & _ & H3 & H4 & H5 & _ & H6). destruct H6 as (sup & l' & _ & Haf & _ & Htold & _); [done|].
  destruct (Htold Hcn) as [-> Hl']. exists g, (pay l' col a (back_at c F g)), (back_at c F g). split; [done|]. split; [by exists l'|]. split; [done|]. split; [done|]. split; [exact Haf|done].
Qed.
(** "It costs its sender at most value plus gas limit times gas price": whoever holds the signed
    transaction can submit it with any fee the sender can pay. A failed run takes all of it. *)
Theorem C134_any_fee_refuted t c a to b x n acc F rest keep :
  sane -> holder n a acc -> sent t c a b x -> amount_ok F -> f_to c = Some to -> prog_ok (call_body c n to) -> a <> col ->
  f_gas c <> 0%N -> seq_of n a = Some (f_nonce c) -> F <= balance (s_w (nd_st n)) fee a ->
  exists n', deliver (node_tx b rest (refee F x)) None keep n = Included false n' /\
    balance (s_w (nd_st n')) fee a = balance (s_w (nd_st n)) fee a - F /\
    balance (s_w (nd_st n')) fee col = balance (s_w (nd_st n)) fee col + F.
Proof.
  intros Hsane Hold Hsent HF Hto Hp Hac Hg Hseq Hle.
  assert (Hne : deliver (node_tx b rest (refee F x)) None keep n <> Refused) by by eapply C134_included_iff.
  destruct (deliver (node_tx b rest (refee F x)) None keep n) as [|[|] n'] eqn:Hdl; [done| |].
  - exfalso. unfold EthDeliver.deliver, EthDeliver.run_tx in Hdl. by repeat case_match.
  - exists n'. split; [done|].
    destruct (C134_effects t c a to b x n acc F rest None keep false n' Hsane Hold Hsent HF Hto Hp Hdl) as [(G1 & _) _].
    rewrite !G1. simpl. repeat case_bool_decide; done || lia.
Qed.
(** A payment submitted with the whole balance as its fee: included, fails, and the sender has
    nothing left. *)
Theorem C134_balance_lost_refuted t c a to b x n acc rest used keep :
  sane -> holder n a acc -> sent t c a b x -> f_to c = Some to -> a <> col ->
  w_code (s_w (nd_st n)) !! to = None -> 0 < value_of c ->
  f_gas c <> 0%N -> seq_of n a = Some (f_nonce c) ->
  exists n', deliver (node_tx b rest (refee (balance (s_w (nd_st n)) fee a) x)) used keep n = Included false n' /\
    balance (s_w (nd_st n')) fee a = 0 /\
    forall y, y <> a -> y <> col -> balance (s_w (nd_st n')) fee y = balance (s_w (nd_st n)) fee y.
Proof.
  intros Hsane Hold Hsent Hto Hac Hcode Hv Hg Hseq. set (F := balance (s_w (nd_st n)) fee a).
  assert (Hbody : call_body c n to = PStop) by (unfold call_body; by rewrite Hcode).
  assert (Hpok : prog_ok (call_body c n to)) by by rewrite Hbody.
  assert (HF : amount_ok F).
  { destruct (hy_tok _ (hd_ok _ _ _ Hold)) as (tk & Htk & Hok & _). unfold F, balance. unfold is_token in Htk. rewrite Htk. pose proof (bal_range tk a Hok). pose proof (ok_bound tk Hok). unfold amount_ok. lia. }
  assert (Hne : deliver (node_tx b rest (refee F x)) used keep n <> Refused) by by eapply C134_included_iff.
  destruct (deliver (node_tx b rest (refee F x)) used keep n) as [|[|] n'] eqn:Hdl; [done| |].
  - exfalso.
    assert (Heth : eth (is_blocked E (s_w (nd_st n))) (outer to (value_of c) (call_body c n to)) a (pay (before n) a col F) = (Told, false, pay (before n) a col F)).
    { rewrite Hbody. unfold outer. cbn [eth]. rewrite decide_True; [done|]. split; [lia|]. simpl. rewrite (bool_decide_eq_true_2 (a = a)), (bool_decide_eq_false_2 (a = col)) by done. unfold F. lia. }
    destruct (C134_effects t c a to b x n acc F rest used keep true n' Hsane Hold Hsent HF Hto Hpok Hdl) as (g & l & bk & _ & (l' & Hl' & _) & _).
    { unfold catches_none. by rewrite Heth. }
    by rewrite Heth in Hl'.
  - exists n'. split; [done|].
    destruct (C134_effects t c a to b x n acc F rest used keep false n' Hsane Hold Hsent HF Hto Hpok Hdl) as [(G1 & _) _].
    split.
    + rewrite G1. simpl. rewrite (bool_decide_eq_true_2 (a = a)), (bool_decide_eq_false_2 (a = col)) by done. unfold F. lia.
    + intros y H1 H2. rewrite G1. simpl. rewrite (bool_decide_eq_false_2 (y = a)), (bool_decide_eq_false_2 (y = col)) by done. lia.
Qed.
(** ** C119: histories *)
(** An account that does not exist cannot send. *)
Lemma no_account t c a b x rest n used keep : sane -> sent t c a b x -> acct_of n a = None ->
  deliver (node_tx b rest x) used keep n = Refused.
Proof.
  intros Hsane Hsent Ha. unfold EthDeliver.deliver, EthDeliver.run_tx, EthDeliver.ante.
  destruct (_ =? 0)%N; [done|]. destruct (head _) as [payer|]; [|done]. cbn [mbind option_bind].
  destruct (pay_fee _ _ _ _) as [w1|]; [|done]. cbn [mbind option_bind].
  destruct (x_is t c a b x Hsent) as (sb & Hx).
  assert (sigs (nd_accs (sync n)) (node_tx b rest x) = None) as ->; [|done].
  unfold ante_sigs. rewrite Hx. cbn [wire c_sigs c_msgs c_memo c_fee c_gas map s_data s_seq v_sigs v_signers].
  rewrite (se_key _ _ _ _ _ Hsent). cbn [length]. rewrite bool_decide_eq_true_2 by done. cbn [negb zip zip_with set_keys v_key].
  rewrite (se_key _ _ _ _ _ Hsent), bool_decide_eq_true_2 by done. cbn [negb].
  rewrite sync_lookup, Ha. done.
Qed.

(** One wallet transaction: what was signed, what the node made of it, what it used, and whether
    the post handler's writes are kept if it fails. *)
Record item := Item { i_tx : eth_tx; i_com : common_fields; i_from : bytes; i_key : bytes;
  i_cosmos : cosmos_tx; i_rest : bytes; i_used : option N; i_keep : bool }.
(** the contract it calls or makes, and the code that runs *)
Notation i_to i := (target (i_com i) (i_from i)).
Notation i_made i := (made (i_com i) (i_from i)).
Definition i_code (i : item) : prog :=
  match f_to (i_com i) with Some to => code_at to (f_data (i_com i)) | None => init_of (i_to i) (f_data (i_com i)) end.
Definition item_ok (i : item) : Prop :=
  sent (i_tx i) (i_com i) (i_from i) (i_key i) (i_cosmos i) /\ prog_ok (i_code i) /\
  (f_to (i_com i) = None -> not_destroyed (i_to i) (i_to i) (i_code i) /\ never_catches (i_code i)).
Definition receive (n : node) (i : item) : receipt := deliver (node_tx (i_key i) (i_rest i) (i_cosmos i)) (i_used i) (i_keep i) n.
Definition node_after (n : node) (r : receipt) : node := match r with Refused => n | Included _ n' => n' end.
Fixpoint history (l : list item) (n : node) : list receipt * node :=
  match l with
  | [] => ([], n)
  | i :: l' => let r := receive n i in let '(rs, n') := history l' (node_after n r) in (r :: rs, n')
  end.
(** The chain before the history: the token in order, and no sender with an unusual key. *)
Definition ready (l : list item) (n : node) : Prop :=
  healthy n /\ forall i v, i ∈ l -> acct_of n (i_from i) = Some v -> ordinary v.
Definition included (r : receipt) : bool := match r with Refused => false | Included _ _ => true end.
Definition success (r : receipt) : bool := match r with Included true _ => true | _ => false end.
(** how many of [y]'s transactions have a receipt with [f] *)
Fixpoint count (f : receipt -> bool) (y : bytes) (l : list item) (rs : list receipt) : N :=
  match l, rs with
  | i :: l', r :: rs' => ((if bool_decide (i_from i = y) && f r then 1 else 0) + count f y l' rs')%N
  | _, _ => 0%N
  end.

(** the contract it made *)
Definition made_by (i : item) (r : receipt) : option bytes := match r with Included true _ => i_made i | _ => None end.
(** What one transaction does to the invariant. *)
Definition one_step (n n' : node) (i : item) (r : receipt) : Prop :=
  healthy n' /\ (forall k, supply (s_w (nd_st n')) k <= supply (s_w (nd_st n)) k /\
                     (k <> fee \/ never_catches (i_code i) -> supply (s_w (nd_st n')) k = supply (s_w (nd_st n)) k)) /\
  (forall k y, k <> fee -> balance (s_w (nd_st n')) k y = balance (s_w (nd_st n)) k y) /\
  others_kept n (i_from i) (made_by i r) n' /\
  (forall k, has_code n' k = has_code n k || bool_decide (made_by i r = Some k)) /\
  (forall y, made_by i r = Some y ->
     y <> i_from i /\ has_code n y = false /\ (forall s, seq_of n y = Some s -> s = 0%N) /\ exists k, acct_of n' y = Some (VAcc None 1 k) /\ forall v, acct_of n y = Some v -> k = a_num v /\ a_key v = None) /\
  match acct_of n (i_from i) with
  | None => r = Refused /\ n' = n
  | Some v => exists v', acct_of n' (i_from i) = Some v' /\ (ordinary v -> ordinary v') /\
      a_num v' = a_num v /\ (forall b, a_key v = Some b -> a_key v' = Some b) /\
      match r with
      | Refused => n' = n
      | Included true _ => f_nonce (i_com i) = a_seq v /\ a_seq v' = (a_seq v + 1)%N
      | Included false _ => f_nonce (i_com i) = a_seq v /\ (a_seq v' = a_seq v \/ a_seq v' = (a_seq v + 1)%N)
      end
  end.
Lemma others_kept_refl n a : others_kept n a None n.
Proof. intros y _ _. destruct (acct_of n y); [done|by left]. Qed.
Lemma body_ok i n : prog_ok (i_code i) -> prog_ok (body_of (i_com i) (i_from i) n).
Proof. unfold i_code, body_of, call_body. destruct (f_to (i_com i)) as [to|]; [|done]. by destruct (w_code _ !! to). Qed.
Lemma never_smooth i n : never_catches (i_code i) -> smooth (i_tx i) (i_com i) (i_from i) n.
Proof.
  intros Hc. unfold smooth, smooth_from. apply eth_told. split; [|done].
  unfold i_code in Hc. unfold body_of, call_body. destruct (f_to (i_com i)) as [to|]; [|done]. by destruct (w_code _ !! to).
Qed.
Lemma item_smooth i n : item_ok i -> made (i_com i) (i_from i) <> None -> smooth (i_tx i) (i_com i) (i_from i) n.
Proof. intros (_ & _ & H) Hm. apply never_smooth, H. unfold made in Hm. by destruct (f_to (i_com i)). Qed.
Lemma receive_step n i : sane -> ready [i] n -> item_ok i ->
  one_step n (node_after n (receive n i)) i (receive n i).
Proof.
  intros Hsane [Hh Hk] Hiok. pose proof Hiok as (Hsent & Hp & _). unfold one_step, receive.
  destruct (acct_of n (i_from i)) as [v|] eqn:Ev.
  2:{ rewrite (no_account _ _ _ _ _ _ _ _ _ Hsane Hsent Ev). cbn [node_after]. split_and!; try done; [apply others_kept_refl|].
      intros k; by rewrite orb_false_r. }
  assert (Hold : holder n (i_from i) v) by (split; [done|done|apply (Hk i); [by apply elem_of_list_singleton|done]]).
  assert (Hp' : prog_ok (body_of (i_com i) (i_from i) n)) by by apply body_ok.
  pose proof (C117_included_iff _ _ _ _ _ (i_rest i) n v (i_used i) (i_keep i) Hsane Hold Hsent) as Hinc.
  pose proof (fun ok n' => effects_both _ _ _ _ _ (i_rest i) n v (i_used i) (i_keep i) ok n' Hsane Hold Hsent Hp') as Heff.
  destruct (deliver _ _ _ n) as [|ok n'] eqn:Hd; cbn [node_after].
  - split_and!; try done; [apply others_kept_refl|intros k; by rewrite orb_false_r|]. exists v. by split_and!.
  - destruct Hinc as [Hinc _]. destruct (Hinc ltac:(done)) as (_ & Hseq & _).
    assert (Hn : f_nonce (i_com i) = a_seq v).
    { unfold seq_of in Hseq. rewrite Ev in Hseq. cbn in Hseq. congruence. }
    assert (Hord : forall s, ordinary v -> ordinary (acct_after (i_key i) v s)).
    { intros s. unfold ordinary, acct_after. cbn [a_key]. by destruct (a_key v). }
    specialize (Heff ok n' eq_refl). cbv zeta in Heff. destruct ok.
    + destruct Heff as (g & _ & Hal & _ & _ & Ha & Hmk & Hw).
      destruct (Hw (item_smooth i n Hiok)) as (sup & l' & Hsup & (G1 & G2 & G3 & G4 & G5 & G6 & G7 & G8) & _ & Htold & _).
      split_and!; try done.
      { intros k. rewrite G4. destruct (decide (k = fee)) as [->|Hkf]; [|done]. split; [done|]. intros [?|Hc]; [done|]. by destruct (Htold (never_smooth i n Hc)). }
      { intros y Hy. destruct (Hmk y Hy) as (H1 & H2). split; [done|].
        unfold made_by, made in Hy. unfold allowed in Hal. destruct (f_to (i_com i)); [done|]. injection Hy as <-.
        destruct Hal as (_ & Hc & Hs & _). split; [unfold has_code; by rewrite Hc|]. split; [|destruct H2 as (k & Hk1 & Hk2); exists k; split; [done|]; intros v0 Hv0; split; [by apply Hk2|by apply Hs]].
        intros s Hs'. unfold seq_of in Hs'. destruct (acct_of n (create_addr (i_from i) (f_nonce (i_com i)))) as [v0|]; [|done].
        cbn in Hs'. injection Hs' as <-. by apply Hs. }
      eexists. split; [exact Ha|]. split; [apply Hord|]. split; [done|]. split; [intros ? Hk'; cbn; by rewrite Hk'|]. split; [done|]. cbn. by rewrite Hn.
    + destruct Heff as (Haf & Ha). pose proof (after_supply _ _ _ _ _ Haf) as Hs. destruct Haf as (G1 & G2 & G3 & _ & G5 & G6 & G7 & G8).
      split_and!; try done; [intros k; by rewrite Hs|]. destruct Ha as [Ha | Ha].
      * eexists. split; [exact Ha|]. split; [apply Hord|]. split; [done|]. split; [intros ? Hk'; cbn; by rewrite Hk'|]. split; [done|]. left. by cbn.
      * eexists. split; [exact Ha|]. split; [apply Hord|]. split; [done|]. split; [intros ? Hk'; cbn; by rewrite Hk'|]. split; [done|]. right. cbn. by rewrite Hn.
Qed.
Lemma ready_step l n n' i r : ready (i :: l) n -> one_step n n' i r -> ready l n'.
Proof.
  intros [Hh Hk] (H1 & _ & _ & Hoth & _ & Hmk & Ha). split; [done|]. intros j v Hj Hv.
  destruct (decide (i_from j = i_from i)) as [Heq|Hne].
  - rewrite Heq in Hv. destruct (acct_of n (i_from i)) as [u|] eqn:Eu.
    + destruct Ha as (v' & Hv' & Ho & _). rewrite Hv in Hv'. injection Hv' as <-. apply Ho, (Hk i); [by left|done].
    + destruct Ha as [_ ->]. congruence.
  - destruct (decide (made_by i r = Some (i_from j))) as [Hm|Hm].
    { destruct (Hmk _ Hm) as (_ & _ & _ & k & Hk' & _). rewrite Hv in Hk'. by injection Hk' as ->. }
    specialize (Hoth _ Hne (fun H => Hm (eq_sym H))). destruct (acct_of n (i_from j)) as [u|] eqn:Eu.
    + rewrite Hv in Hoth. injection Hoth as <-. apply (Hk j); [by right|done].
    + destruct Hoth as [Ho | (num & Ho)]; rewrite Hv in Ho; [done|]. by injection Ho as ->.
Qed.
Lemma ready_one l n i : ready (i :: l) n -> ready [i] n.
Proof. intros [Hh Hk]. split; [done|]. intros j v Hj. apply (Hk j). apply elem_of_list_singleton in Hj. subst. by left. Qed.

(** Whatever wallets send, in any order and with any outcome: no supply grows, and none changes if
    no code catches failures; no other token moves, the books stay in order. *)
Theorem C119_conserved l n rs n' : sane -> ready l n -> Forall item_ok l -> history l n = (rs, n') ->
  healthy n' /\
  (forall k, supply (s_w (nd_st n')) k <= supply (s_w (nd_st n)) k) /\
  (Forall (fun i => never_catches (i_code i)) l -> forall k, supply (s_w (nd_st n')) k = supply (s_w (nd_st n)) k) /\
  (forall k, k <> fee -> supply (s_w (nd_st n')) k = supply (s_w (nd_st n)) k) /\
  (forall k y, k <> fee -> balance (s_w (nd_st n')) k y = balance (s_w (nd_st n)) k y) /\
  (forall y, 0 <= balance (s_w (nd_st n')) fee y).
Proof.
  intros Hsane. revert n rs. induction l as [|i l IH]; intros n rs Hr Hl Hh; cbn [history] in Hh.
  - injection Hh as <- <-. destruct Hr as [Hh _]. split_and!; try done. intros y.
    destruct (hy_tok _ Hh) as (t & Ht & Hok & _). unfold balance. unfold is_token in Ht. rewrite Ht. by apply bal_range.
  - apply Forall_cons in Hl as [Hi Hl]. pose proof (receive_step n i Hsane (ready_one _ _ _ Hr) Hi) as H1.
    destruct (history l (node_after n (receive n i))) as [rs' n''] eqn:Hh'. injection Hh as <- <-.
    destruct (IH _ _ (ready_step _ _ _ _ _ Hr H1) Hl Hh') as (G1 & G2 & G2' & G2'' & G3 & G4). destruct H1 as (_ & F2 & F3 & _).
    split; [done|]. split; [intros k; etransitivity; [apply G2|apply F2]|].
    split; [intros Hc k; apply Forall_cons in Hc as [Hc Hcl]; rewrite (G2' Hcl); apply F2; by right|].
    split; [intros k Hk; rewrite G2'' by done; apply F2; by left|].
    split; [intros k y Hk; by rewrite G3, F3|done].
Qed.
(** how many contracts were made at [y] *)
Fixpoint made_at (y : bytes) (l : list item) (rs : list receipt) : N :=
  match l, rs with
  | i :: l', r :: rs' => ((if bool_decide (made_by i r = Some y) then 1 else 0) + made_at y l' rs')%N
  | _, _ => 0%N
  end.
(** Nonces: an account's nonce moves by at least the number of its successful transactions and
    at most the number of its transactions in blocks (and by one if the account becomes a
    contract); it never goes back. *)
Theorem C119_nonces l n rs n' y s : sane -> ready l n -> Forall item_ok l -> history l n = (rs, n') ->
  seq_of n y = Some s ->
  exists s', seq_of n' y = Some s' /\ (s + count success y l rs <= s' <= s + count included y l rs + made_at y l rs)%N.
Proof.
  intros Hsane. revert n rs s. induction l as [|i l IH]; intros n rs s Hr Hl Hh Hs; cbn [history] in Hh.
  - injection Hh as <- <-. exists s. split; [done|]. cbn. lia.
  - apply Forall_cons in Hl as [Hi Hl]. pose proof (receive_step n i Hsane (ready_one _ _ _ Hr) Hi) as H1.
    destruct (history l (node_after n (receive n i))) as [rs' n''] eqn:Hh'. injection Hh as <- <-.
    pose proof (ready_step _ _ _ _ _ Hr H1) as Hr'. destruct H1 as (_ & _ & _ & Hoth & _ & Hmk & Ha).
    cbn [count made_at]. unfold seq_of in Hs. destruct (acct_of n y) as [v|] eqn:Ev; [|done]. cbn in Hs. injection Hs as <-.
    destruct (decide (i_from i = y)) as [Heq|Hne].
    + rewrite Heq, Ev in Ha. destruct Ha as (v' & Hv' & _ & _ & _ & Hrc).
      destruct (IH _ _ (a_seq v') Hr' Hl Hh') as (s' & Hs' & Hb); [unfold seq_of; by rewrite Hv'|].
      exists s'. split; [done|]. rewrite (bool_decide_eq_true_2 (i_from i = y)) by done. cbn [andb].
      destruct (receive n i) as [|[|] n1]; cbn [success included node_after] in *.
      * subst. rewrite Hv' in Ev. injection Ev as ->. lia.
      * lia.
      * lia.
    + rewrite (bool_decide_eq_false_2 (i_from i = y)) by done. cbn [andb].
      destruct (decide (made_by i (receive n i) = Some y)) as [Hm|Hm].
      * destruct (Hmk _ Hm) as (_ & _ & Hz & k & Hk' & _). unfold seq_of in Hz. rewrite Ev in Hz. specialize (Hz _ eq_refl). cbn in Hz.
        destruct (IH _ _ 1%N Hr' Hl Hh') as (s' & Hs' & Hb); [unfold seq_of; by rewrite Hk'|].
        exists s'. split; [done|]. rewrite (bool_decide_eq_true_2 (made_by i (receive n i) = Some y)) by done. lia.
      * specialize (Hoth y ltac:(done) (fun H => Hm (eq_sym H))). rewrite Ev in Hoth.
        destruct (IH _ _ (a_seq v) Hr' Hl Hh') as (s' & Hs' & Hb); [unfold seq_of; by rewrite Hoth|].
        exists s'. split; [done|]. rewrite (bool_decide_eq_false_2 (made_by i (receive n i) = Some y)) by done. lia.
Qed.
(** Identity: over any history an account keeps its number, and its key once it has one. *)
Theorem C119_identity l n rs n' y v : sane -> ready l n -> Forall item_ok l -> history l n = (rs, n') ->
  acct_of n y = Some v ->
  exists v', acct_of n' y = Some v' /\ a_num v' = a_num v /\ (forall b, a_key v = Some b -> a_key v' = Some b).
Proof.
  intros Hsane. revert n rs v. induction l as [|i l IH]; intros n rs v Hr Hl Hh Ev; cbn [history] in Hh.
  - injection Hh as <- <-. by exists v.
  - apply Forall_cons in Hl as [Hi Hl]. pose proof (receive_step n i Hsane (ready_one _ _ _ Hr) Hi) as H1.
    destruct (history l (node_after n (receive n i))) as [rs' n''] eqn:Hh'. injection Hh as <- <-.
    pose proof (ready_step _ _ _ _ _ Hr H1) as Hr'. destruct H1 as (_ & _ & _ & Hoth & _ & Hmk & Ha).
    assert (exists v1, acct_of (node_after n (receive n i)) y = Some v1 /\ a_num v1 = a_num v /\ (forall b, a_key v = Some b -> a_key v1 = Some b))
      as (v1 & Hv1 & Hn1 & Hk1).
    { destruct (decide (i_from i = y)) as [Heq|Hne].
      - rewrite Heq, Ev in Ha. destruct Ha as (v' & Hv' & _ & Hn & Hk & _). by exists v'.
      - destruct (decide (made_by i (receive n i) = Some y)) as [Hm|Hm].
        + destruct (Hmk _ Hm) as (_ & _ & _ & k & Hk' & Hv). destruct (Hv _ Ev) as [-> Hnone]. eexists. split; [exact Hk'|]. split; [done|]. by rewrite Hnone.
        + specialize (Hoth y ltac:(done) (fun H => Hm (eq_sym H))). rewrite Ev in Hoth. by exists v. }
    destruct (IH _ _ v1 Hr' Hl Hh' Hv1) as (v' & H1 & H2 & H3). exists v'. split; [done|]. split; [congruence|]. intros b Hb. by apply H3, Hk1.
Qed.
Lemma seq_kept l n rs n' y s : sane -> ready l n -> Forall item_ok l -> history l n = (rs, n') ->
  seq_of n y = Some s -> exists s', seq_of n' y = Some s' /\ (s <= s')%N.
Proof. intros H1 H2 H3 H4 H5. destruct (C119_nonces _ _ _ _ _ _ H1 H2 H3 H4 H5) as (s' & ? & ?). exists s'. split; [done|lia]. Qed.
(** Code: after any history there is code exactly where it was before and at the contracts made;
    no address gets a contract twice, and none that had code before. *)
Theorem C120_code l n rs n' k : sane -> ready l n -> Forall item_ok l -> history l n = (rs, n') ->
  has_code n' k = has_code n k || (0 <? made_at k l rs)%N /\
  (made_at k l rs <= if has_code n k then 0 else 1)%N.
Proof.
  intros Hsane. revert n rs. induction l as [|i l IH]; intros n rs Hr Hl Hh; cbn [history] in Hh.
  - injection Hh as <- <-. cbn. rewrite orb_false_r. split; [done|]. destruct (has_code n k); lia.
  - apply Forall_cons in Hl as [Hi Hl]. pose proof (receive_step n i Hsane (ready_one _ _ _ Hr) Hi) as H1.
    destruct (history l (node_after n (receive n i))) as [rs' n''] eqn:Hh'. injection Hh as <- <-.
    destruct (IH _ _ (ready_step _ _ _ _ _ Hr H1) Hl Hh') as [G1 G2]. destruct H1 as (_ & _ & _ & _ & Hc & Hmk & _).
    rewrite Hc in G1, G2. cbn [made_at]. destruct (decide (made_by i (receive n i) = Some k)) as [Hm|Hm].
    + rewrite (bool_decide_eq_true_2 (made_by i (receive n i) = Some k)) in * by done. rewrite orb_true_r in G1, G2.
      destruct (Hmk _ Hm) as (_ & Hn & _). rewrite Hn. rewrite G1. destruct (N.ltb_spec 0 (1 + made_at k l rs')); [|lia]. split; [done|]. lia.
    + rewrite (bool_decide_eq_false_2 (made_by i (receive n i) = Some k)) in * by done. rewrite orb_false_r in G1, G2.
      rewrite N.add_0_l. done.
Qed.
(** Once past, a nonce is never taken again. *)
Lemma past_refused l n rs n' y s : sane -> ready l n -> Forall item_ok l -> history l n = (rs, n') ->
  seq_of n y = Some s -> forall q j, l !! q = Some j -> i_from j = y -> (f_nonce (i_com j) < s)%N -> rs !! q = Some Refused.
Proof.
  intros Hsane. revert n rs s. induction l as [|i l IH]; intros n rs s Hr Hl Hh Hs q j Hq Hj Hlt; [done|].
  cbn [history] in Hh. pose proof Hl as Hl0. apply Forall_cons in Hl as [Hi Hl].
  pose proof (receive_step n i Hsane (ready_one _ _ _ Hr) Hi) as H1.
  destruct (history l (node_after n (receive n i))) as [rs' n''] eqn:Hh'. injection Hh as <- <-.
  pose proof (ready_step _ _ _ _ _ Hr H1) as Hr'.
  destruct q as [|q]; cbn in Hq |- *.
  - injection Hq as ->. f_equal. destruct H1 as (_ & _ & _ & _ & _ & _ & Ha). subst y.
    unfold seq_of in Hs. destruct (acct_of n (i_from j)) as [v|]; [|done]. injection Hs as <-.
    destruct Ha as (v' & _ & _ & _ & _ & Hrc). destruct (receive n j) as [|[|] n1]; [done| |]; destruct Hrc as [He _]; cbn in Hlt; lia.
  - destruct (seq_kept [i] n [receive n i] (node_after n (receive n i)) y s Hsane) as (s' & Hs' & Hle); try done.
    { by eapply ready_one. } { by constructor. }
    apply (IH _ _ s' Hr' Hl Hh' Hs' q j Hq Hj). lia.
Qed.
(** Replay: after a transaction has succeeded, neither it nor any other transaction of its sender
    with that nonce or an earlier one is taken again, however long the history goes on. *)
Theorem C119_no_replay l n rs n' p q i j m : sane -> ready l n -> Forall item_ok l -> history l n = (rs, n') ->
  l !! p = Some i -> rs !! p = Some (Included true m) -> (p < q)%nat -> l !! q = Some j ->
  i_from j = i_from i -> (f_nonce (i_com j) <= f_nonce (i_com i))%N -> rs !! q = Some Refused.
Proof.
  intros Hsane. revert n rs p q. induction l as [|h l IH]; intros n rs p q Hr Hl Hh Hp Hok Hpq Hq Hj Hle; [done|].
  cbn [history] in Hh. apply Forall_cons in Hl as [Hi Hl].
  pose proof (receive_step n h Hsane (ready_one _ _ _ Hr) Hi) as H1.
  destruct (history l (node_after n (receive n h))) as [rs' n''] eqn:Hh'. injection Hh as <- <-.
  pose proof (ready_step _ _ _ _ _ Hr H1) as Hr'. destruct q as [|q]; [lia|]. cbn in Hq |- *.
  destruct p as [|p]; cbn in Hp, Hok.
  - injection Hp as ->. injection Hok as Hok. destruct H1 as (_ & _ & _ & _ & _ & _ & Ha). rewrite Hok in *. cbn [node_after] in *.
    destruct (acct_of n (i_from i)) as [v|]; [|by destruct Ha]. destruct Ha as (v' & Hv' & _ & Hn & Hs).
    apply (past_refused l m rs' n'' (i_from i) (a_seq v') Hsane Hr' Hl Hh') with (j := j); try done; [|lia].
    unfold seq_of. by rewrite Hv'.
  - apply (IH _ _ p q Hr' Hl Hh' Hp Hok ltac:(lia) Hq Hj Hle).
Qed.
(** The fee collector never loses, as long as no code runs in its name. *)
Theorem C119_collector_keeps l n rs n' : sane -> ready l n -> Forall item_ok l ->
  Forall (fun i => i_from i <> col /\ never_pays col (i_to i) (i_code i)) l ->
  history l n = (rs, n') -> balance (s_w (nd_st n)) fee col <= balance (s_w (nd_st n')) fee col.
Proof.
  intros Hsane. revert n rs. induction l as [|i l IH]; intros n rs Hr Hl Hc Hh; cbn [history] in Hh.
  - injection Hh as <- <-. lia.
  - apply Forall_cons in Hl as [Hi Hl]. apply Forall_cons in Hc as [[Hac Hnp] Hc].
    pose proof (receive_step n i Hsane (ready_one _ _ _ Hr) Hi) as H1.
    destruct (history l (node_after n (receive n i))) as [rs' n''] eqn:Hh'. injection Hh as <- <-.
    etransitivity; [|by apply (IH _ _ (ready_step _ _ _ _ _ Hr H1) Hl Hc Hh')].
    destruct H1 as (_ & _ & _ & _ & _ & _ & Ha). pose proof Hi as (Hsent & Hp & _).
    destruct (acct_of n (i_from i)) as [v|] eqn:Ev; [|destruct Ha as [_ ->]; lia]. clear Ha.
    assert (Hold : holder n (i_from i) v).
    { destruct Hr as [Hh Hk]. split; [done|done|]. apply (Hk i); [by left|done]. }
    assert (Hp' : prog_ok (body_of (i_com i) (i_from i) n)) by by apply body_ok.
    assert (Hnp' : never_pays col (i_to i) (body_of (i_com i) (i_from i) n)).
    { unfold i_code in Hnp. unfold body_of, call_body. destruct (f_to (i_com i)) as [to|]; [|done]. by destruct (w_code _ !! to). }
    pose proof (fun ok n' => effects_both _ _ _ _ _ (i_rest i) n v (i_used i) (i_keep i) ok n' Hsane Hold Hsent Hp') as Heff.
    pose proof (C117_included_iff _ _ _ _ _ (i_rest i) n v (i_used i) (i_keep i) Hsane Hold Hsent) as [Hinc _].
    unfold receive. destruct (deliver _ _ _ n) as [|ok n1] eqn:Hd; cbn [node_after]; [lia|].
    destruct (Hinc ltac:(done)) as (_ & _ & Hbal).
    destruct (fits _ _ _ _ _ Hsent) as [[HF _] [Hv _]]. specialize (Heff ok n1 eq_refl). cbv zeta in Heff. destruct ok.
    + destruct Heff as (g & _ & _ & Hb & _ & _ & _ & Hw).
      destruct (Hw (item_smooth i n Hi)) as (sup & l2 & _ & (G1 & _) & _ & Htold & Hbd). rewrite G1. simpl.
      rewrite (bool_decide_eq_true_2 (col = col)), (bool_decide_eq_false_2 (col = i_from i)) by done.
      destruct (made (i_com i) (i_from i)) as [ymade|] eqn:Hmade; cycle 1.
      { destruct (Hbd eq_refl) as (B1 & _). specialize (B1 col (not_eq_sym Hac) Hnp'). simpl in B1.
        rewrite (bool_decide_eq_false_2 (col = i_from i)), (bool_decide_eq_true_2 (col = col)) in B1 by done. lia. }
      destruct (Htold (item_smooth i n Hi ltac:(by rewrite Hmade))) as [_ Hl2].
      destruct (eth_keeps (is_blocked E (s_w (nd_st n))) col (outer (i_to i) (value_of (i_com i)) (body_of (i_com i) (i_from i) n)))
        with (self := i_from i) (l := pay (before n) (i_from i) col (fee_of (i_tx i) (i_com i))) as [_ Hk].
      * destruct (fits _ _ _ _ _ Hsent) as [_ Hv']. split; [done|]. split; [done|]. by intros [].
      * split; [by right|]. split; [done|]. by intros [].
      * intros y. simpl.
        assert (0 <= balance (s_w (nd_st n)) fee y) by apply (shows_pos _ _ _ _ y (shows0 _ n v Hold)).
        repeat case_bool_decide; subst; lia.
      * rewrite Hl2 in Hk. simpl in Hk. rewrite (bool_decide_eq_false_2 (col = i_from i)), (bool_decide_eq_true_2 (col = col)) in Hk by done. lia.
    + destruct Heff as ((G1 & _) & _). rewrite G1. simpl.
      rewrite (bool_decide_eq_true_2 (col = col)), (bool_decide_eq_false_2 (col = i_from i)) by done. lia.
Qed.
End props.

(** ** A chain, a holder, a transaction *)
(** Alice has 60 wei; she pays bob [v], 20 gas at 1 wei. *)
Definition y_rec (ct : content) (v : N) (r s : Z) : option bytes := Some (if r =? 77 then x_alice else x_bob).
Definition y_key (p : pubkey) : bytes := match p with KEth b => b | _ => [] end.
Definition y_tx (v : Z) : eth_tx :=
  DynamicFeeTx (eth_chain_id w_kc []) (Com 3 20 (Some x_bob) v []) 1 1 [] 1 77 99.
Definition y_com (v : Z) : common_fields := Com 3 20 (Some x_bob) v [].
(** a toy address of a new contract, different for different senders and nonces *)
Definition y_create (a : bytes) (k : N) : bytes := (k mod 256)%N :: tail a.
Definition y_node : node := Node (St x_w2 ∅ []) {[ x_alice := VAcc None 3 40 ]}.
Notation y_cosmos v := (eth_to_cosmos w_kc w_ck w_benc y_rec (fun a => a) x_stake 18 [] (y_tx v)).
Notation y_deliver := (deliver w_kc w_bdec y_rec y_key (fun _ _ _ => false) (fun _ _ _ _ _ _ => None) x_stake 18 [] 1000 500 10000
                       x_env (x_bank None) x_stake_at (fun _ _ => PStop) dec_one [] y_create (fun _ _ => PStop)).
Lemma y_sane : sane w_benc w_bdec y_rec 18 1000 10000 x_env (x_bank None) x_stake_at dec_one x_collector.
Proof.
  split; try done; try (apply x_call_ok).
  - by eexists.
  - intros ? ? r ? ? [= <-]. by destruct (r =? 77).
Qed.
Lemma y_healthy : healthy x_stake x_stake_at y_node.
Proof.
  assert (exists t, is_token x_w2 x_stake_at t /\ t_kind t = KERC20) as (t & Ht & Hk) by (eexists; split; vm_compute; reflexivity).
  apply (healthy_reachable x_stake x_env x_stake_at y_node t); [apply x_reachable, x_w2_steps|vm_compute; reflexivity|exact Ht|exact Hk].
Qed.
Lemma y_holder : holder x_stake x_stake_at y_node x_alice (VAcc None 3 40).
Proof. split; [apply y_healthy|vm_compute; reflexivity|done]. Qed.
Lemma y_sent v : v = 10 \/ v = 40 -> exists x,
  sent w_kc w_ck w_benc y_rec y_key x_stake 18 [] (y_tx v) (y_com v) x_alice x_alice x.
Proof.
  intros Hv. destruct Hv as [-> | ->]; eexists; (split; [| | | | |vm_compute; reflexivity|..]; try done).
  all: split; [split; [split; [done|]|]|]; repeat constructor; cbn; lia.
Qed.
Example C117_example :
  match y_cosmos 10 with
  | Some x => match y_deliver (wire y_key (KEth x_alice) [] x) (Some 15%N) false y_node with
      | Included true n' =>
          (* fee 21 for 20 gas, 5 gas left: 5 back *)
          balance (s_w (nd_st n')) x_stake_at x_alice = 34 /\ balance (s_w (nd_st n')) x_stake_at x_bob = 10 /\
          balance (s_w (nd_st n')) x_stake_at x_collector = 16 /\ seq_of n' x_alice = Some 4%N /\
          seq_of y_node x_bob = None /\ seq_of n' x_bob = Some 0%N
      | _ => False
      end
  | None => False
  end.
Proof. vm_compute. done. Qed.
Example C118_example :
  match y_cosmos 40 with
  | Some x => balance (s_w (nd_st y_node)) x_stake_at x_alice = 60 /\
      match y_deliver (wire y_key (KEth x_alice) [] x) (Some 15%N) true y_node with
      | Included false n' =>
          balance (s_w (nd_st n')) x_stake_at x_alice = 39 /\ balance (s_w (nd_st n')) x_stake_at x_bob = 0 /\ seq_of n' x_alice = Some 4%N
      | _ => False
      end
  | None => False
  end.
Proof. vm_compute. done. Qed.

(** Anybody sends alice's signed payment of 10 (20 gas at 1 wei, fee 21) with all her 60 as the
    fee. *)
Example C134_example :
  match y_cosmos 10 with
  | Some x => balance (s_w (nd_st y_node)) x_stake_at x_alice = 60 /\
      match y_deliver (wire y_key (KEth x_alice) [7]%N (refee x_stake 60 x)) (Some 15%N) true y_node,
            y_deliver (wire y_key (KEth x_alice) [7]%N (refee x_stake 40 x)) (Some 15%N) true y_node with
      | Included false n', Included true n'' =>
          balance (s_w (nd_st n')) x_stake_at x_alice = 0 /\ balance (s_w (nd_st n')) x_stake_at x_bob = 0 /\
          balance (s_w (nd_st n'')) x_stake_at x_alice = 20 /\ balance (s_w (nd_st n'')) x_stake_at x_bob = 10
      | _, _ => False
      end
  | None => False
  end.
Proof. vm_compute. done. Qed.
(** Alice pays bob, who had no account, 15; her transaction is sent again; bob is not rich enough to
    make a contract with value 5; alice makes one with value 2, whose constructor stores what it
    got and pays bob 1. *)
Definition y_init (self code : bytes) : prog :=
  PBalance self (fun v => PStore 7 v (PSend x_bob 1 (fun ok => if ok then PStop else PRevert))).
Definition y_bob : eth_tx := DynamicFeeTx (eth_chain_id w_kc []) (Com 0 14 None 5 []) 1 1 [] 1 78 99.
Definition y_new : eth_tx := DynamicFeeTx (eth_chain_id w_kc []) (Com 4 20 None 2 [96%N]) 1 1 [] 1 77 99.
Definition y_cosmos_of (t : eth_tx) : cosmos_tx :=
  default (CTx [] None [] [] 0) (eth_to_cosmos w_kc w_ck w_benc y_rec (fun a => a) x_stake 18 [] t).
Definition y_items : list item :=
  [ Item (y_tx 15) (y_com 15) x_alice x_alice (y_cosmos_of (y_tx 15)) [] (Some 20%N) true;
    Item (y_tx 15) (y_com 15) x_alice x_alice (y_cosmos_of (y_tx 15)) [] (Some 20%N) true;
    Item y_bob (Com 0 14 None 5 []) x_bob x_bob (y_cosmos_of y_bob) [] (Some 14%N) true;
    Item y_new (Com 4 20 None 2 [96%N]) x_alice x_alice (y_cosmos_of y_new) [] (Some 20%N) true ].
Notation y_history := (history w_kc w_bdec y_rec y_key (fun _ _ _ => false) (fun _ _ _ _ _ _ => None) x_stake 18 [] 1000 500 10000
                       x_env (x_bank None) x_stake_at (fun _ _ => PStop) dec_one [] y_create y_init).
Lemma y_items_ok : Forall (item_ok w_kc w_ck w_benc y_rec y_key x_stake 18 [] (fun _ _ => PStop) y_create y_init) y_items.
Proof.
  assert (Hsent : forall t c a k, wf_tx t -> replay_protected t -> tx_common t = Some c ->
    y_rec (hash_content (eth_chain_id w_kc []) t) 1 (snd (fst (tx_sig t))) (snd (tx_sig t)) = Some a ->
    recover_sender y_rec (eth_chain_id w_kc []) t = Some a -> a = k ->
    eth_to_cosmos w_kc w_ck w_benc y_rec (fun a => a) x_stake 18 [] t = Some (y_cosmos_of t) ->
    0 <= f_value c -> 0 <= fee_cap t -> (f_gas c < 2 ^ 63)%N -> (f_nonce c < 2 ^ 64 - 1)%N ->
    sent w_kc w_ck w_benc y_rec y_key x_stake 18 [] t c a k (y_cosmos_of t)).
  { intros. by split. }
  assert (Hwf1 : wf_tx (y_tx 15)) by (split; [split; [split; [done|]|]|]; repeat constructor; cbn; lia).
  assert (Hwf2 : wf_tx y_bob) by (split; [split|]; repeat constructor; cbn; lia).
  assert (Hwf3 : wf_tx y_new) by (split; [split|]; repeat constructor; cbn; lia).
  assert (Hi : forall self, prog_ok (y_init self [96%N]) /\ prog_ok (y_init self []) /\
     forall y, (not_destroyed y self (y_init self [96%N]) /\ never_catches (y_init self [96%N])) /\ (not_destroyed y self (y_init self []) /\ never_catches (y_init self []))).
  { intros self. cbn. split_and!; try (intros; split_and!; try done; intros []; done). intros y. split; (split; [intros x []; done|done]). }
  apply Forall_cons. split; [|apply Forall_cons; split; [|apply Forall_cons; split; [|apply Forall_cons; split; [|by apply Forall_nil]]]].
  1,2: split; [apply Hsent; [exact Hwf1|done|done|vm_compute; reflexivity|vm_compute; reflexivity|done|vm_compute; reflexivity|done..]|split; done].
  - split; [apply Hsent; [exact Hwf2|done|done|vm_compute; reflexivity|vm_compute; reflexivity|done|vm_compute; reflexivity|done..]|].
    split; [apply Hi|]. intros _. apply Hi.
  - split; [apply Hsent; [exact Hwf3|done|done|vm_compute; reflexivity|vm_compute; reflexivity|done|vm_compute; reflexivity|done..]|].
    split; [apply Hi|]. intros _. apply Hi.
Qed.
Example C119_example :
  ready x_stake x_stake_at y_items y_node /\
  let '(rs, n') := y_history y_items y_node in
  let y := y_create x_alice 4 in
  map success rs = [true; false; false; true] /\ map included rs = [true; false; true; true] /\
  balance (s_w (nd_st n')) x_stake_at x_alice = 1 /\ balance (s_w (nd_st n')) x_stake_at x_bob = 1 /\
  balance (s_w (nd_st n')) x_stake_at y = 1 /\ balance (s_w (nd_st n')) x_stake_at x_collector = 57 /\
  seq_of n' x_alice = Some 5%N /\ seq_of n' x_bob = Some 1%N /\
  has_code y_node y = false /\ has_code n' y = true /\ seq_of n' y = Some 1%N /\ s_sto (nd_st n') !! (y, 7) = Some 2.
Proof.
  split.
  - split; [apply y_healthy|]. intros i v Hi Hv.
    assert (i_from i = x_alice \/ i_from i = x_bob) as [He | He].
    { unfold y_items in Hi. rewrite !elem_of_cons, elem_of_nil in Hi. destruct Hi as [-> | [-> | [-> | [-> | []]]]]; auto. }
    + rewrite He in Hv. vm_compute in Hv. injection Hv as <-. done.
    + rewrite He in Hv. vm_compute in Hv. done.
  - vm_compute. done.
Qed.
