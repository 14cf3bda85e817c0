(** C139: a call or a contract creation signed the Cosmos way (direct, amino JSON, EIP-191, ...),
    from the signed transaction to its last effect (Model/EthDeliver.v). *)
From Verif.Base Require Import Prelude Hex.
From Verif.Model Require Import Fees EthTx SigVerify Token Bank CallTree EthDeliver.
From Verif.Spec Require Import TokenSpec CallTreeSpec WalletSpec.
From Verif.Proofs Require Import BytesP HexP EthTxP TokenP BankP TokenMore BankMore CallTreeP CallTreeAny EthDeliverP.
From Verif.Props Require Import EthTxProps FeesProps CallTreeProps EthDeliverProps.
Local Open Scope Z_scope.

Lemma hex_dec_ok n : forall t b, (length t <= n)%nat -> hex_dec t = Some b -> bytes_ok b.
Proof.
  induction n as [|n IH]; intros [|h [|l t]] b Hl H; cbn in H; try (by injection H as <-; constructor); try done.
  all: try (cbn in Hl; lia).
  destruct (unhexd h) eqn:E1; [|done]. destruct (unhexd l) eqn:E2; [|done]. cbn in H.
  destruct (hex_dec t) eqn:E3; [|done]. cbn in H. injection H as <-. apply unhexd_lt in E1, E2.
  constructor; [lia|]. eapply IH; [|exact E3]. cbn in Hl. lia.
Qed.
Lemma hexutil_decode_ok t b : hexutil_decode t = Some b -> bytes_ok b.
Proof. unfold hexutil_decode. destruct (has0x t); [|done]. by eapply hex_dec_ok. Qed.

Section props.
Variable keccak : bytes -> bytes.
Variable bech_enc : bytes -> text.
Variable bech_dec : text -> option bytes.
Variable recover_addr : content -> N -> Z -> Z -> option bytes.
Variable key_addr : pubkey -> bytes.
Variable key_verify : pubkey -> bytes -> bytes -> bool.
Variable sign_bytes : Z -> bytes -> N -> N -> pubkey -> vtx -> option bytes.
Variable fee_denom : text.
Variable decimals : Z.
Variable cid : bytes.
Variable cost_k1 cost_r1 limit : N.
Variable E : env.
Variable B : bank_env.
Variable fee : bytes.
Variable code_at : bytes -> bytes -> prog.
Variable ratio : Z.
Variable publishers : list text.
Variable create_addr : bytes -> N -> bytes.
Variable init_of : bytes -> bytes -> prog.
Variable col : bytes.
Notation sigs := (ante_sigs keccak bech_dec recover_addr key_addr key_verify sign_bytes fee_denom decimals cid cost_k1 cost_r1 false false limit).
Notation ante := (ante keccak bech_dec recover_addr key_addr key_verify sign_bytes fee_denom decimals cid cost_k1 cost_r1 limit B).
Notation deliver := (deliver keccak bech_dec recover_addr key_addr key_verify sign_bytes fee_denom decimals cid cost_k1 cost_r1 limit E B fee code_at ratio publishers create_addr init_of).
Notation exec := (exec bech_dec E fee code_at publishers create_addr init_of).
Notation sane := (sane bech_enc bech_dec recover_addr decimals cost_k1 limit E B fee ratio col).
Notation holder := (holder fee_denom fee).
Notation healthy := (healthy fee_denom fee).
Notation before := (before fee).
Notation after := (after fee_denom fee).
Notation after_but := (after_but fee_denom fee).
Notation target := (target create_addr).
Notation made := (made create_addr).
Notation body_of := (body_of code_at create_addr init_of).
Notation call_body := (call_body code_at).
Notation allowed := (allowed bech_enc publishers create_addr).

(** The message asks for what [c] describes: a call of [f_to c], or a creation, with the value (in
    units of the fee token) and the data of [c]. *)
Definition asks_for (c : common_fields) (a : bytes) (m : cmsg) : Prop :=
  match f_to c with
  | Some to => exists caddr input al, m = CCall (bech_enc a) caddr input (f_value c) al /\ wf_address to /\
       contract_address bech_dec caddr = Some to /\ hexutil_decode input = Some (f_data c)
  | None => exists code al, m = CCreate (bech_enc a) code (f_value c) al /\ hexutil_decode code = Some (f_data c)
  end.
(** [a] signed, in a mode other than the Ethereum one, a transaction with that one message, the gas
    and the sequence of [c], and the fee [F] in the fee denomination. The key may be left out
    unless the transaction carries the metadata of a converted one (see C99). MaxGasWanted of the
    SDK bounds the gas by 2^63-1. *)
Record signed (c : common_fields) (a : bytes) (k : option pubkey) (mode : Z) (sg : bytes) (F : Z) (x : vtx) : Prop := {
  si_msg : exists m, v_msgs x = [m] /\ asks_for c a m;
  si_sig : v_sigs x = [VSig k (SSingle mode sg) (f_nonce c)];
  si_signer : v_signers x = [a];
  si_mode : mode <> mode_ethereum;
  si_key : match k with Some pk => key_addr pk = a /\ ordinary (VAcc k 0 0) | None => v_memo x = None end;
  si_fee : v_fee x = if F =? 0 then [] else [(fee_denom, F)];
  si_gas : v_gas x = f_gas c;
  si_amount : amount_ok F;
  si_value : amount_ok (f_value c);
  si_max_gas : (f_gas c < 2 ^ 63)%N;
  si_nonce : (f_nonce c < 2 ^ 64 - 1)%N;
  si_len : length a = 20%nat }.
(** The key it is checked with: the one known for the account, or the one it brings. *)
Definition key_now (k : option pubkey) (acc : vacc) : option pubkey := match a_key acc with Some pk => Some pk | None => k end.
(** The modes a wallet may sign in: direct (1), textual (2), direct aux (3), legacy amino JSON (127),
    EIP-191 (191). *)
Definition wallet_modes : list Z := [1; 2; 3; 127; 191].
Lemma known_modes m : known_mode m = true <-> m ∈ wallet_modes.
Proof. unfold known_mode, wallet_modes. rewrite !orb_true_iff, !Z.eqb_eq, !elem_of_cons, elem_of_nil. tauto. Qed.
(** The signature is good for the chain, account number, sequence and content. *)
Definition checks (a : bytes) (k : option pubkey) (mode : Z) (sg : bytes) (acc : vacc) (x : vtx) : Prop :=
  exists pk m, key_now k acc = Some pk /\ mode ∈ wallet_modes /\
    sign_bytes mode a (a_num acc) (a_seq acc) pk x = Some m /\ key_verify pk m sg = true.

Section one.
Context (c : common_fields) (a : bytes) (k : option pubkey) (mode : Z) (sg : bytes) (F : Z) (x : vtx) (n : node) (acc : vacc).
Hypothesis Hsane : sane.
Hypothesis Hold : holder n a acc.
Hypothesis Hsig : signed c a k mode sg F x.
Notation w := (s_w (nd_st n)).
Notation l0 := (Ledger (balance w fee) (s_sto (nd_st n)) (s_log (nd_st n))).

Definition accs_now : vaccs := match a_key acc, k with
                               | None, Some pk => <[a := VAcc (Some pk) (a_seq acc) (a_num acc)]> (nd_accs (sync n))
                               | _, _ => nd_accs (sync n) end.
Lemma accs_now_a : accs_now !! a = Some (VAcc (key_now k acc) (a_seq acc) (a_num acc)).
Proof.
  unfold accs_now, key_now. pose proof (hd_acc _ _ _ _ _ Hold) as Ha. rewrite <- sync_lookup in Ha.
  destruct acc as [[pk|] s num]; cbn [a_key a_seq a_num] in *; [exact Ha|]. destruct k as [pk|]; [by rewrite lookup_insert|exact Ha].
Qed.
Lemma accs_now_other y : y <> a -> accs_now !! y = acct_of n y.
Proof.
  intros Hy. rewrite <- sync_lookup. unfold accs_now. destruct (a_key acc); [done|]. destruct k; [|done]. by rewrite lookup_insert_ne.
Qed.
Lemma key_ordinary pk : key_now k acc = Some pk -> match pk with KEth _ | KSecp _ => True | _ => False end.
Proof.
  pose proof (si_key _ _ _ _ _ _ _ Hsig) as Hk. pose proof (hd_key _ _ _ _ _ Hold) as Hk'. unfold key_now. unfold ordinary in *.
  destruct (a_key acc); [by intros [= <-]|]. intros ->. by destruct Hk.
Qed.
Lemma sigs_cosmos :
  (f_nonce c = a_seq acc /\ checks a k mode sg acc x -> sigs (nd_accs (sync n)) x = Some accs_now) /\
  (~ (f_nonce c = a_seq acc /\ checks a k mode sg acc x) -> sigs (nd_accs (sync n)) x = None).
Proof.
  assert (Hm : sigs (nd_accs (sync n)) x =
     match key_now k acc with
     | Some pk => if negb (f_nonce c =? a_seq acc)%N then None else
         match verify_data key_verify (fun m => sign_bytes m a (a_num acc) (a_seq acc) pk x) (SSingle mode sg) pk with ROk => Some accs_now | _ => None end
     | None => None
     end).
  { unfold ante_sigs. rewrite (si_sig _ _ _ _ _ _ _ Hsig), (si_signer _ _ _ _ _ _ _ Hsig). cbn [length].
    rewrite bool_decide_eq_true_2 by done. cbn [negb zip zip_with set_keys v_key].
    assert ((match k with
             | None => Some (nd_accs (sync n))
             | Some pk => if negb (bool_decide (key_addr pk = a)) then None else
                 acc0 ← nd_accs (sync n) !! a;
                 match a_key acc0 with Some _ => Some (nd_accs (sync n)) | None => Some (<[a := VAcc (Some pk) (a_seq acc0) (a_num acc0)]> (nd_accs (sync n))) end
             end) = Some accs_now) as ->.
    { pose proof (si_key _ _ _ _ _ _ _ Hsig) as Hk. unfold accs_now. destruct k as [pk|].
      - destruct Hk as [Hk _]. rewrite bool_decide_eq_true_2 by done. cbn [negb]. rewrite sync_lookup, (hd_acc _ _ _ _ _ Hold).
        cbn [mbind option_bind]. by destruct (a_key acc).
      - by destruct (a_key acc). }
    cbn [mbind option_bind gas_sum]. rewrite accs_now_a. cbn [mbind option_bind a_key].
    destruct (key_now k acc) as [pk|] eqn:Ek; cbn [mbind option_bind]; [|done]. cbn [v_data].
    pose proof (key_ordinary pk Ek) as Ho.
    assert (sig_gas cost_k1 cost_r1 (SSingle mode sg) pk = Some cost_k1) as -> by by destruct pk.
    cbn [mbind option_bind]. destruct (N.ltb_spec limit (cost_k1 + 0)) as [Hl|_].
    { pose proof (sn_cost _ _ _ _ _ _ _ _ _ _ _ Hsane). lia. }
    cbn [verify_all]. unfold verify_one. rewrite accs_now_a, Ek. cbn [a_key a_seq a_num v_seq v_data].
    destruct (N.eqb_spec (f_nonce c) (a_seq acc)) as [Hn|Hn]; cbn [negb]; [|done].
    unfold verify_signature. destruct (Z.eqb_spec mode mode_ethereum) as [He|_]; [by destruct (si_mode _ _ _ _ _ _ _ Hsig)|].
    by destruct (verify_data _ _ _ _). }
  rewrite Hm. clear Hm. unfold checks. pose proof key_ordinary as Ho. split.
  - intros (Hn & pk & m & Hk & Hkm & Hsb & Hv). apply known_modes in Hkm. specialize (Ho pk Hk). rewrite Hk, Hn, N.eqb_refl. cbn [negb verify_data]. rewrite Hkm, Hsb. cbn [negb].
    rewrite Hv. by destruct pk.
  - intros Hno. destruct (key_now k acc) as [pk|] eqn:Hk; [|done]. specialize (Ho pk eq_refl).
    destruct (N.eqb_spec (f_nonce c) (a_seq acc)) as [Hn|Hn]; [|done]. cbn [negb verify_data].
    destruct (known_mode mode) eqn:Hkm; [|done]. cbn [negb]. destruct (sign_bytes _ _ _ _ _ _) as [m|] eqn:Hsb; [|done].
    destruct (key_verify pk m sg) eqn:Hv; [|by destruct pk]. exfalso. apply Hno. split; [done|]. apply known_modes in Hkm. by exists pk, m.
Qed.

(** *** The same request as an Ethereum transaction
    The message server does not look at who signed, so what [exec_is] says of an Ethereum
    transaction holds for this one. The fake transaction [t]: no fee, a recovery that gives [a]. *)
Notation rec' := (fun (_ : content) (_ : N) (_ _ : Z) => Some a).
Notation ka' := (fun _ : pubkey => a).
Notation ck' := (fun (_ : bytes) (_ : nat) => false).
Definition fake_t : eth_tx := DynamicFeeTx (eth_chain_id keccak cid) c 0 0 [] 0 1 1.
Definition fake_n : node := Node (nd_st n) accs_now.
Definition fake_acc : vacc := VAcc (key_now k acc) (a_seq acc) (a_num acc).
Notation fake_x := (eth_to_cosmos keccak ck' bech_enc rec' (fun a => a) fee_denom 18 cid fake_t).
Lemma fake_cosmos : exists xf, fake_x = Some xf /\
  c_msgs xf = [match f_to c with
               | None => CCreate (bech_enc a) (hexutil_encode (f_data c)) (f_value c) []
               | Some to => CCall (bech_enc a) (address_hex ck' to) (hexutil_encode (f_data c)) (f_value c) [] end].
Proof.
  unfold fake_t, eth_to_cosmos. cbn [tx_common mbind option_bind fee_cap tip_cap tx_sig tx_al tx_type].
  assert (compute_gas_fee_amount 0 (Z.of_N (f_gas c)) 18 = 0) as -> by done.
  assert (from_ethers 18 (f_value c) = f_value c) as -> by done.
  assert (fits256 0 && fits256 (f_value c) = true) as ->.
  { pose proof (si_value _ _ _ _ _ _ _ Hsig) as Hv. unfold amount_ok, two256 in Hv. unfold fits256. apply andb_true_iff. split; [done|]. apply Z.ltb_lt. lia. }
  assert (to_ethers 18 (f_value c) = f_value c) as -> by done. rewrite Z.eqb_refl. cbn [negb].
  assert (recover_sender rec' (eth_chain_id keccak cid) (DynamicFeeTx (eth_chain_id keccak cid) c 0 0 [] 0 1 1) = Some a) as ->.
  { unfold recover_sender. rewrite Z.eqb_refl. done. }
  cbn [mbind option_bind sig_v].
  eexists. split; [reflexivity|]. cbn [c_msgs]. by destruct (f_to c).
Qed.
Lemma fake_holder : EthDeliverProps.holder fee_denom fee fake_n a fake_acc.
Proof.
  destruct Hold as [Hok Hacc Hkey]. split.
  - destruct Hok. split; done.
  - apply acct_of_accs. apply accs_now_a.
  - unfold ordinary, fake_acc. cbn [a_key]. destruct (key_now k acc) as [pk|] eqn:Ek; [|done]. apply key_ordinary in Ek. by destruct pk.
Qed.
Lemma fake_sane : EthDeliverProps.sane bech_enc bech_dec rec' 18 cost_k1 limit E B fee ratio col.
Proof. destruct Hsane. split; try done. intros _ _ _ _ p [= <-]. apply (si_len _ _ _ _ _ _ _ Hsig). Qed.
Lemma data_ok : bytes_ok (f_data c).
Proof.
  destruct (si_msg _ _ _ _ _ _ _ Hsig) as (m & _ & Ha). unfold asks_for in Ha. destruct (f_to c).
  - destruct Ha as (? & ? & ? & _ & _ & _ & Hd). by eapply hexutil_decode_ok.
  - destruct Ha as (? & ? & _ & Hd). by eapply hexutil_decode_ok.
Qed.
Lemma fake_sent : exists xf, sent keccak ck' bech_enc rec' ka' fee_denom 18 cid fake_t c a [] xf /\
  forall rest m, exec x m = exec (wire ka' (KEth []) rest xf) m.
Proof.
  destruct fake_cosmos as (xf & Hx & Hm). exists xf. destruct Hsig. split.
  - split; try done.
    + split; [|by constructor]. cbn [fake_t tx_common]. split; [|apply data_ok].
      destruct si_msg0 as (m & _ & Ha). unfold asks_for in Ha. destruct (f_to c); [|done]. by destruct Ha as (? & ? & ? & _ & Hw & _).
    + unfold fake_t, recover_sender. by rewrite Z.eqb_refl.
    + by destruct si_value0.
  - intros rest nd. unfold EthDeliver.exec. change (v_msgs (wire ka' (KEth []) rest xf)) with (c_msgs xf). rewrite Hm.
    pose proof data_ok as Hdata.
    destruct si_msg0 as (m & -> & Ha). unfold asks_for in Ha. destruct (f_to c) as [to|].
    + destruct Ha as (caddr & input & al & -> & [Hl Hb] & Hc & Hi). rewrite Hc, Hi.
      assert (contract_address bech_dec (address_hex ck' to) = Some to) as ->.
      { unfold contract_address. rewrite is_hex_address_hex by done. by rewrite hex_to_address_hex. }
      by rewrite hexutil_decode_encode.
    + destruct Ha as (code & al & -> & Hi). destruct (bech_dec (bech_enc a)) as [a'|]; [|done]. unfold exec_create.
      destruct code as [|h code]; [done|]. rewrite Hi.
      destruct (hexutil_encode (f_data c)) as [|h' tl] eqn:He; [done|]. rewrite <- He. by rewrite hexutil_decode_encode.
Qed.

(** *** The ante handler *)
Notation R := (shows E fee w (supply w fee)).
Lemma shows_start : R (nd_st n) l0.
Proof. exact (shows0 fee_denom E fee a n acc Hold). Qed.
Lemma senders_c : call_senders bech_dec x = [a].
Proof.
  pose proof (sn_bech _ _ _ _ _ _ _ _ _ _ _ Hsane a (si_len _ _ _ _ _ _ _ Hsig)) as Hb.
  destruct (si_msg _ _ _ _ _ _ _ Hsig) as (m & Hm & Ha). unfold call_senders. rewrite Hm. unfold asks_for in Ha. destruct (f_to c).
  - destruct Ha as (? & ? & ? & -> & _). by rewrite Hb.
  - destruct Ha as (? & ? & -> & _). by rewrite Hb.
Qed.
Lemma seqs_same_c : f_nonce c = a_seq acc -> ante_seqs bech_dec x accs_now = accs_now.
Proof.
  intros Hnn. unfold ante_seqs. rewrite (si_signer _ _ _ _ _ _ _ Hsig), senders_c. cbn [fold_left]. unfold prev_seq, next_seq.
  apply map_eq. intros y. destruct (decide (y = a)) as [->|Hy].
  - rewrite !lookup_alter, accs_now_a. cbn. pose proof (si_nonce _ _ _ _ _ _ _ Hsig) as Hs. rewrite Hnn in Hs. f_equal. f_equal.
    unfold u64_sub, u64, two64. rewrite (N.mod_small (a_seq acc + 1)) by lia. change (1 mod _)%N with 1%N.
    replace (a_seq acc + 1 + _ - 1)%N with (a_seq acc + 1 * 18446744073709551616)%N by lia.
    rewrite N.mod_add by done. apply N.mod_small. lia.
  - by rewrite !lookup_alter_ne.
Qed.
Definition taken_in : Prop := f_gas c <> 0%N /\ f_nonce c = a_seq acc /\ F <= balance w fee a /\ checks a k mode sg acc x.
Lemma taken_dec : taken_in \/ ~ taken_in.
Proof.
  unfold taken_in. destruct (decide (f_gas c <> 0%N)); [|tauto]. destruct (decide (f_nonce c = a_seq acc)); [|tauto].
  destruct (decide (F <= balance w fee a)); [|tauto]. unfold checks.
  destruct (key_now k acc) as [pk|]; [|right; intros (_ & _ & _ & ? & ? & ? & _); done].
  destruct (decide (mode ∈ wallet_modes)); [|right; intros (_ & _ & _ & ? & ? & _ & ? & _); done].
  destruct (sign_bytes mode a (a_num acc) (a_seq acc) pk x) as [m|] eqn:Es.
  - destruct (key_verify pk m sg) eqn:Ev.
    + left. split_and!; try done. by exists pk, m.
    + right. intros (_ & _ & _ & pk' & m' & [= <-] & _ & ? & ?). congruence.
  - right. intros (_ & _ & _ & pk' & m' & [= <-] & _ & ? & _). congruence.
Qed.
Lemma ante_cosmos :
  (taken_in -> exists w1, ante x (sync n) = Some (Node (st_world w1 (nd_st n)) accs_now) /\ R (st_world w1 (nd_st n)) (pay l0 a col F)) /\
  (~ taken_in -> ante x (sync n) = None).
Proof.
  destruct (sn_col _ _ _ _ _ _ _ _ _ _ _ Hsane) as (ps & Hcol).
  pose proof (pay_fee_shows E B fee w (supply w fee) fee_denom (sn_calls _ _ _ _ _ _ _ _ _ _ _ Hsane) (hy_den _ _ _ (hd_ok _ _ _ _ _ Hold)) col ps
     (nd_st n) l0 a x F (sn_restr _ _ _ _ _ _ _ _ _ _ _ Hsane) Hcol (sn_col20 _ _ _ _ _ _ _ _ _ _ _ Hsane) shows_start (si_len _ _ _ _ _ _ _ Hsig)
     (si_amount _ _ _ _ _ _ _ Hsig) (si_fee _ _ _ _ _ _ _ Hsig)) as Hp.
  specialize (Hp (shows_pos E fee _ _ _ _ a shows_start)). cbn [l_bal] in Hp.
  destruct sigs_cosmos as [Hyes Hno].
  unfold EthDeliver.ante. change (nd_st (sync n)) with (nd_st n). rewrite (si_gas _ _ _ _ _ _ _ Hsig), (si_signer _ _ _ _ _ _ _ Hsig).
  cbn [head mbind option_bind]. unfold taken_in. split.
  - intros (H1 & H2 & H3 & H4). destruct (N.eqb_spec (f_gas c) 0); [done|]. rewrite decide_True in Hp by done.
    destruct Hp as (w1 & -> & HR). cbn [mbind option_bind]. rewrite (Hyes (conj H2 H4)). cbn [mbind option_bind].
    rewrite seqs_same_c by done. by eexists.
  - intros Hn. destruct (N.eqb_spec (f_gas c) 0); [done|].
    destruct (decide (F <= balance w fee a)) as [Hle|Hlt].
    + destruct Hp as (w1 & -> & _). cbn [mbind option_bind]. rewrite Hno by tauto. done.
    + by rewrite Hp.
Qed.

(** *** The message *)
Notation bounded := (bounded code_at create_addr init_of).
Notation rebased := (rebased fee create_addr).
(** On the plain ledger, no failure is caught. *)
Definition smooth_run (l1 : ledger) : Prop := (eth (is_blocked E w) (outer (target c a) (f_value c) (body_of c a n)) a l1).1.1 <> CatchesFailure.
Lemma fake_accs : key_now k acc <> None -> accs1 a [] fake_n fake_acc = accs_now.
Proof.
  intros Hk. unfold accs1, fake_acc. cbn [a_key a_seq a_num]. destruct (key_now k acc); [|done].
  unfold sync, fake_n. cbn [nd_accs nd_st]. apply map_eq. intros y. rewrite lookup_union.
  destruct (decide (y = a)) as [->|Hy].
  - rewrite accs_now_a. by destruct (_ !! a).
  - rewrite accs_now_other by done. unfold acct_of. rewrite lookup_fmap. destruct (nd_accs n !! y), (w_accts w !! y); done.
Qed.
Lemma acct_fake y : y <> a -> acct_of fake_n y = acct_of n y.
Proof.
  intros Hy. unfold fake_n. unfold acct_of at 1. cbn [nd_accs nd_st]. rewrite accs_now_other by done.
  unfold acct_of. destruct (nd_accs n !! y); [done|]. by destruct (w_accts w !! y).
Qed.
Lemma allowed_fake : allowed c a fake_n <-> allowed c a n.
Proof.
  unfold EthDeliverProps.allowed. destruct (f_to c); [done|]. unfold free. cbn [nd_st fake_n].
  set (y := create_addr a (f_nonce c)). destruct (decide (y = a)) as [Hy|Hy].
  - split; intros (_ & _ & _ & _ & _ & H); done.
  - rewrite acct_fake by done. done.
Qed.
Lemma exec_cosmos s1 l1 : R s1 l1 -> l_sto l1 = s_sto (nd_st n) -> f_nonce c = a_seq acc -> key_now k acc <> None -> prog_ok (body_of c a n) ->
  match exec x (Node s1 accs_now) with
  | MsgPanic => smooth_run l1 -> allowed c a n -> (eth (is_blocked E w) (outer (target c a) (f_value c) (body_of c a n)) a l1).1.1 = PaysBlocked
  | MsgErr => smooth_run l1 -> allowed c a n -> exists l', eth (is_blocked E w) (outer (target c a) (f_value c) (body_of c a n)) a l1 = (Told, false, l')
  | MsgOk n2 => allowed c a n /\
      (forall y, Some y <> made c a -> nd_accs n2 !! y = next_seq accs_now a !! y) /\
      (forall y, made c a = Some y -> y <> a /\ exists num, nd_accs n2 !! y = Some (VAcc None 1 num) /\ forall v, acct_of n y = Some v -> num = a_num v) /\
      ((made c a <> None -> smooth_run l1) ->
       exists w0 sup l', rebased c a n w0 /\ sup <= supply w fee /\ shows E fee w0 sup (nd_st n2) l' /\
         (smooth_run l1 -> sup = supply w fee /\ eth (is_blocked E w) (outer (target c a) (f_value c) (body_of c a n)) a l1 = (Told, true, l')) /\
         (made c a = None -> bounded c a n l1 l'))
  end.
Proof.
  intros HR Hst Hn Hk Hp. destruct fake_sent as (xf & Hs & Hx). rewrite (Hx [] _).
  pose proof (exec_is keccak ck' bech_enc bech_dec rec' ka' sign_bytes fee_denom 18 cid cost_k1 limit E B fee code_at ratio publishers create_addr init_of col
    fake_t c a [] xf [] fake_n fake_acc fake_sane fake_holder Hs s1 l1 HR Hst Hn Hp) as H.
  rewrite fake_accs in H by done.
  destruct (EthDeliver.exec _ _ _ _ _ _ _ _ _) as [| |n2].
  - intros Hsm Hal. apply H; [exact Hsm|]. by apply allowed_fake.
  - intros Hsm Hal. apply H; [exact Hsm|]. by apply allowed_fake.
  - destruct H as (H1 & H2 & H3 & H4). split; [by apply allowed_fake|]. split; [exact H2|]. split.
    + intros y Hy. destruct (H3 y Hy) as (Hne & num & G1 & G2). split; [done|]. exists num. split; [done|]. intros v Hv. apply G2. by rewrite acct_fake.
    + intros Hsm. destruct (H4 Hsm) as (w0 & sup & l' & [B1 B2 B3 B4 B5] & G2 & G3 & G4 & G5). exists w0, sup, l'.
      split; [by split|]. split; [exact G2|]. split; [exact G3|]. split; [exact G4|exact G5].
Qed.
(** *** No refund *)
Lemma no_refund_cosmos g nd : refund key_addr fee_denom B ratio x g nd = Some nd.
Proof.
  unfold refund. assert (is_eth key_addr fee_denom x = Some false) as ->; [|done]. unfold is_eth.
  pose proof (si_key _ _ _ _ _ _ _ Hsig) as Hk.
  destruct (v_msgs x) as [|m [|]]; [done| |done]. destruct (v_memo x) eqn:Em; [|done]. rewrite (si_sig _ _ _ _ _ _ _ Hsig).
  destruct (negb (SigVerify.fee_ok fee_denom x)); [done|]. cbn [v_key]. destruct k as [pk|]; [|done].
  assert (is_ethereum_tx (fun a => a) fee_denom (with_key key_addr x (VSig (Some pk) (SSingle mode sg) (f_nonce c)) pk) = false) as ->.
  { unfold is_ethereum_tx, with_key. cbn [c_msgs c_memo c_sigs s_data v_data].
    assert ((mode =? mode_ethereum) = false) as -> by (apply Z.eqb_neq, (si_mode _ _ _ _ _ _ _ Hsig)).
    destruct (v_msgs x) as [|? [|]]; [done| |done]. destruct (v_memo x); [|done]. by rewrite andb_false_r. }
  by destruct m.
Qed.
End one.

(** The sender's account: its key is known from its first transaction on. *)
Definition acct_then (k : option pubkey) (acc : vacc) (s : N) : vacc := VAcc (key_now k acc) s (a_num acc).
Lemma effects_cosmos c a k mode sg F x n acc used keep ok n' :
  sane -> holder n a acc -> signed c a k mode sg F x -> prog_ok (body_of c a n) ->
  deliver x used keep n = Included ok n' ->
  let l1 := pay (before n) a col F in
  if ok then allowed c a n /\
      acct_of n' a = Some (acct_then k acc (f_nonce c + 1)%N) /\
      (forall y, made c a = Some y -> y <> a /\ exists num, acct_of n' y = Some (VAcc None 1 num) /\ forall v, acct_of n y = Some v -> num = a_num v) /\
      ((made c a <> None -> smooth_run c a n l1) ->
       exists sup l', sup <= supply (s_w (nd_st n)) fee /\ after_but n a (made c a) l' sup n' /\
         (smooth_run c a n l1 -> sup = supply (s_w (nd_st n)) fee /\
            eth (is_blocked E (s_w (nd_st n))) (outer (target c a) (f_value c) (body_of c a n)) a l1 = (Told, true, l')) /\
         (made c a = None -> bounded code_at create_addr init_of c a n l1 l'))
  else after n a None l1 n' /\
      (acct_of n' a = Some (acct_then k acc (f_nonce c)) \/ acct_of n' a = Some (acct_then k acc (f_nonce c + 1)%N)).
Proof.
  intros Hsane Hold Hsig Hp Hd l1. destruct (ante_cosmos c a k mode sg F x n acc Hsane Hold Hsig) as [Hyes Hno].
  destruct (taken_dec c a k mode sg F x n acc) as [Ha|Ha]; cycle 1.
  { unfold EthDeliver.deliver, EthDeliver.run_tx in Hd. by rewrite (Hno Ha) in Hd. }
  destruct (Hyes Ha) as (w1 & Han & HR1). unfold EthDeliver.deliver, EthDeliver.run_tx in Hd. rewrite Han in Hd.
  destruct Ha as (Hg & Hseq & HF & pk & m & Hk & _).
  pose proof (senders_c c a k mode sg F x Hsane Hsig) as Hsend.
  assert (Hkn : key_now k acc <> None) by by rewrite Hk.
  pose proof (accs_now_a c a k mode sg F x n acc Hold Hsig) as Hpk.
  pose proof (accs_now_other c a k mode sg F x n acc Hsig) as Hpo.
  assert (Hnext : next_seq (accs_now a k n acc) a !! a = Some (acct_then k acc (f_nonce c + 1)%N)).
  { unfold next_seq. rewrite lookup_alter, Hpk. cbn. f_equal. unfold acct_then. f_equal. rewrite Hseq. pose proof (si_nonce _ _ _ _ _ _ _ Hsig). unfold u64, two64. apply N.mod_small. lia. }
  assert (Hother : forall y, y <> a -> next_seq (accs_now a k n acc) a !! y = nd_accs (sync n) !! y).
  { intros y Hy. rewrite next_seq_other by done. rewrite Hpo by done. by rewrite sync_lookup. }
  assert (Hfail : Included false (Node (st_world w1 (nd_st n)) (accs_now a k n acc)) = Included ok n' ->
     ok = false /\ after n a None l1 n' /\ acct_of n' a = Some (acct_then k acc (f_nonce c))).
  { intros [= <- <-]. split; [done|]. split.
    - apply (after_shows fee_denom E fee create_addr); [apply (hd_ok _ _ _ _ _ Hold)|exact HR1|]. intros y Hy. cbn [nd_accs]. rewrite Hpo by done. by rewrite sync_lookup.
    - apply acct_of_accs. cbn [nd_accs]. rewrite Hpk, <- Hseq. done. }
  destruct used as [g|]; [|by destruct (Hfail Hd) as (-> & ? & ?); auto].
  pose proof (exec_cosmos c a k mode sg F x n acc Hsane Hold Hsig _ _ HR1 eq_refl Hseq Hkn Hp) as He.
  destruct (exec _ _) as [| |n2]; [by destruct (Hfail Hd) as (-> & ? & ?); auto| |].
  - destruct keep; [|by destruct (Hfail Hd) as (-> & ? & ?); auto].
    injection Hd as <- <-. split.
    + apply (after_shows fee_denom E fee create_addr); [apply (hd_ok _ _ _ _ _ Hold)|exact HR1|]. intros y Hy. unfold post_failed. cbn [nd_accs]. rewrite Hsend. cbn [fold_left].
      by apply Hother.
    + right. apply (acct_of_accs _ _ (acct_then k acc (f_nonce c + 1)%N)). unfold post_failed. cbn [nd_accs]. rewrite Hsend. exact Hnext.
  - destruct He as (Hal & Hacc & Hmk & Hw).
    rewrite (no_refund_cosmos c a k mode sg F x Hsig) in Hd. injection Hd as <- <-.
    split; [done|]. split; [|split].
    + apply acct_of_accs. rewrite Hacc; [exact Hnext|]. intros Hm. by destruct (Hmk a (eq_sym Hm)) as [Hne _].
    + intros y Hy. destruct (Hmk y Hy) as (Hne & num & G1 & Hnum). split; [done|]. exists num. split; [by apply acct_of_accs|done].
    + intros Hsm. destruct (Hw Hsm) as (w0 & sup & l' & Hrb & Hsup & HR2 & Htold & Hbd).
      exists sup, l'. split; [done|]. split; [|split; [exact Htold|exact Hbd]].
      eapply after_rebased; [apply (hd_ok _ _ _ _ _ Hold)|exact Hrb|exact HR2|]. intros y Hy Hm. rewrite Hacc by done. by apply Hother.
Qed.

(** ** C139 *)
(** Taken into the block exactly when it carries gas, its sequence is the account's, the account can
    pay the fee, and the signature is good for the key known for the account. *)
Theorem C139_included_iff c a k mode sg F x n acc used keep :
  sane -> holder n a acc -> signed c a k mode sg F x ->
  deliver x used keep n <> Refused <->
  f_gas c <> 0%N /\ seq_of n a = Some (f_nonce c) /\ F <= balance (s_w (nd_st n)) fee a /\ checks a k mode sg acc x.
Proof.
  intros Hsane Hold Hsig. destruct (ante_cosmos c a k mode sg F x n acc Hsane Hold Hsig) as [Hyes Hno].
  unfold seq_of. rewrite (hd_acc _ _ _ _ _ Hold). cbn [fmap option_fmap option_map].
  assert (Hacc : taken_in c a k mode sg F x n acc <-> f_gas c <> 0%N /\ Some (a_seq acc) = Some (f_nonce c) /\ F <= balance (s_w (nd_st n)) fee a /\ checks a k mode sg acc x).
  { unfold taken_in. split; intros (H1 & H2 & H3 & H4); (split; [done|]; split; [congruence|done]). }
  rewrite <- Hacc. unfold EthDeliver.deliver, EthDeliver.run_tx. split.
  - intros H. destruct (taken_dec c a k mode sg F x n acc) as [Hd|Hd]; [done|]. by rewrite (Hno Hd) in H.
  - intros H. destruct (Hyes H) as (w1 & -> & _). repeat case_match; done.
Qed.
(** Calls that come to no caught failure: the whole fee is paid and none of it comes back; a
    successful transaction makes the call and moves the sequence by one, a failed one does nothing
    else. *)
Theorem C139_effects c a to k mode sg F x n acc used keep ok n' :
  sane -> holder n a acc -> signed c a k mode sg F x -> f_to c = Some to -> prog_ok (call_body c n to) ->
  deliver x used keep n = Included ok n' ->
  let l1 := only_fee (before n) a col F in
  if ok then
      catches_none (is_blocked E (s_w (nd_st n))) (before n) a to col (f_value c) F (call_body c n to) ->
      exists l', eth (is_blocked E (s_w (nd_st n))) (outer to (f_value c) (call_body c n to)) a l1 = (Told, true, l') /\
        after n a None l' n' /\ acct_of n' a = Some (acct_then k acc (f_nonce c + 1)%N)
  else after n a None l1 n' /\
      (acct_of n' a = Some (acct_then k acc (f_nonce c)) \/ acct_of n' a = Some (acct_then k acc (f_nonce c + 1)%N)).
Proof.
  intros Hsane Hold Hsig Hto Hp Hd.
  pose proof (effects_cosmos c a k mode sg F x n acc used keep ok n' Hsane Hold Hsig) as H.
  unfold smooth_run, bounded, EthDeliverProps.body_of, EthDeliverProps.target, EthDeliverProps.made in H. rewrite Hto in H. specialize (H Hp Hd).
  cbv zeta in *. destruct ok; [|done]. intros Hcn. destruct H as (_ & H2 & _ & H4). destruct H4 as (sup & l' & _ & Haf & Htold & _); [done|].
  destruct (Htold Hcn) as [-> Hl']. by exists l'.
Qed.
(** Whatever the code does and catches: no supply grows, no other token and no other account's key
    or sequence changes, nor does any code; who does not pay does not lose, and the collector
    keeps the whole fee; a contract no code runs as keeps its storage; no log is lost. *)
Theorem C139_any c a to k mode sg F x n acc used keep n' :
  sane -> holder n a acc -> signed c a k mode sg F x -> f_to c = Some to -> prog_ok (call_body c n to) ->
  deliver x used keep n = Included true n' ->
  let body := call_body c n to in
  acct_of n' a = Some (acct_then k acc (f_nonce c + 1)%N) /\ others_kept n a None n' /\ healthy n' /\
  (forall t, supply (s_w (nd_st n')) t <= supply (s_w (nd_st n)) t) /\
  (forall t y, t <> fee -> balance (s_w (nd_st n')) t y = balance (s_w (nd_st n)) t y) /\
  (forall y, has_code n' y = has_code n y) /\
  (forall y, y <> a -> y <> col -> never_pays y to body -> balance (s_w (nd_st n)) fee y <= balance (s_w (nd_st n')) fee y) /\
  (a <> col -> never_pays col to body -> balance (s_w (nd_st n)) fee col + F <= balance (s_w (nd_st n')) fee col) /\
  (forall y, ~ runs_as y to body -> forall j, s_sto (nd_st n') !! (y, j) = s_sto (nd_st n) !! (y, j)) /\
  s_log (nd_st n) `prefix_of` s_log (nd_st n').
Proof.
  intros Hsane Hold Hsig Hto Hp Hd body.
  pose proof (effects_cosmos c a k mode sg F x n acc used keep true n' Hsane Hold Hsig) as H.
  unfold smooth_run, bounded, EthDeliverProps.body_of, EthDeliverProps.target, EthDeliverProps.made in H. rewrite Hto in H. specialize (H Hp Hd).
  cbv zeta in H. destruct H as (_ & H2 & _ & H4). destruct H4 as (sup & l' & Hsup & (G1 & G2 & G3 & G4 & G5 & G6 & G7 & G8) & _ & Hbd); [done|].
  destruct (Hbd eq_refl) as (B1 & B2 & B3). fold body in B1, B2, B3. split_and!; try done.
  - intros t. rewrite G4. by destruct (decide (t = fee)) as [->|].
  - intros y. rewrite G8. rewrite bool_decide_eq_false_2 by done. apply orb_false_r.
  - intros y Hya Hyc Hq. specialize (B1 y Hya Hq). rewrite G1. simpl in *.
    rewrite (bool_decide_eq_false_2 (y = a)), (bool_decide_eq_false_2 (y = col)) in * by done. lia.
  - intros Hac Hq. specialize (B1 col (not_eq_sym Hac) Hq). rewrite G1. simpl in *.
    rewrite (bool_decide_eq_false_2 (col = a)), (bool_decide_eq_true_2 (col = col)) in * by done. lia.
  - intros y Hq j. rewrite G2. by apply B2.
  - rewrite G3. exact B3.
Qed.
(** A creation that succeeds was allowed, made its contract at the address given by sender and
    sequence, where nothing was, and otherwise has the effects of the constructor; one that fails
    pays its fee, makes nothing and changes nothing else. *)
Theorem C139_creates c a k mode sg F x n acc used keep ok n' :
  sane -> holder n a acc -> signed c a k mode sg F x -> f_to c = None ->
  let y := create_addr a (f_nonce c) in let body := init_of y (f_data c) in
  prog_ok body -> not_destroyed y y body ->
  catches_none (is_blocked E (s_w (nd_st n))) (before n) a y col (f_value c) F body ->
  deliver x used keep n = Included ok n' ->
  let l1 := only_fee (before n) a col F in
  if ok then exists l', (publishers = [] \/ bech_enc a ∈ publishers) /\ free a n y /\
      eth (is_blocked E (s_w (nd_st n))) (outer y (f_value c) body) a l1 = (Told, true, l') /\
      after n a (Some y) l' n' /\ acct_of n' a = Some (acct_then k acc (f_nonce c + 1)%N) /\
      has_code n' y = true /\
      exists num, acct_of n' y = Some (VAcc None 1 num) /\ forall v, acct_of n y = Some v -> num = a_num v
  else after n a None l1 n' /\
      (acct_of n' a = Some (acct_then k acc (f_nonce c)) \/ acct_of n' a = Some (acct_then k acc (f_nonce c + 1)%N)).
Proof.
  intros Hsane Hold Hsig Hto y body Hp _ Hcn Hd.
  pose proof (effects_cosmos c a k mode sg F x n acc used keep ok n' Hsane Hold Hsig) as H.
  unfold smooth_run, bounded, EthDeliverProps.body_of, EthDeliverProps.target, EthDeliverProps.made, EthDeliverProps.allowed in H. rewrite Hto in H.
  fold y body in H. specialize (H Hp Hd). cbv zeta in *. destruct ok; [|done].
  destruct H as ([Ha1 Ha2] & H2 & H3 & H4). destruct H4 as (sup & l' & _ & Haf & Htold & _); [done|].
  destruct (Htold Hcn) as [-> Hl']. exists l'. do 5 (split; [done|]). split.
  - destruct Haf as (_ & _ & _ & _ & _ & _ & _ & Hc). rewrite Hc. rewrite bool_decide_eq_true_2 by done. apply orb_true_r.
  - by apply H3.
Qed.
(** It succeeds exactly when it is taken, stays within its gas, is allowed, and the call succeeds on
    the plain ledger after the fee. *)
Lemma succeeds_cosmos c a k mode sg F x n acc used keep :
  sane -> holder n a acc -> signed c a k mode sg F x -> prog_ok (body_of c a n) ->
  smooth_run c a n (only_fee (before n) a col F) ->
  (exists n', deliver x used keep n = Included true n') <->
  (f_gas c <> 0%N /\ seq_of n a = Some (f_nonce c) /\ F <= balance (s_w (nd_st n)) fee a /\ checks a k mode sg acc x) /\
  used <> None /\ allowed c a n /\
  exists l', eth (is_blocked E (s_w (nd_st n))) (outer (target c a) (f_value c) (body_of c a n)) a (only_fee (before n) a col F) = (Told, true, l').
Proof.
  intros Hsane Hold Hsig Hp Hsm. split.
  - intros (n' & Hd). split; [|split; [|]].
    + apply (C139_included_iff c a k mode sg F x n acc used keep Hsane Hold Hsig). by rewrite Hd.
    + intros ->. unfold EthDeliver.deliver, EthDeliver.run_tx in Hd. by destruct (ante _ _).
    + destruct (effects_cosmos c a k mode sg F x n acc used keep true n' Hsane Hold Hsig Hp Hd) as (H1 & _ & _ & H4).
      split; [done|]. destruct (H4 (fun _ => Hsm)) as (sup & l' & _ & _ & Ht & _). destruct (Ht Hsm) as [_ Hl]. by exists l'.
  - intros (Hin & Hu & Hal & l' & Hl'). destruct used as [g|]; [|done]. clear Hu.
    destruct (ante_cosmos c a k mode sg F x n acc Hsane Hold Hsig) as [Hyes _].
    assert (Ht : taken_in c a k mode sg F x n acc).
    { destruct Hin as (H1 & H2 & H3 & H4). unfold seq_of in H2. rewrite (hd_acc _ _ _ _ _ Hold) in H2. cbn in H2. injection H2 as H2. by split. }
    destruct (Hyes Ht) as (w1 & Han & HR). unfold EthDeliver.deliver, EthDeliver.run_tx. rewrite Han.
    destruct Ht as (_ & Hseq & _ & pk & m & Hk & _).
    pose proof (exec_cosmos c a k mode sg F x n acc Hsane Hold Hsig _ _ HR eq_refl Hseq ltac:(by rewrite Hk) Hp) as He.
    destruct (exec _ _) as [| |n2].
    + specialize (He Hsm Hal). change (Ledger (balance (s_w (nd_st n)) fee) (s_sto (nd_st n)) (s_log (nd_st n))) with (before n) in He.
      unfold only_fee in Hl'. by rewrite Hl' in He.
    + destruct (He Hsm Hal) as (? & He'). change (Ledger (balance (s_w (nd_st n)) fee) (s_sto (nd_st n)) (s_log (nd_st n))) with (before n) in He'.
      unfold only_fee in Hl'. by rewrite Hl' in He'.
    + rewrite (no_refund_cosmos c a k mode sg F x Hsig). by eexists.
Qed.
Theorem C139_succeeds_iff c a to k mode sg F x n acc used keep :
  sane -> holder n a acc -> signed c a k mode sg F x -> f_to c = Some to -> prog_ok (call_body c n to) ->
  catches_none (is_blocked E (s_w (nd_st n))) (before n) a to col (f_value c) F (call_body c n to) ->
  (exists n', deliver x used keep n = Included true n') <->
  (f_gas c <> 0%N /\ seq_of n a = Some (f_nonce c) /\ F <= balance (s_w (nd_st n)) fee a /\ checks a k mode sg acc x) /\
  used <> None /\
  exists l', eth (is_blocked E (s_w (nd_st n))) (outer to (f_value c) (call_body c n to)) a (only_fee (before n) a col F) = (Told, true, l').
Proof.
  intros Hsane Hold Hsig Hto Hp Hcn. pose proof (succeeds_cosmos c a k mode sg F x n acc used keep Hsane Hold Hsig) as H.
  unfold smooth_run, EthDeliverProps.body_of, EthDeliverProps.target, EthDeliverProps.allowed in H. rewrite Hto in H. rewrite (H Hp Hcn). tauto.
Qed.
(** Once it has succeeded it is not taken again: not now, and not after anything that leaves the
    account's sequence past its own. *)
Theorem C139_once c a k mode sg F x n acc used keep n' n2 acc2 used2 keep2 :
  sane -> holder n a acc -> signed c a k mode sg F x -> prog_ok (body_of c a n) ->
  deliver x used keep n = Included true n' ->
  holder n2 a acc2 -> (forall s, seq_of n' a = Some s -> (s <= a_seq acc2)%N) ->
  deliver x used2 keep2 n2 = Refused.
Proof.
  intros Hsane Hold Hsig Hp Hd Hold2 Hs.
  destruct (effects_cosmos c a k mode sg F x n acc used keep true n' Hsane Hold Hsig Hp Hd) as (_ & H2 & _).
  specialize (Hs (f_nonce c + 1)%N). unfold seq_of in Hs. rewrite H2 in Hs. specialize (Hs eq_refl).
  destruct (deliver x used2 keep2 n2) as [|ok n3] eqn:Hd2; [done|]. exfalso.
  assert (Hne : deliver x used2 keep2 n2 <> Refused) by by rewrite Hd2.
  apply (C139_included_iff c a k mode sg F x n2 acc2 used2 keep2 Hsane Hold2 Hsig) in Hne as (_ & Hq & _).
  unfold seq_of in Hq. rewrite (hd_acc _ _ _ _ _ Hold2) in Hq. cbn in Hq. injection Hq as Hq. lia.
Qed.
(** The same call, from the same state, at the same fee, signed either way: the same balances,
    storage, logs, code and accounts of others, but for the part of the fee that only the
    Ethereum form gets back. *)
Theorem C139_as_ethereum ck t ct a b xe rest to k mode sg x n acc g gc keep ne nc :
  sane -> holder n a acc ->
  sent keccak ck bech_enc recover_addr key_addr fee_denom decimals cid t ct a b xe -> f_to ct = Some to ->
  let c := Com (f_nonce ct) (f_gas ct) (f_to ct) (value_of decimals ct) (f_data ct) in
  let F := fee_of decimals t ct in
  signed c a k mode sg F x -> prog_ok (call_body ct n to) ->
  catches_none (is_blocked E (s_w (nd_st n))) (before n) a to col (value_of decimals ct) F (call_body ct n to) ->
  deliver (wire key_addr (KEth b) rest xe) g keep n = Included true ne ->
  deliver x gc keep n = Included true nc ->
  exists back, 0 <= back <= F /\
    (forall y, balance (s_w (nd_st ne)) fee y =
       balance (s_w (nd_st nc)) fee y - (if bool_decide (y = col) then back else 0) + (if bool_decide (y = a) then back else 0)) /\
    (forall j y, j <> fee -> balance (s_w (nd_st ne)) j y = balance (s_w (nd_st nc)) j y) /\
    (forall j, supply (s_w (nd_st ne)) j = supply (s_w (nd_st nc)) j) /\
    s_sto (nd_st ne) = s_sto (nd_st nc) /\ s_log (nd_st ne) = s_log (nd_st nc) /\
    (forall y, has_code ne y = has_code nc y) /\ seq_of ne a = seq_of nc a.
Proof.
  intros Hsane Hold Hsent Hto c F Hsig Hp Hcn He Hc.
  pose proof (C117_effects keccak ck bech_enc bech_dec recover_addr key_addr key_verify sign_bytes fee_denom decimals cid cost_k1 cost_r1 limit
    E B fee code_at ratio publishers create_addr init_of col t ct a to b xe rest n acc g keep true ne Hsane Hold Hsent Hto Hp He) as H1.
  cbv zeta in H1. destruct (H1 Hcn) as (gg & l & _ & (l' & Hl' & ->) & Hb & _ & (A1 & A2 & A3 & A4 & A5 & A6 & A7 & A8) & Aa).
  assert (Hto' : f_to c = Some to) by done.
  destruct (C139_effects c a to k mode sg F x n acc gc keep true nc Hsane Hold Hsig Hto' Hp Hc Hcn) as (l2 & Hl2 & (D1 & D2 & D3 & D4 & D5 & D6 & D7 & D8) & Da).
  change (call_body c n to) with (call_body ct n to) in Hl2. unfold only_fee in Hl2. cbn [f_value c] in Hl2. fold F in Hl'. rewrite Hl' in Hl2. injection Hl2 as <-.
  eexists. split; [exact Hb|]. split_and!.
  - intros y. rewrite A1, D1. done.
  - intros j y Hj. by rewrite A5, D5.
  - intros j. by rewrite A4, D4.
  - by rewrite A2, D2.
  - by rewrite A3, D3.
  - intros y. by rewrite A8, D8.
  - unfold seq_of. by rewrite Aa, Da.
Qed.
End props.

(** Alice (60, sequence 3) signs, directly, the payment of 10 to bob of [C117_example], with the
    same fee of 21 for 20 gas, of which she uses 15. The toy signature of a document is the document. *)
Definition k_doc (mode : Z) (a : bytes) (num seq : N) (pk : pubkey) (x : vtx) : option bytes := Some ([num; seq; v_gas x] ++ a).
Definition k_ver (pk : pubkey) (m s : bytes) : bool := bool_decide (m = s).
Definition k_tx (k : option pubkey) (mode : Z) (sg : bytes) : vtx :=
  VTx [CCall (w_benc x_alice) (address_hex w_ck x_bob) (hexutil_encode []) 10 []] None [VSig k (SSingle mode sg) 3]
      [(x_stake, 21)] 20 [x_alice] [].
Definition k_good : bytes := ([40; 3; 20] ++ x_alice)%N.
Notation k_deliver := (deliver w_kc w_bdec y_rec y_key k_ver k_doc x_stake 18 [] 1000 500 10000
                       x_env (x_bank None) x_stake_at (fun _ _ => PStop) dec_one [] y_create (fun _ _ => PStop)).
Lemma k_signed mode sg : mode <> mode_ethereum -> signed w_benc w_bdec y_key x_stake (y_com 10) x_alice (Some (KEth x_alice)) mode sg 21 (k_tx (Some (KEth x_alice)) mode sg).
Proof.
  intros Hm. split; try done.
  eexists. split; [reflexivity|]. unfold asks_for, y_com. cbn [f_to f_data f_value]. eexists _, _, _. split; [reflexivity|].
  split; [|split; by vm_compute]. split; [done|]. repeat constructor; cbn; lia.
Qed.
Lemma k_checks : checks k_ver k_doc x_alice (Some (KEth x_alice)) 1 k_good (VAcc None 3 40) (k_tx (Some (KEth x_alice)) 1 k_good).
Proof. eexists _, _. split; [reflexivity|]. split; [by left|]. by vm_compute. Qed.
Example C139_example :
  match k_deliver (k_tx (Some (KEth x_alice)) 1 k_good) (Some 15%N) false y_node with
  | Included true n' =>
      (* fee 21, nothing back; the Ethereum form of it leaves her 34 *)
      balance (s_w (nd_st n')) x_stake_at x_alice = 29 /\ balance (s_w (nd_st n')) x_stake_at x_bob = 10 /\
      balance (s_w (nd_st n')) x_stake_at x_collector = 21 /\ seq_of n' x_alice = Some 4%N /\
      k_deliver (k_tx (Some (KEth x_alice)) 1 k_good) (Some 15%N) false n' = Refused /\
      (* now the account has its key, and the transaction may leave it out *)
      (a_key <$> acct_of n' x_alice) = Some (Some (KEth x_alice))
  | _ => False
  end /\
  (* no key, a wrong signature, an unknown mode *)
  k_deliver (k_tx None 1 k_good) (Some 15%N) false y_node = Refused /\
  k_deliver (k_tx (Some (KEth x_alice)) 1 x_alice) (Some 15%N) false y_node = Refused /\
  k_deliver (k_tx (Some (KEth x_alice)) 7 k_good) (Some 15%N) false y_node = Refused.
Proof. vm_compute. done. Qed.
