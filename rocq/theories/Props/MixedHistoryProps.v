(** C140: histories of transactions of any wallet: Ethereum transactions, the same with another fee
    written into them (C134), and calls and creations signed the Cosmos way (C139), in any order. *)
From Verif.Base Require Import Prelude Hex.
From Verif.Model Require Import Fees EthTx SigVerify Token Bank CallTree EthDeliver.
From Verif.Spec Require Import TokenSpec CallTreeSpec WalletSpec.
From Verif.Proofs Require Import BytesP HexP EthTxP TokenP BankP TokenMore BankMore CallTreeP CallTreeAny EthDeliverP.
From Verif.Props Require Import EthTxProps FeesProps CallTreeProps EthDeliverProps CosmosSignedProps.
Local Open Scope Z_scope.

Section props.
Variable keccak : bytes -> bytes.
Variable ck : bytes -> nat -> bool.
Variable bech_enc : bytes -> text.
Variable bech_dec : text -> option bytes.
Variable recover_addr : content -> N -> Z -> Z -> option bytes.
Variable key_addr : pubkey -> bytes.
Variable key_verify : pubkey -> bytes -> bytes -> bool.
Variable sign_bytes : Z -> bytes -> N -> N -> pubkey -> vtx -> option bytes.
Variable fee_denom : text.
Variable decimals : Z.
Variable cid : bytes.
Variable cost_k1 cost_r1 limit : N.
Variable E : env.
Variable B : bank_env.
Variable fee : bytes.
Variable code_at : bytes -> bytes -> prog.
Variable ratio : Z.
Variable publishers : list text.
Variable create_addr : bytes -> N -> bytes.
Variable init_of : bytes -> bytes -> prog.
Variable col : bytes.
Notation sigs := (ante_sigs keccak bech_dec recover_addr key_addr key_verify sign_bytes fee_denom decimals cid cost_k1 cost_r1 false false limit).
Notation deliver := (deliver keccak bech_dec recover_addr key_addr key_verify sign_bytes fee_denom decimals cid cost_k1 cost_r1 limit E B fee code_at ratio publishers create_addr init_of).
Notation sane := (sane bech_enc bech_dec recover_addr decimals cost_k1 limit E B fee ratio col).
Notation holder := (holder fee_denom fee).
Notation healthy := (healthy fee_denom fee).
Notation before := (before fee).
Notation after_but := (after_but fee_denom fee).
Notation target := (target create_addr).
Notation made := (made create_addr).
Notation body_of := (body_of code_at create_addr init_of).
Notation call_body := (call_body code_at).
Notation allowed := (allowed bech_enc publishers create_addr).
Notation sent := (sent keccak ck bech_enc recover_addr key_addr fee_denom decimals cid).
Notation signed := (signed bech_enc bech_dec key_addr fee_denom).
Notation refee := (refee fee_denom).

(** One transaction as submitted: what is asked for (the value in units of the fee token), whose it
    is, what it used, and whether the post handler's writes are kept if it fails. *)
Record parcel := Parcel { p_tx : vtx; p_com : common_fields; p_from : bytes; p_used : option N; p_keep : bool }.
Notation p_to i := (target (p_com i) (p_from i)).
Notation p_made i := (made (p_com i) (p_from i)).
Definition p_code (i : parcel) : prog :=
  match f_to (p_com i) with Some to => code_at to (f_data (p_com i)) | None => init_of (p_to i) (f_data (p_com i)) end.
(** Signed with an Ethereum wallet, and submitted by anyone with the fee [F] written into it (that
    of the wallet included); or signed with a Cosmos wallet. *)
Definition eth_parcel (i : parcel) : Prop := exists t c b x F rest,
  sent t c (p_from i) b x /\ amount_ok F /\ p_tx i = wire key_addr (KEth b) rest (refee F x) /\
  p_com i = Com (f_nonce c) (f_gas c) (f_to c) (value_of decimals c) (f_data c).
Definition cosmos_parcel (i : parcel) : Prop := exists k mode sg F, signed (p_com i) (p_from i) k mode sg F (p_tx i).
Definition parcel_ok (i : parcel) : Prop :=
  (eth_parcel i \/ cosmos_parcel i) /\ prog_ok (p_code i) /\
  (f_to (p_com i) = None -> not_destroyed (p_to i) (p_to i) (p_code i) /\ never_catches (p_code i)).
Definition receive (n : node) (i : parcel) : receipt := deliver (p_tx i) (p_used i) (p_keep i) n.
Fixpoint history (l : list parcel) (n : node) : list receipt * node :=
  match l with
  | [] => ([], n)
  | i :: l' => let r := receive n i in let '(rs, n') := history l' (node_after n r) in (r :: rs, n')
  end.
(** The chain before the history: the token in order, and no sender with an unusual key. *)
Definition ready (l : list parcel) (n : node) : Prop :=
  healthy n /\ forall i v, i ∈ l -> acct_of n (p_from i) = Some v -> ordinary v.
(** how many of [y]'s transactions have a receipt with [f] *)
Fixpoint count (f : receipt -> bool) (y : bytes) (l : list parcel) (rs : list receipt) : N :=
  match l, rs with
  | i :: l', r :: rs' => ((if bool_decide (p_from i = y) && f r then 1 else 0) + count f y l' rs')%N
  | _, _ => 0%N
  end.
(** the contract it made *)
Definition made_by (i : parcel) (r : receipt) : option bytes := match r with Included true _ => p_made i | _ => None end.
(** What one transaction does to the invariant. *)
Definition one_step (n n' : node) (i : parcel) (r : receipt) : Prop :=
  healthy n' /\ (forall k, supply (s_w (nd_st n')) k <= supply (s_w (nd_st n)) k /\
                     (k <> fee \/ never_catches (p_code i) -> supply (s_w (nd_st n')) k = supply (s_w (nd_st n)) k)) /\
  (forall k y, k <> fee -> balance (s_w (nd_st n')) k y = balance (s_w (nd_st n)) k y) /\
  others_kept n (p_from i) (made_by i r) n' /\
  (forall k, has_code n' k = has_code n k || bool_decide (made_by i r = Some k)) /\
  (forall y, made_by i r = Some y ->
     y <> p_from i /\ has_code n y = false /\ (forall s, seq_of n y = Some s -> s = 0%N) /\ exists k, acct_of n' y = Some (VAcc None 1 k) /\ forall v, acct_of n y = Some v -> k = a_num v /\ a_key v = None) /\
  match acct_of n (p_from i) with
  | None => r = Refused /\ n' = n
  | Some v => exists v', acct_of n' (p_from i) = Some v' /\ (ordinary v -> ordinary v') /\
      a_num v' = a_num v /\ (forall b, a_key v = Some b -> a_key v' = Some b) /\
      match r with
      | Refused => n' = n
      | Included true _ => f_nonce (p_com i) = a_seq v /\ a_seq v' = (a_seq v + 1)%N
      | Included false _ => f_nonce (p_com i) = a_seq v /\ (a_seq v' = a_seq v \/ a_seq v' = (a_seq v + 1)%N)
      end
  end.

(** Any transaction, in the terms of the ledger: what it paid ([F]) and what came back. *)
Definition p_effect (n : node) (i : parcel) (acc : vacc) (ok : bool) (n' : node) : Prop :=
  exists F, 0 <= F /\ F <= balance (s_w (nd_st n)) fee (p_from i) /\ f_nonce (p_com i) = a_seq acc /\ 0 <= f_value (p_com i) /\ amount_ok (f_value (p_com i)) /\
  exists s k, (forall pk, a_key acc = Some pk -> k = Some pk) /\ ordinary (VAcc k 0 0) /\
    acct_of n' (p_from i) = Some (VAcc k s (a_num acc)) /\
  let l1 := pay (before n) (p_from i) col F in
  if ok then s = (a_seq acc + 1)%N /\ allowed (p_com i) (p_from i) n /\
      (forall y, p_made i = Some y -> y <> p_from i /\ exists num, acct_of n' y = Some (VAcc None 1 num) /\ forall v, acct_of n y = Some v -> num = a_num v) /\
      exists back sup l', 0 <= back <= F /\ sup <= supply (s_w (nd_st n)) fee /\ after_but n (p_from i) (p_made i) (pay l' col (p_from i) back) sup n' /\
         (never_catches (p_code i) -> sup = supply (s_w (nd_st n)) fee /\
            eth (is_blocked E (s_w (nd_st n))) (outer (p_to i) (f_value (p_com i)) (body_of (p_com i) (p_from i) n)) (p_from i) l1 = (Told, true, l')) /\
         (p_made i = None -> bounded code_at create_addr init_of (p_com i) (p_from i) n l1 l')
  else (s = a_seq acc \/ s = (a_seq acc + 1)%N) /\ after fee_denom fee n (p_from i) None l1 n'.
Lemma body_ok i n : prog_ok (p_code i) -> prog_ok (body_of (p_com i) (p_from i) n).
Proof. unfold p_code, EthDeliverProps.body_of, EthDeliverProps.call_body. destruct (f_to (p_com i)) as [to|]; [|done]. by destruct (w_code _ !! to). Qed.
Lemma catches_body i n : never_catches (p_code i) -> never_catches (body_of (p_com i) (p_from i) n).
Proof. unfold p_code, EthDeliverProps.body_of, EthDeliverProps.call_body. destruct (f_to (p_com i)) as [to|]; [|done]. by destruct (w_code _ !! to). Qed.
Lemma parcel_smooth i n l : never_catches (p_code i) ->
  (eth (is_blocked E (s_w (nd_st n))) (outer (p_to i) (f_value (p_com i)) (body_of (p_com i) (p_from i) n)) (p_from i) l).1.1 <> CatchesFailure.
Proof. intros Hc. apply eth_told. split; [|done]. by apply catches_body. Qed.
Lemma no_account_any i n : sane -> (eth_parcel i \/ cosmos_parcel i) -> acct_of n (p_from i) = None -> receive n i = Refused.
Proof.
  intros Hsane Hi Ha. unfold receive, EthDeliver.deliver, EthDeliver.run_tx, EthDeliver.ante.
  destruct (_ =? 0)%N; [done|]. destruct (head _) as [payer|]; [|done]. cbn [mbind option_bind].
  destruct (pay_fee _ _ _ _) as [w1|]; [|done]. cbn [mbind option_bind].
  assert (sigs (nd_accs (sync n)) (p_tx i) = None) as ->; [|done].
  destruct Hi as [(t & c & b & x & F & rest & Hsent & _ & -> & _)|(k & mode & sg & F & Hsig)].
  - destruct (x_is keccak ck bech_enc recover_addr key_addr fee_denom decimals cid t c (p_from i) b x Hsent) as (sb & Hx).
    unfold ante_sigs. rewrite Hx. cbn [wire EthDeliverProps.refee c_sigs c_msgs c_memo c_fee c_gas map s_data s_seq v_sigs v_signers].
    rewrite (se_key _ _ _ _ _ _ _ _ _ _ _ _ _ Hsent). cbn [length]. rewrite bool_decide_eq_true_2 by done. cbn [negb zip zip_with set_keys v_key].
    rewrite (se_key _ _ _ _ _ _ _ _ _ _ _ _ _ Hsent), bool_decide_eq_true_2 by done. cbn [negb].
    rewrite sync_lookup, Ha. done.
  - unfold ante_sigs. rewrite (si_sig _ _ _ _ _ _ _ _ _ _ _ Hsig), (si_signer _ _ _ _ _ _ _ _ _ _ _ Hsig). cbn [length].
    rewrite bool_decide_eq_true_2 by done. cbn [negb zip zip_with set_keys v_key].
    destruct k as [pk|].
    + destruct (negb _); [done|]. rewrite sync_lookup, Ha. done.
    + cbn [mbind option_bind gas_sum]. rewrite sync_lookup, Ha. done.
Qed.

Lemma parcel_effect i n acc ok n' : sane -> holder n (p_from i) acc -> parcel_ok i -> receive n i = Included ok n' -> p_effect n i acc ok n'.
Proof.
  intros Hsane Hold (Hi & Hp & Hcr) Hd. unfold receive in Hd.
  assert (Hne : deliver (p_tx i) (p_used i) (p_keep i) n <> Refused) by by rewrite Hd.
  pose proof (body_ok i n Hp) as Hp'.
  assert (Hsmc : p_made i <> None -> never_catches (p_code i)).
  { intros Hm. apply Hcr. unfold EthDeliverProps.made in Hm. by destruct (f_to (p_com i)). }
  destruct Hi as [(t & c & b & x & F & rest & Hsent & HF & Htx & Hcom)|(k & mode & sg & F & Hsig)].
  - rewrite Htx in Hd, Hne.
    apply (C134_included_iff keccak ck bech_enc bech_dec recover_addr key_addr key_verify sign_bytes fee_denom decimals cid cost_k1 cost_r1 limit E B fee code_at ratio publishers create_addr init_of col t c (p_from i) b x n acc F rest _ _ Hsane Hold Hsent HF) in Hne as (Hg & Hseq & Hle).
    assert (Hn : f_nonce c = a_seq acc).
    { unfold seq_of in Hseq. rewrite (hd_acc _ _ _ _ _ Hold) in Hseq. cbn in Hseq. congruence. }
    pose proof (effects_refee keccak ck bech_enc bech_dec recover_addr key_addr key_verify sign_bytes fee_denom decimals cid cost_k1 cost_r1 limit E B fee code_at ratio publishers create_addr init_of col t c (p_from i) b x n acc F rest (p_used i) (p_keep i) ok n' Hsane Hold Hsent HF) as He.
    destruct (fits keccak ck bech_enc recover_addr key_addr fee_denom decimals cid t c (p_from i) b x Hsent) as [_ Hv].
    assert (Hsm : never_catches (p_code i) -> smooth_at decimals E fee code_at create_addr init_of col c (p_from i) n F).
    { intros Hc. pose proof (parcel_smooth i n (pay (before n) (p_from i) col F) Hc) as Hs. unfold smooth_at, smooth_from. rewrite Hcom in Hs. exact Hs. }
    assert (Hmd : made c (p_from i) = p_made i) by by rewrite Hcom.
    unfold p_effect. exists F. split; [apply HF|]. split; [done|]. split; [by rewrite Hcom|]. split; [rewrite Hcom; apply Hv|]. split; [by rewrite Hcom|].
    rewrite Hcom in Hp' |- *. specialize (He Hp' Hd). rewrite <- Hmd in Hsmc.
    destruct ok.
    + destruct He as (g & _ & Hal & Hb & _ & Ha & Hmk & Hw). exists (f_nonce c + 1)%N, (Some (default (KEth b) (a_key acc))).
      split; [by intros pk ->|]. split. { pose proof (hd_key _ _ _ _ _ Hold) as Ho. unfold ordinary in *. cbn. by destruct (a_key acc) as [[]|]. }
      split; [exact Ha|]. split; [by rewrite Hn|]. split; [exact Hal|]. split; [exact Hmk|].
      destruct (Hw (fun H => Hsm (Hsmc H))) as (sup & l' & H1 & H2 & _ & H4 & H5).
      exists (back_at ratio c F g), sup, l'. split; [done|]. split; [done|]. split; [exact H2|]. split; [|exact H5].
      intros Hc. exact (H4 (Hsm Hc)).
    + destruct He as (Haf & Ha).
      assert (exists s, (s = a_seq acc \/ s = (a_seq acc + 1)%N) /\ acct_of n' (p_from i) = Some (acct_after b acc s)) as (s & Hs & Ha').
      { destruct Ha as [Ha|Ha]; eexists; (split; [|exact Ha]); rewrite Hn; auto. }
      exists s, (Some (default (KEth b) (a_key acc))). split; [by intros pk ->|].
      split. { pose proof (hd_key _ _ _ _ _ Hold) as Ho. unfold ordinary in *. cbn. by destruct (a_key acc) as [[]|]. }
      split; [exact Ha'|]. split; [done|exact Haf].
  - pose proof (proj1 (C139_included_iff keccak bech_enc bech_dec recover_addr key_addr key_verify sign_bytes fee_denom decimals cid cost_k1 cost_r1 limit E B fee code_at ratio publishers create_addr init_of col _ _ _ _ _ _ _ n acc _ _ Hsane Hold Hsig) Hne) as (Hg & Hseq & Hle & Hck).
    assert (Hn : f_nonce (p_com i) = a_seq acc).
    { unfold seq_of in Hseq. rewrite (hd_acc _ _ _ _ _ Hold) in Hseq. cbn in Hseq. congruence. }
    pose proof (effects_cosmos keccak bech_enc bech_dec recover_addr key_addr key_verify sign_bytes fee_denom decimals cid cost_k1 cost_r1 limit E B fee code_at ratio publishers create_addr init_of col _ _ _ _ _ _ _ n acc _ _ ok n' Hsane Hold Hsig Hp' Hd) as He.
    pose proof (si_value _ _ _ _ _ _ _ _ _ _ _ Hsig) as Hv. pose proof (si_amount _ _ _ _ _ _ _ _ _ _ _ Hsig) as HF.
    assert (Hord : ordinary (VAcc (key_now k acc) 0 0)).
    { destruct Hck as (pk & _ & Hk & _). rewrite Hk. pose proof (key_ordinary bech_enc bech_dec key_addr fee_denom fee _ _ _ _ _ _ _ n acc Hold Hsig pk Hk) as Ho. by destruct pk. }
    unfold p_effect. exists F. split; [apply HF|]. split; [done|]. split; [done|]. split; [apply Hv|]. split; [done|].
    cbv zeta in He. destruct ok.
    + destruct He as (Hal & Ha & Hmk & Hw). exists (f_nonce (p_com i) + 1)%N, (key_now k acc).
      split; [unfold key_now; by intros pk ->|]. split; [done|]. split; [exact Ha|]. split; [by rewrite Hn|]. split; [exact Hal|]. split; [exact Hmk|].
      destruct (Hw (fun H => parcel_smooth i n _ (Hsmc H))) as (sup & l' & H1 & H2 & H4 & H5).
      exists 0, sup, l'. split; [destruct HF; lia|]. split; [done|]. split.
      { destruct H2 as (G1 & G2 & G3 & G4). unfold EthDeliverProps.after_but. split; [|split; [exact G2|split; [exact G3|exact G4]]].
        intros y. rewrite G1. simpl. repeat case_bool_decide; lia. }
      split; [|exact H5]. intros Hc. exact (H4 (parcel_smooth i n _ Hc)).
    + destruct He as (Haf & Ha).
      assert (exists s, (s = a_seq acc \/ s = (a_seq acc + 1)%N) /\ acct_of n' (p_from i) = Some (acct_then k acc s)) as (s & Hs & Ha').
      { destruct Ha as [Ha|Ha]; eexists; (split; [|exact Ha]); rewrite Hn; auto. }
      exists s, (key_now k acc). split; [unfold key_now; by intros pk ->|]. split; [done|].
      split; [exact Ha'|]. split; [done|exact Haf].
Qed.
Lemma receive_step n i : sane -> ready [i] n -> parcel_ok i -> one_step n (node_after n (receive n i)) i (receive n i).
Proof.
  intros Hsane [Hh Hk] Hiok. unfold one_step.
  destruct (acct_of n (p_from i)) as [v|] eqn:Ev.
  2:{ rewrite (no_account_any i n Hsane (proj1 Hiok) Ev). cbn [node_after]. split_and!; try done; [intros y _ _; destruct (acct_of n y); [done|by left]|].
      intros k; by rewrite orb_false_r. }
  assert (Hold : holder n (p_from i) v) by (split; [done|done|apply (Hk i); [by apply elem_of_list_singleton|done]]).
  pose proof (fun ok n' => parcel_effect i n v ok n' Hsane Hold Hiok) as Heff.
  destruct (receive n i) as [|ok n'] eqn:Hd; cbn [node_after].
  - split_and!; try done; [intros y _ _; destruct (acct_of n y); [done|by left]|intros k; by rewrite orb_false_r|]. exists v. by split_and!.
  - destruct (Heff ok n' eq_refl) as (F & _ & _ & Hn & _ & _ & s & k & Hkeep & Hord & Ha & Hrest). cbv zeta in Hrest. destruct ok.
    + destruct Hrest as (-> & Hal & Hmk & back & sup & l' & _ & Hsup & (G1 & G2 & G3 & G4 & G5 & G6 & G7 & G8) & Htold & _).
      split_and!; try done.
      { intros j. rewrite G4. destruct (decide (j = fee)) as [->|Hkf]; [|done]. split; [done|]. intros [?|Hc]; [done|]. by destruct (Htold Hc). }
      { intros y Hy. destruct (Hmk y Hy) as (H1 & H2). split; [done|].
        unfold made_by, EthDeliverProps.made in Hy. unfold EthDeliverProps.allowed in Hal. destruct (f_to (p_com i)); [done|]. injection Hy as <-.
        destruct Hal as (_ & Hc & Hs & _). split; [unfold has_code; by rewrite Hc|]. split; [|destruct H2 as (j & Hk1 & Hk2); exists j; split; [done|]; intros v0 Hv0; split; [by apply Hk2|by apply Hs]].
        intros s Hs'. unfold seq_of in Hs'. destruct (acct_of n (create_addr (p_from i) (f_nonce (p_com i)))) as [v0|]; [|done].
        cbn in Hs'. injection Hs' as <-. by apply Hs. }
      eexists. split; [exact Ha|]. by split_and!.
    + destruct Hrest as (Hs & Haf). pose proof (after_supply _ _ _ _ _ _ _ Haf) as Hsu. destruct Haf as (G1 & G2 & G3 & _ & G5 & G6 & G7 & G8).
      split_and!; try done; [intros j; by rewrite Hsu|]. eexists. split; [exact Ha|]. by split_and!.
Qed.

(** ** C140 *)
Lemma ready_step l n n' i r : ready (i :: l) n -> one_step n n' i r -> ready l n'.
Proof.
  intros [Hh Hk] (H1 & _ & _ & Hoth & _ & Hmk & Ha). split; [done|]. intros j v Hj Hv.
  destruct (decide (p_from j = p_from i)) as [Heq|Hne].
  - rewrite Heq in Hv. destruct (acct_of n (p_from i)) as [u|] eqn:Eu.
    + destruct Ha as (v' & Hv' & Ho & _). rewrite Hv in Hv'. injection Hv' as <-. apply Ho, (Hk i); [by left|done].
    + destruct Ha as [_ ->]. congruence.
  - destruct (decide (made_by i r = Some (p_from j))) as [Hm|Hm].
    { destruct (Hmk _ Hm) as (_ & _ & _ & k & Hk' & _). rewrite Hv in Hk'. by injection Hk' as ->. }
    specialize (Hoth _ Hne (fun H => Hm (eq_sym H))). destruct (acct_of n (p_from j)) as [u|] eqn:Eu.
    + rewrite Hv in Hoth. injection Hoth as <-. apply (Hk j); [by right|done].
    + destruct Hoth as [Ho | (num & Ho)]; rewrite Hv in Ho; [done|]. by injection Ho as ->.
Qed.
Lemma ready_one l n i : ready (i :: l) n -> ready [i] n.
Proof. intros [Hh Hk]. split; [done|]. intros j v Hj. apply (Hk j). apply elem_of_list_singleton in Hj. subst. by left. Qed.

(** Whatever wallets of either kind send, in any order and with any outcome: no supply grows, and none changes if
    no code catches failures; no other token moves, the books stay in order. *)
Theorem C140_conserved l n rs n' : sane -> ready l n -> Forall parcel_ok l -> history l n = (rs, n') ->
  healthy n' /\
  (forall k, supply (s_w (nd_st n')) k <= supply (s_w (nd_st n)) k) /\
  (Forall (fun i => never_catches (p_code i)) l -> forall k, supply (s_w (nd_st n')) k = supply (s_w (nd_st n)) k) /\
  (forall k, k <> fee -> supply (s_w (nd_st n')) k = supply (s_w (nd_st n)) k) /\
  (forall k y, k <> fee -> balance (s_w (nd_st n')) k y = balance (s_w (nd_st n)) k y) /\
  (forall y, 0 <= balance (s_w (nd_st n')) fee y).
Proof.
  intros Hsane. revert n rs. induction l as [|i l IH]; intros n rs Hr Hl Hh; cbn [history] in Hh.
  - injection Hh as <- <-. destruct Hr as [Hh _]. split_and!; try done. intros y.
    destruct (hy_tok _ _ _ Hh) as (t & Ht & Hok & _). unfold balance. unfold is_token in Ht. rewrite Ht. by apply bal_range.
  - apply Forall_cons in Hl as [Hi Hl]. pose proof (receive_step n i Hsane (ready_one _ _ _ Hr) Hi) as H1.
    destruct (history l (node_after n (receive n i))) as [rs' n''] eqn:Hh'. injection Hh as <- <-.
    destruct (IH _ _ (ready_step _ _ _ _ _ Hr H1) Hl Hh') as (G1 & G2 & G2' & G2'' & G3 & G4). destruct H1 as (_ & F2 & F3 & _).
    split; [done|]. split; [intros k; etransitivity; [apply G2|apply F2]|].
    split; [intros Hc k; apply Forall_cons in Hc as [Hc Hcl]; rewrite (G2' Hcl); apply F2; by right|].
    split; [intros k Hk; rewrite G2'' by done; apply F2; by left|].
    split; [intros k y Hk; by rewrite G3, F3|done].
Qed.
(** how many contracts were made at [y] *)
Fixpoint made_at (y : bytes) (l : list parcel) (rs : list receipt) : N :=
  match l, rs with
  | i :: l', r :: rs' => ((if bool_decide (made_by i r = Some y) then 1 else 0) + made_at y l' rs')%N
  | _, _ => 0%N
  end.
(** Nonces: an account's nonce moves by at least the number of its successful transactions and
    at most the number of its transactions in blocks (and by one if the account becomes a
    contract); it never goes back. *)
Theorem C140_nonces l n rs n' y s : sane -> ready l n -> Forall parcel_ok l -> history l n = (rs, n') ->
  seq_of n y = Some s ->
  exists s', seq_of n' y = Some s' /\ (s + count success y l rs <= s' <= s + count included y l rs + made_at y l rs)%N.
Proof.
  intros Hsane. revert n rs s. induction l as [|i l IH]; intros n rs s Hr Hl Hh Hs; cbn [history] in Hh.
  - injection Hh as <- <-. exists s. split; [done|]. cbn. lia.
  - apply Forall_cons in Hl as [Hi Hl]. pose proof (receive_step n i Hsane (ready_one _ _ _ Hr) Hi) as H1.
    destruct (history l (node_after n (receive n i))) as [rs' n''] eqn:Hh'. injection Hh as <- <-.
    pose proof (ready_step _ _ _ _ _ Hr H1) as Hr'. destruct H1 as (_ & _ & _ & Hoth & _ & Hmk & Ha).
    cbn [count made_at]. unfold seq_of in Hs. destruct (acct_of n y) as [v|] eqn:Ev; [|done]. cbn in Hs. injection Hs as <-.
    destruct (decide (p_from i = y)) as [Heq|Hne].
    + rewrite Heq, Ev in Ha. destruct Ha as (v' & Hv' & _ & _ & _ & Hrc).
      destruct (IH _ _ (a_seq v') Hr' Hl Hh') as (s' & Hs' & Hb); [unfold seq_of; by rewrite Hv'|].
      exists s'. split; [done|]. rewrite (bool_decide_eq_true_2 (p_from i = y)) by done. cbn [andb].
      destruct (receive n i) as [|[|] n1]; cbn [success included node_after] in *.
      * subst. rewrite Hv' in Ev. injection Ev as ->. lia.
      * lia.
      * lia.
    + rewrite (bool_decide_eq_false_2 (p_from i = y)) by done. cbn [andb].
      destruct (decide (made_by i (receive n i) = Some y)) as [Hm|Hm].
      * destruct (Hmk _ Hm) as (_ & _ & Hz & k & Hk' & _). unfold seq_of in Hz. rewrite Ev in Hz. specialize (Hz _ eq_refl). cbn in Hz.
        destruct (IH _ _ 1%N Hr' Hl Hh') as (s' & Hs' & Hb); [unfold seq_of; by rewrite Hk'|].
        exists s'. split; [done|]. rewrite (bool_decide_eq_true_2 (made_by i (receive n i) = Some y)) by done. lia.
      * specialize (Hoth y ltac:(done) (fun H => Hm (eq_sym H))). rewrite Ev in Hoth.
        destruct (IH _ _ (a_seq v) Hr' Hl Hh') as (s' & Hs' & Hb); [unfold seq_of; by rewrite Hoth|].
        exists s'. split; [done|]. rewrite (bool_decide_eq_false_2 (made_by i (receive n i) = Some y)) by done. lia.
Qed.
(** Identity: over any history an account keeps its number, and its key once it has one. *)
Theorem C140_identity l n rs n' y v : sane -> ready l n -> Forall parcel_ok l -> history l n = (rs, n') ->
  acct_of n y = Some v ->
  exists v', acct_of n' y = Some v' /\ a_num v' = a_num v /\ (forall b, a_key v = Some b -> a_key v' = Some b).
Proof.
  intros Hsane. revert n rs v. induction l as [|i l IH]; intros n rs v Hr Hl Hh Ev; cbn [history] in Hh.
  - injection Hh as <- <-. by exists v.
  - apply Forall_cons in Hl as [Hi Hl]. pose proof (receive_step n i Hsane (ready_one _ _ _ Hr) Hi) as H1.
    destruct (history l (node_after n (receive n i))) as [rs' n''] eqn:Hh'. injection Hh as <- <-.
    pose proof (ready_step _ _ _ _ _ Hr H1) as Hr'. destruct H1 as (_ & _ & _ & Hoth & _ & Hmk & Ha).
    assert (exists v1, acct_of (node_after n (receive n i)) y = Some v1 /\ a_num v1 = a_num v /\ (forall b, a_key v = Some b -> a_key v1 = Some b))
      as (v1 & Hv1 & Hn1 & Hk1).
    { destruct (decide (p_from i = y)) as [Heq|Hne].
      - rewrite Heq, Ev in Ha. destruct Ha as (v' & Hv' & _ & Hn & Hk & _). by exists v'.
      - destruct (decide (made_by i (receive n i) = Some y)) as [Hm|Hm].
        + destruct (Hmk _ Hm) as (_ & _ & _ & k & Hk' & Hv). destruct (Hv _ Ev) as [-> Hnone]. eexists. split; [exact Hk'|]. split; [done|]. by rewrite Hnone.
        + specialize (Hoth y ltac:(done) (fun H => Hm (eq_sym H))). rewrite Ev in Hoth. by exists v. }
    destruct (IH _ _ v1 Hr' Hl Hh' Hv1) as (v' & H1 & H2 & H3). exists v'. split; [done|]. split; [congruence|]. intros b Hb. by apply H3, Hk1.
Qed.
Lemma seq_kept l n rs n' y s : sane -> ready l n -> Forall parcel_ok l -> history l n = (rs, n') ->
  seq_of n y = Some s -> exists s', seq_of n' y = Some s' /\ (s <= s')%N.
Proof. intros H1 H2 H3 H4 H5. destruct (C140_nonces _ _ _ _ _ _ H1 H2 H3 H4 H5) as (s' & ? & ?). exists s'. split; [done|lia]. Qed.
(** Code: after any history there is code exactly where it was before and at the contracts made;
    no address gets a contract twice, and none that had code before. *)
Theorem C140_code l n rs n' k : sane -> ready l n -> Forall parcel_ok l -> history l n = (rs, n') ->
  has_code n' k = has_code n k || (0 <? made_at k l rs)%N /\
  (made_at k l rs <= if has_code n k then 0 else 1)%N.
Proof.
  intros Hsane. revert n rs. induction l as [|i l IH]; intros n rs Hr Hl Hh; cbn [history] in Hh.
  - injection Hh as <- <-. cbn. rewrite orb_false_r. split; [done|]. destruct (has_code n k); lia.
  - apply Forall_cons in Hl as [Hi Hl]. pose proof (receive_step n i Hsane (ready_one _ _ _ Hr) Hi) as H1.
    destruct (history l (node_after n (receive n i))) as [rs' n''] eqn:Hh'. injection Hh as <- <-.
    destruct (IH _ _ (ready_step _ _ _ _ _ Hr H1) Hl Hh') as [G1 G2]. destruct H1 as (_ & _ & _ & _ & Hc & Hmk & _).
    rewrite Hc in G1, G2. cbn [made_at]. destruct (decide (made_by i (receive n i) = Some k)) as [Hm|Hm].
    + rewrite (bool_decide_eq_true_2 (made_by i (receive n i) = Some k)) in * by done. rewrite orb_true_r in G1, G2.
      destruct (Hmk _ Hm) as (_ & Hn & _). rewrite Hn. rewrite G1. destruct (N.ltb_spec 0 (1 + made_at k l rs')); [|lia]. split; [done|]. lia.
    + rewrite (bool_decide_eq_false_2 (made_by i (receive n i) = Some k)) in * by done. rewrite orb_false_r in G1, G2.
      rewrite N.add_0_l. done.
Qed.
(** Once past, a nonce is never taken again. *)
Lemma past_refused l n rs n' y s : sane -> ready l n -> Forall parcel_ok l -> history l n = (rs, n') ->
  seq_of n y = Some s -> forall q j, l !! q = Some j -> p_from j = y -> (f_nonce (p_com j) < s)%N -> rs !! q = Some Refused.
Proof.
  intros Hsane. revert n rs s. induction l as [|i l IH]; intros n rs s Hr Hl Hh Hs q j Hq Hj Hlt; [done|].
  cbn [history] in Hh. pose proof Hl as Hl0. apply Forall_cons in Hl as [Hi Hl].
  pose proof (receive_step n i Hsane (ready_one _ _ _ Hr) Hi) as H1.
  destruct (history l (node_after n (receive n i))) as [rs' n''] eqn:Hh'. injection Hh as <- <-.
  pose proof (ready_step _ _ _ _ _ Hr H1) as Hr'.
  destruct q as [|q]; cbn in Hq |- *.
  - injection Hq as ->. f_equal. destruct H1 as (_ & _ & _ & _ & _ & _ & Ha). subst y.
    unfold seq_of in Hs. destruct (acct_of n (p_from j)) as [v|]; [|done]. injection Hs as <-.
    destruct Ha as (v' & _ & _ & _ & _ & Hrc). destruct (receive n j) as [|[|] n1]; [done| |]; destruct Hrc as [He _]; cbn in Hlt; lia.
  - destruct (seq_kept [i] n [receive n i] (node_after n (receive n i)) y s Hsane) as (s' & Hs' & Hle); try done.
    { by eapply ready_one. } { by constructor. }
    apply (IH _ _ s' Hr' Hl Hh' Hs' q j Hq Hj). lia.
Qed.
(** Replay: after a transaction has succeeded, neither it nor any other transaction of its sender
    with that nonce or an earlier one is taken again, however long the history goes on. *)
Theorem C140_no_replay l n rs n' p q i j m : sane -> ready l n -> Forall parcel_ok l -> history l n = (rs, n') ->
  l !! p = Some i -> rs !! p = Some (Included true m) -> (p < q)%nat -> l !! q = Some j ->
  p_from j = p_from i -> (f_nonce (p_com j) <= f_nonce (p_com i))%N -> rs !! q = Some Refused.
Proof.
  intros Hsane. revert n rs p q. induction l as [|h l IH]; intros n rs p q Hr Hl Hh Hp Hok Hpq Hq Hj Hle; [done|].
  cbn [history] in Hh. apply Forall_cons in Hl as [Hi Hl].
  pose proof (receive_step n h Hsane (ready_one _ _ _ Hr) Hi) as H1.
  destruct (history l (node_after n (receive n h))) as [rs' n''] eqn:Hh'. injection Hh as <- <-.
  pose proof (ready_step _ _ _ _ _ Hr H1) as Hr'. destruct q as [|q]; [lia|]. cbn in Hq |- *.
  destruct p as [|p]; cbn in Hp, Hok.
  - injection Hp as ->. injection Hok as Hok. destruct H1 as (_ & _ & _ & _ & _ & _ & Ha). rewrite Hok in *. cbn [node_after] in *.
    destruct (acct_of n (p_from i)) as [v|]; [|by destruct Ha]. destruct Ha as (v' & Hv' & _ & Hn & Hs).
    apply (past_refused l m rs' n'' (p_from i) (a_seq v') Hsane Hr' Hl Hh') with (j := j); try done; [|lia].
    unfold seq_of. by rewrite Hv'.
  - apply (IH _ _ p q Hr' Hl Hh' Hp Hok ltac:(lia) Hq Hj Hle).
Qed.
(** The fee collector never loses, as long as no code runs in its name. *)
Theorem C140_collector_keeps l n rs n' : sane -> ready l n -> Forall parcel_ok l ->
  Forall (fun i => p_from i <> col /\ never_pays col (p_to i) (p_code i)) l ->
  history l n = (rs, n') -> balance (s_w (nd_st n)) fee col <= balance (s_w (nd_st n')) fee col.
Proof.
  intros Hsane. revert n rs. induction l as [|i l IH]; intros n rs Hr Hl Hc Hh; cbn [history] in Hh.
  - injection Hh as <- <-. lia.
  - apply Forall_cons in Hl as [Hi Hl]. apply Forall_cons in Hc as [[Hac Hnp] Hc].
    pose proof (receive_step n i Hsane (ready_one _ _ _ Hr) Hi) as H1.
    destruct (history l (node_after n (receive n i))) as [rs' n''] eqn:Hh'. injection Hh as <- <-.
    etransitivity; [|by apply (IH _ _ (ready_step _ _ _ _ _ Hr H1) Hl Hc Hh')].
    destruct H1 as (_ & _ & _ & _ & _ & _ & Ha). pose proof Hi as (_ & Hp & Hcr).
    destruct (acct_of n (p_from i)) as [v|] eqn:Ev; [|destruct Ha as [_ ->]; lia]. clear Ha.
    assert (Hold : holder n (p_from i) v).
    { destruct Hr as [Hh Hk]. split; [done|done|]. apply (Hk i); [by left|done]. }
    pose proof (body_ok i n Hp) as Hp'.
    assert (Hnp' : never_pays col (p_to i) (body_of (p_com i) (p_from i) n)).
    { unfold p_code in Hnp. unfold EthDeliverProps.body_of, EthDeliverProps.call_body. destruct (f_to (p_com i)) as [to|]; [|done]. by destruct (w_code _ !! to). }
    destruct (receive n i) as [|ok n1] eqn:Hd; cbn [node_after]; [lia|].
    destruct (parcel_effect i n v ok n1 Hsane Hold Hi Hd) as (F & HF & Hle & _ & Hv0 & Hv & s & k & _ & _ & _ & Hrest). cbv zeta in Hrest. destruct ok.
    + destruct Hrest as (_ & _ & _ & back & sup & l2 & Hb & _ & (G1 & _) & Htold & Hbd). rewrite G1. simpl.
      rewrite (bool_decide_eq_true_2 (col = col)), (bool_decide_eq_false_2 (col = p_from i)) by done.
      destruct (p_made i) as [ymade|] eqn:Hmade; cycle 1.
      { destruct (Hbd eq_refl) as (B1 & _). specialize (B1 col (not_eq_sym Hac) Hnp'). simpl in B1.
        rewrite (bool_decide_eq_false_2 (col = p_from i)), (bool_decide_eq_true_2 (col = col)) in B1 by done. lia. }
      assert (Hnc : never_catches (p_code i)). { apply Hcr. unfold EthDeliverProps.made in Hmade. by destruct (f_to (p_com i)). }
      destruct (Htold Hnc) as [_ Hl2].
      destruct (eth_keeps (is_blocked E (s_w (nd_st n))) col (outer (p_to i) (f_value (p_com i)) (body_of (p_com i) (p_from i) n)))
        with (self := p_from i) (l := pay (before n) (p_from i) col F) as [_ Hk].
      * split; [done|]. split; [done|]. by intros [].
      * split; [by right|]. split; [done|]. by intros [].
      * intros y. simpl.
        assert (0 <= balance (s_w (nd_st n)) fee y) by (exact (shows_pos E fee _ _ _ _ y (shows0 fee_denom E fee _ n v Hold))).
        repeat case_bool_decide; subst; lia.
      * rewrite Hl2 in Hk. simpl in Hk. rewrite (bool_decide_eq_false_2 (col = p_from i)), (bool_decide_eq_true_2 (col = col)) in Hk by done. lia.
    + destruct Hrest as (_ & (G1 & _)). rewrite G1. simpl.
      rewrite (bool_decide_eq_true_2 (col = col)), (bool_decide_eq_false_2 (col = p_from i)) by done. lia.
Qed.
End props.

(** Alice pays bob 10 with her Cosmos wallet; a payment of 15 with the same nonce, signed earlier with
    her Ethereum wallet, comes too late; then her creation of C119, signed with the Ethereum wallet, is
    submitted with a fee of 5; the Cosmos-signed payment is sent again. *)
Definition m_items : list parcel :=
  let k := k_tx (Some (KEth x_alice)) 1 k_good in
  [ Parcel k (y_com 10) x_alice (Some 15%N) true;
    Parcel (wire y_key (KEth x_alice) [] (refee x_stake 21 (y_cosmos_of (y_tx 15)))) (y_com 15) x_alice (Some 20%N) true;
    Parcel (wire y_key (KEth x_alice) [] (refee x_stake 5 (y_cosmos_of y_new))) (Com 4 20 None 2 [96%N]) x_alice (Some 20%N) true;
    Parcel k (y_com 10) x_alice (Some 15%N) true ].
Notation m_history := (history w_kc w_bdec y_rec y_key k_ver k_doc x_stake 18 [] 1000 500 10000
                       x_env (x_bank None) x_stake_at (fun _ _ => PStop) dec_one [] y_create y_init).
Lemma m_items_ok : Forall (parcel_ok w_kc w_ck w_benc w_bdec y_rec y_key x_stake 18 [] (fun _ _ => PStop) y_create y_init) m_items.
Proof.
  pose proof y_items_ok as Hy. unfold y_items in Hy.
  apply Forall_cons in Hy as [(H1 & P1 & C1) Hy]. apply Forall_cons in Hy as [_ Hy]. apply Forall_cons in Hy as [_ Hy].
  apply Forall_cons in Hy as [(H4 & P4 & C4) _].
  assert (Hk : parcel_ok w_kc w_ck w_benc w_bdec y_rec y_key x_stake 18 [] (fun _ _ => PStop) y_create y_init
    (Parcel (k_tx (Some (KEth x_alice)) 1 k_good) (y_com 10) x_alice (Some 15%N) true)).
  { split; [right; eexists _, _, _, _; by apply k_signed|]. split; [done|]. done. }
  unfold m_items. cbv zeta. apply Forall_cons. split; [exact Hk|]. apply Forall_cons. split; [|apply Forall_cons; split; [|apply Forall_cons; split; [exact Hk|by apply Forall_nil]]].
  - split; [|split; [exact P1|exact C1]]. left. eexists _, _, _, _, 21, []. split; [exact H1|]. split; [by vm_compute|]. split; done.
  - split; [|split; [exact P4|exact C4]]. left. eexists _, _, _, _, 5, []. split; [exact H4|]. split; [by vm_compute|]. split; done.
Qed.
Example C140_example :
  ready x_stake x_stake_at m_items y_node /\
  let '(rs, n') := m_history m_items y_node in
  let y := y_create x_alice 4 in
  map success rs = [true; false; true; false] /\ map included rs = [true; false; true; false] /\
  balance (s_w (nd_st n')) x_stake_at x_alice = 22 /\ balance (s_w (nd_st n')) x_stake_at x_bob = 11 /\
  balance (s_w (nd_st n')) x_stake_at y = 1 /\ balance (s_w (nd_st n')) x_stake_at x_collector = 26 /\
  seq_of n' x_alice = Some 5%N /\ has_code n' y = true.
Proof.
  split.
  - split; [apply y_healthy|]. intros i v Hi Hv.
    assert (p_from i = x_alice) as He.
    { unfold m_items in Hi. rewrite !elem_of_cons, elem_of_nil in Hi. destruct Hi as [-> | [-> | [-> | [-> | []]]]]; auto. }
    rewrite He in Hv. vm_compute in Hv. injection Hv as <-. done.
  - vm_compute. done.
Qed.
