(** C142: histories in which transactions of several messages (C141) stand among Ethereum-signed and
    Cosmos-signed ones of one message (C140), all delivered by one and the same model
    (Model/MultiMsg.v). *)
From Verif.Base Require Import Prelude Hex.
From Verif.Model Require Import Fees EthTx SigVerify Token Bank CallTree EthDeliver MultiMsg.
From Verif.Spec Require Import TokenSpec CallTreeSpec WalletSpec MultiSpec.
From Verif.Proofs Require Import BytesP HexP EthTxP TokenP BankP TokenMore BankMore CallTreeP CallTreeAny EthDeliverP.
From Verif.Props Require Import EthTxProps FeesProps CallTreeProps EthDeliverProps CosmosSignedProps MixedHistoryProps MultiMsgProps.
Local Open Scope Z_scope.

Section props.
Variable keccak : bytes -> bytes.
Variable ck : bytes -> nat -> bool.
Variable bech_enc : bytes -> text.
Variable bech_dec : text -> option bytes.
Variable recover_addr : content -> N -> Z -> Z -> option bytes.
Variable key_addr : pubkey -> bytes.
Variable key_verify : pubkey -> bytes -> bytes -> bool.
Variable sign_bytes : Z -> bytes -> N -> N -> pubkey -> vtx -> option bytes.
Variable fee_denom : text.
Variable decimals : Z.
Variable cid : bytes.
Variable cost_k1 cost_r1 limit : N.
Variable E : env.
Variable B : bank_env.
Variable fee : bytes.
Variable code_at : bytes -> bytes -> prog.
Variable ratio : Z.
Variable publishers : list text.
Variable create_addr : bytes -> N -> bytes.
Variable init_of : bytes -> bytes -> prog.
Variable col : bytes.
Variable params : bank_params.
Variable send_of : bytes -> option (option bytes * option bytes * list coin).
Notation sigs := (ante_sigs keccak bech_dec recover_addr key_addr key_verify sign_bytes fee_denom decimals cid cost_k1 cost_r1 false false limit).
Notation deliver := (deliver_m keccak bech_dec recover_addr key_addr key_verify sign_bytes fee_denom decimals cid cost_k1 cost_r1 limit E B fee code_at ratio publishers create_addr init_of params send_of).
Notation receive_1 := (MixedHistoryProps.receive keccak bech_dec recover_addr key_addr key_verify sign_bytes fee_denom decimals cid cost_k1 cost_r1 limit E B fee code_at ratio publishers create_addr init_of).
Notation sane := (sane bech_enc bech_dec recover_addr decimals cost_k1 limit E B fee ratio col).
Notation healthy := (healthy fee_denom fee).
Notation parcel_ok := (parcel_ok keccak ck bech_enc bech_dec recover_addr key_addr fee_denom decimals cid code_at create_addr init_of).
Notation p_code := (p_code code_at create_addr init_of).
Notation p_made_by := (MixedHistoryProps.made_by create_addr).
Notation packed := (packed bech_enc bech_dec fee_denom send_of).

(** A transaction of one message (C140), or of several that asks for [acts] (C141). *)
Inductive entry := One (i : parcel) | Many (x : vtx) (acts : list act) (used : option N) (keep : bool).
Definition tx_of (e : entry) : vtx := match e with One i => p_tx i | Many x _ _ _ => x end.
Definition receive (n : node) (e : entry) : receipt :=
  match e with One i => deliver (p_tx i) (p_used i) (p_keep i) n | Many x _ used keep => deliver x used keep n end.
Fixpoint history (l : list entry) (n : node) : list receipt * node :=
  match l with
  | [] => ([], n)
  | e :: l' => let r := receive n e in let '(rs, n') := history l' (node_after n r) in (r :: rs, n')
  end.
(** Whose it is, with which sequence, and how many numbers it uses up when it succeeds. *)
Definition who (e : entry) : list bytes := match e with One i => [p_from i] | Many x _ _ _ => v_signers x end.
Definition signed_at (e : entry) (y : bytes) (s : N) : Prop :=
  match e with One i => y = p_from i /\ s = f_nonce (p_com i) | Many x _ _ _ => signed_with x y s end.
Definition uses (e : entry) (y : bytes) : N := match e with One _ => 1 | Many _ acts _ _ => N.max 1 (calls_by y acts) end.
Definition size (e : entry) : N := match e with One _ => 1 | Many _ acts _ _ => N.of_nat (length acts) end.
Fixpoint total (l : list entry) : N := match l with [] => 0 | e :: l' => size e + total l' end.
(** The code it may run is well formed; no code of its catches failures. *)
Definition entry_ok (e : entry) : Prop :=
  match e with
  | One i => parcel_ok i
  | Many x acts _ _ => (exists F, packed x acts F) /\
      Forall (fun r => match r with ACall _ to d _ => prog_ok (code_at to d) | ASend _ _ _ => True end) acts /\
      Forall (fun sg => ordinary (VAcc (v_key sg) 0 0)) (v_sigs x)
  end.
Definition quiet (e : entry) : Prop :=
  match e with
  | One i => never_catches (p_code i)
  | Many _ acts _ _ => Forall (fun r => match r with ACall _ to d _ => never_catches (code_at to d) | ASend _ _ _ => True end) acts
  end.
(** The contract it made. *)
Definition made_by (e : entry) (r : receipt) : option bytes := match e with One i => p_made_by i r | Many _ _ _ _ => None end.
(** The chain before the history: the token in order, no sequence about to overflow, no sender with
    an unusual key. *)
Definition ready (l : list entry) (n : node) : Prop :=
  healthy n /\ (total l + 2 < 2 ^ 64)%N /\ (forall y s, seq_of n y = Some s -> (s + total l + 1 < 2 ^ 64)%N) /\
  forall e y v, e ∈ l -> y ∈ who e -> acct_of n y = Some v -> ordinary v.

(** What one transaction does. *)
Definition one_step (n n' : node) (e : entry) (r : receipt) : Prop :=
  healthy n' /\
  (forall k, supply (s_w (nd_st n')) k <= supply (s_w (nd_st n)) k /\
             (k <> fee \/ quiet e -> supply (s_w (nd_st n')) k = supply (s_w (nd_st n)) k)) /\
  (forall k y, k <> fee -> balance (s_w (nd_st n')) k y = balance (s_w (nd_st n)) k y) /\
  (forall y, y ∉ who e -> made_by e r <> Some y -> match acct_of n y with
                      | Some v => acct_of n' y = Some v
                      | None => acct_of n' y = None \/ exists num, acct_of n' y = Some (VAcc None 0 num)
                      end) /\
  (forall k, has_code n' k = has_code n k || bool_decide (made_by e r = Some k)) /\
  (forall y, made_by e r = Some y -> y ∉ who e /\ has_code n y = false /\ (forall s, seq_of n y = Some s -> s = 0%N) /\
     exists k, acct_of n' y = Some (VAcc None 1 k) /\ forall v, acct_of n y = Some v -> k = a_num v /\ a_key v = None) /\
  (r = Refused -> n' = n) /\
  (forall y, y ∈ who e -> acct_of n y = None -> r = Refused) /\
  (forall y v, y ∈ who e -> acct_of n y = Some v -> exists v', acct_of n' y = Some v' /\ (ordinary v -> ordinary v') /\
     a_num v' = a_num v /\ (forall k, a_key v = Some k -> a_key v' = Some k) /\
     (r <> Refused -> (forall s, signed_at e y s -> s = a_seq v) /\ (a_seq v <= a_seq v' <= a_seq v + uses e y)%N /\
                      (success r = true -> a_seq v' = (a_seq v + uses e y)%N))).

Lemma one_is i n : sane -> parcel_ok i -> receive n (One i) = receive_1 n i.
Proof.
  intros Hsane (Hi & _ & _). unfold receive, MixedHistoryProps.receive.
  assert (exists m s, v_msgs (p_tx i) = [m] /\ match m with CCall t _ _ _ _ | CCreate t _ _ _ => t = s | _ => False end /\ bech_dec s = Some (p_from i)) as (m & s & H1 & H2 & H3).
  { destruct Hi as [(t & c & b & x & F & rest & Hsent & _ & -> & _)|(k & mode & sg & F & Hsig)].
    - assert (Hl : length (p_from i) = 20%nat) by (eapply EthDeliverProps.a20; [exact Hsane|exact Hsent]).
      destruct (x_is keccak ck bech_enc recover_addr key_addr fee_denom decimals cid t c (p_from i) b x Hsent) as (sb & ->).
      eexists _, (bech_enc (p_from i)). split; [reflexivity|]. split; [by destruct (f_to c)|]. by apply (sn_bech _ _ _ _ _ _ _ _ _ _ _ Hsane).
    - destruct (si_msg _ _ _ _ _ _ _ _ _ _ _ Hsig) as (m & -> & Ha). exists m, (bech_enc (p_from i)). split; [done|].
      split; [|apply (sn_bech _ _ _ _ _ _ _ _ _ _ _ Hsane), (si_len _ _ _ _ _ _ _ _ _ _ _ Hsig)].
      unfold asks_for in Ha. destruct (f_to _); [by destruct Ha as (? & ? & ? & -> & _)|by destruct Ha as (? & ? & -> & _)]. }
  by apply (C141_single keccak bech_dec recover_addr key_addr key_verify sign_bytes fee_denom decimals cid cost_k1 cost_r1 limit E B fee code_at ratio publishers create_addr init_of params send_of _ _ _ _ _ _ _ H1 H2 H3).
Qed.
Lemma together_told blk code open acts : Forall (fun r => match r with ACall _ to d _ => never_catches (code to d) | ASend _ _ _ => True end) acts ->
  forall l, (together blk code open acts l).1.1 <> CatchesFailure.
Proof.
  induction 1 as [|r acts Hr Ha IH]; intros l; [done|]. destruct r as [a to d v|a b v]; cbn [together].
  - assert (Hc : (eth blk (outer to v (code to d)) a l).1.1 <> CatchesFailure) by (apply eth_told; split; [done|done]).
    destruct (eth _ _ _ _) as [[[| |] [|]] l1]; cbn [fst] in *; try done; by apply IH.
  - destruct (decide _); [|done]. destruct (open b); [apply IH|done].
Qed.
Lemma calls_le y acts : (calls_by y acts <= N.of_nat (length acts))%N.
Proof. unfold calls_by. induction acts as [|r acts IH]; cbn [List.filter]; [done|]. destruct (is_call_by y r); cbn [length]; lia. Qed.
Lemma uses_le e y : entry_ok e -> (uses e y <= size e)%N.
Proof.
  destruct e as [i|x acts used keep]; cbn [uses size]; [lia|]. intros ((F & Hpk) & _). pose proof (pk_many _ _ _ _ _ _ _ Hpk). pose proof (calls_le y acts). lia.
Qed.
Lemma size_pos e : entry_ok e -> (1 <= size e)%N.
Proof. destruct e as [i|x acts used keep]; cbn [size]; [lia|]. intros ((F & Hpk) & _). pose proof (pk_many _ _ _ _ _ _ _ Hpk). lia. Qed.
Lemma signed_unique x y s i sg : NoDup (v_signers x) -> v_signers x !! i = Some y -> v_sigs x !! i = Some sg -> signed_with x y s -> v_seq sg = s.
Proof.
  intros Hnd H1 H2 (j & sg' & H3 & H4 & <-). assert (i = j) as -> by by eapply NoDup_lookup. congruence.
Qed.
Lemma step_one n i : sane -> ready [One i] n -> parcel_ok i -> one_step n (node_after n (receive n (One i))) (One i) (receive n (One i)).
Proof.
  intros Hsane (Hh & _ & _ & Ho) Hi.
  assert (Hr1 : MixedHistoryProps.ready fee_denom fee [i] n).
  { split; [done|]. intros j v Hj%elem_of_list_singleton Hv. subst j. apply (Ho (One i) (p_from i)); [by left|by left|done]. }
  pose proof (MixedHistoryProps.receive_step keccak ck bech_enc bech_dec recover_addr key_addr key_verify sign_bytes fee_denom decimals cid cost_k1 cost_r1 limit E B fee code_at ratio publishers create_addr init_of col n i Hsane Hr1 Hi) as H.
  rewrite (one_is i n Hsane Hi). destruct H as (H1 & H2 & H3 & H4 & H5 & H6 & H7). unfold one_step. cbn [who made_by quiet uses signed_at].
  split_and!; try done.
  - intros y Hy Hm. apply H4; [by intros ->; apply Hy; left|congruence].
  - intros y Hy. destruct (H6 y Hy) as (G1 & G2). split; [|done]. by intros ->%elem_of_list_singleton.
  - intros Hrf. rewrite Hrf. done.
  - intros y ->%elem_of_list_singleton Hn. rewrite Hn in H7. by destruct H7.
  - intros y v ->%elem_of_list_singleton Hv. rewrite Hv in H7. destruct H7 as (v' & G1 & G2 & G3 & G4 & G5). exists v'. split_and!; try done.
    intros Hne. destruct (receive_1 n i) as [|[|] n1]; [done| |]; destruct G5 as [G5 G6]; rewrite <- G5 in *; (split; [by intros s [_ ->]|]); cbn [success]; (split; [lia|]); [done|done].
Qed.
Lemma step_many n x acts used keep : sane -> ready [Many x acts used keep] n -> entry_ok (Many x acts used keep) ->
  one_step n (node_after n (receive n (Many x acts used keep))) (Many x acts used keep) (receive n (Many x acts used keep)).
Proof.
  intros Hsane (Hh & Htot & Hroom0 & Ho) ((F & Hpk) & Hp & Hkeys). unfold one_step. cbn [who made_by quiet uses signed_at receive].
  assert (Hroom : room n acts).
  { intros y s _ Hs. specialize (Hroom0 y s Hs). cbn [total size] in Hroom0. pose proof (calls_le y acts). lia. }
  assert (Hcode : Forall (code_ok code_at (s_w (nd_st n))) acts).
  { apply Forall_forall. intros r Hr. rewrite Forall_forall in Hp. specialize (Hp r Hr). destruct r as [a to d v|]; [|done]. cbn. unfold code. by destruct (w_code _ !! to). }
  assert (Hq : quiet (Many x acts used keep) -> forall l, (together (is_blocked E (s_w (nd_st n))) (code code_at (s_w (nd_st n))) (open_to fee_denom B params) acts l).1.1 <> CatchesFailure).
  { intros Hq l. apply together_told. apply Forall_forall. intros r Hr. cbn [quiet] in Hq. rewrite Forall_forall in Hq. specialize (Hq r Hr).
    destruct r as [a to d v|]; [|done]. unfold code. by destruct (w_code _ !! to). }
  cbn [quiet] in Hq.
  pose proof (fun ok n' => effects_multi keccak bech_enc bech_dec recover_addr key_addr key_verify sign_bytes fee_denom decimals cid cost_k1 cost_r1 limit E B fee code_at ratio publishers create_addr init_of col params send_of x acts F n used keep ok n' Hsane Hh Hpk Hroom Hcode) as Heff.
  pose proof (proj1 (C141_included_iff keccak bech_enc bech_dec recover_addr key_addr key_verify sign_bytes fee_denom decimals cid cost_k1 cost_r1 limit E B fee code_at ratio publishers create_addr init_of col params send_of x acts F n used keep Hsane Hh Hpk)) as Hin.
  destruct (deliver x used keep n) as [|ok n'] eqn:Hd; cbn [node_after].
  - split_and!; try done; [intros y _ _; destruct (acct_of n y); [done|by left]|intros k; by rewrite orb_false_r|].
    intros y v Hy Hv. exists v. split_and!; done.
  - specialize (Heff ok n' eq_refl). destruct (Hin ltac:(done)) as (_ & Hsg & _). unfold signatures_good in Hsg.
    destruct (sigs (nd_accs (sync n)) x) as [m1|] eqn:Es; [|done]. clear Hsg Hin.
    destruct (sigs_facts keccak bech_dec recover_addr key_addr key_verify sign_bytes fee_denom decimals cid cost_k1 cost_r1 limit _ _ _ Es) as (_ & S2 & S3).
    (* signers have accounts, signed with their sequences, and stay ordinary *)
    assert (Hsign : forall y, y ∈ v_signers x -> exists v, acct_of n y = Some v /\ forall s, signed_with x y s -> s = a_seq v).
    { intros y Hy. apply elem_of_list_lookup in Hy as (i & Hi). destruct (S3 i y Hi) as (v1 & sg & G1 & G2 & G3 & _). specialize (S2 y). rewrite sync_lookup in S2.
      destruct (acct_of n y) as [v|]; [|congruence]. destruct S2 as (v1' & G4 & (K1 & _)). exists v. split; [done|]. intros s Hs.
      pose proof (signed_unique x y s i sg (pk_nodup _ _ _ _ _ _ _ Hpk) Hi G2 Hs). congruence. }
    assert (exists sup l', (sup <= supply (s_w (nd_st n)) fee /\
        (Forall (fun r => match r with ACall _ to d _ => never_catches (code_at to d) | ASend _ _ _ => True end) acts -> sup = supply (s_w (nd_st n)) fee)) /\
        after_all fee_denom fee n (v_signers x) l' sup n' /\
        forall y, y ∈ v_signers x -> exists v v', acct_of n y = Some v /\ acct_of n' y = Some v' /\ a_num v' = a_num v /\
           (a_key v <> None -> a_key v' = a_key v) /\ (a_key v' = a_key v \/ exists sg, (sg, y) ∈ zip (v_sigs x) (v_signers x) /\ v_key sg = a_key v') /\ (a_seq v <= a_seq v' <= a_seq v + N.max 1 (calls_by y acts))%N /\
           (ok = true -> a_seq v' = (a_seq v + N.max 1 (calls_by y acts))%N)) as (sup & l' & [Hs1 Hs2] & (A1 & A2 & A3 & A4 & A5 & A6 & A7 & A8) & Hnow).
    { destruct ok.
      - destruct Heff as (sup & l' & H1 & H2 & _ & H3 & H4). exists sup, l'. split; [split; [done|]|split; [done|]].
        + intros Hqq. by destruct (H4 (Hq Hqq _)).
        + intros y Hy. destruct (H3 y Hy) as (v & v' & G1 & G2 & G3 & G4 & _ & G5 & G6). exists v, v'. split_and!; done || lia.
      - destruct Heff as (H2 & H3 & _). eexists _, _. split; [split; [done|done]|split; [exact H2|]].
        intros y Hy. destruct (H3 y Hy) as [(v & v' & G1 & G2 & G3 & G4 & _ & G5 & G6)|(v & v' & G1 & G2 & G3 & G4 & _ & G5 & G6)]; exists v, v'; split_and!; try done; try lia.
        all: destruct (N.eqb_spec (calls_by y acts) 0); lia. }
    split_and!; try done.
    + intros k. rewrite A4. destruct (decide (k = fee)) as [->|Hkf]; [|done]. split; [done|]. intros [?|Hqq]; [done|by apply Hs2].
    + intros y Hy _. by apply A6.
    + intros k. by rewrite A8, orb_false_r.
    + intros y Hy Hn. destruct (Hnow y Hy) as (v & v' & G1 & _). congruence.
    + intros y v Hy Hv. destruct (Hnow y Hy) as (v0 & v' & G1 & G2 & G3 & G4 & G4' & G5 & G6). rewrite Hv in G1. injection G1 as <-.
      exists v'. split; [done|]. split; [|split; [done|split]].
      * intros Hov. unfold ordinary in *. destruct G4' as [-> |(sg & Hin & <-)]; [done|]. apply elem_of_zip_l in Hin.
        rewrite Forall_forall in Hkeys. by specialize (Hkeys sg Hin).
      * intros k Hk. rewrite G4; by rewrite Hk.
      * intros _. split; [|split; [done|]].
        -- intros s Hs. destruct (Hsign y Hy) as (v1 & Hv1 & He). rewrite Hv in Hv1. injection Hv1 as <-. by apply He.
        -- intros Hok. apply G6. by destruct ok.
Qed.
Lemma step n e : sane -> ready [e] n -> entry_ok e -> one_step n (node_after n (receive n e)) e (receive n e).
Proof. intros Hsane Hr He. destruct e as [i|x acts used keep]; [by apply step_one|by apply step_many]. Qed.
Lemma ready_one e l n : ready (e :: l) n -> ready [e] n.
Proof.
  intros (Hh & Ht & Hs & Ho). cbn [total] in *. split; [done|]. split; [cbn [total]; lia|]. split.
  - intros y s Hy. specialize (Hs y s Hy). cbn [total]. lia.
  - intros e' y v He%elem_of_list_singleton. subst e'. apply Ho. by left.
Qed.
Lemma ready_step e l n n' r : entry_ok e -> ready (e :: l) n -> one_step n n' e r -> ready l n'.
Proof.
  intros Hok (Hh & Ht & Hs & Ho) (H1 & _ & _ & Hoth & _ & Hmk & Hrf & Hno & Hwho). cbn [total] in *. pose proof (size_pos e Hok) as Hsz.
  assert (Hacct : forall y v', acct_of n' y = Some v' -> (a_seq v' + total l + 1 < 2 ^ 64)%N /\ (forall e', e' ∈ l -> y ∈ who e' -> ordinary v')).
  { intros y v' Hv'. destruct (decide (y ∈ who e)) as [Hin|Hout].
    - destruct (acct_of n y) as [v|] eqn:Ev.
      + destruct (Hwho y v Hin Ev) as (v1 & G1 & G2 & _ & _ & G3). rewrite Hv' in G1. injection G1 as <-.
        assert (Hb : (a_seq v + (size e + total l) + 1 < 2 ^ 64)%N) by (apply (Hs y); unfold seq_of; by rewrite Ev).
        split.
        * assert (r = Refused \/ r <> Refused) as [Hr|Hr] by (destruct r; [by left|by right]).
          -- rewrite (Hrf Hr) in Hv'. rewrite Ev in Hv'. injection Hv' as <-. lia.
          -- destruct (G3 Hr) as (_ & G4 & _). pose proof (uses_le e y Hok). lia.
        * intros e' He' Hw. apply G2. apply (Ho e y); [by left|done|done].
      + rewrite (Hrf (Hno y Hin Ev)) in Hv'. congruence.
    - destruct (decide (made_by e r = Some y)) as [Hm|Hm].
      + destruct (Hmk y Hm) as (_ & _ & _ & k & Hk & _). rewrite Hv' in Hk. injection Hk as ->. cbn [a_seq]. split; [lia|done].
      + specialize (Hoth y Hout Hm). destruct (acct_of n y) as [v|] eqn:Ev.
        * rewrite Hv' in Hoth. injection Hoth as <-.
          assert (Hb : (a_seq v' + (size e + total l) + 1 < 2 ^ 64)%N) by (apply (Hs y); unfold seq_of; by rewrite Ev).
          split; [lia|]. intros e' He' Hw. apply (Ho e' y); [by right|done|done].
        * destruct Hoth as [Hx|(num & Hx)]; rewrite Hv' in Hx; [done|]. injection Hx as ->. cbn [a_seq]. split; [lia|done]. }
  split; [done|]. split; [lia|]. split.
  - intros y s Hy. unfold seq_of in Hy. destruct (acct_of n' y) as [v'|] eqn:Ev; [|done]. cbn in Hy. injection Hy as <-. by apply (Hacct y).
  - intros e' y v' He' Hw Hv'. by apply (proj2 (Hacct y v' Hv') e').
Qed.

(** ** C142 *)
(** No supply grows, and none changes if no code catches failures; no other token moves; the books
    stay in order. *)
Theorem C142_conserved l n rs n' : sane -> ready l n -> Forall entry_ok l -> history l n = (rs, n') ->
  healthy n' /\
  (forall k, supply (s_w (nd_st n')) k <= supply (s_w (nd_st n)) k) /\
  (Forall quiet l -> forall k, supply (s_w (nd_st n')) k = supply (s_w (nd_st n)) k) /\
  (forall k, k <> fee -> supply (s_w (nd_st n')) k = supply (s_w (nd_st n)) k) /\
  (forall k y, k <> fee -> balance (s_w (nd_st n')) k y = balance (s_w (nd_st n)) k y) /\
  (forall y, 0 <= balance (s_w (nd_st n')) fee y).
Proof.
  intros Hsane. revert n rs. induction l as [|e l IH]; intros n rs Hr Hl Hh; cbn [history] in Hh.
  - injection Hh as <- <-. destruct Hr as [Hh _]. split_and!; try done. intros y.
    destruct (hy_tok _ _ _ Hh) as (t & Ht & Hok & _). unfold balance. unfold is_token in Ht. rewrite Ht. by apply bal_range.
  - apply Forall_cons in Hl as [Hi Hl]. pose proof (step n e Hsane (ready_one _ _ _ Hr) Hi) as H1.
    destruct (history l (node_after n (receive n e))) as [rs' n''] eqn:Hh'. injection Hh as <- <-.
    destruct (IH _ _ (ready_step _ _ _ _ _ Hi Hr H1) Hl Hh') as (G1 & G2 & G2' & G2'' & G3 & G4). destruct H1 as (_ & F2 & F3 & _).
    split; [done|]. split; [intros k; etransitivity; [apply G2|apply F2]|].
    split; [intros Hc k; apply Forall_cons in Hc as [Hc Hcl]; rewrite (G2' Hcl); apply F2; by right|].
    split; [intros k Hk; rewrite G2'' by done; apply F2; by left|].
    split; [intros k y Hk; by rewrite G3, F3|done].
Qed.
(** How many sequence numbers [y] used up in transactions with [f], and how many contracts were
    made at [y]. *)
Fixpoint used_by (f : receipt -> bool) (y : bytes) (l : list entry) (rs : list receipt) : N :=
  match l, rs with
  | e :: l', r :: rs' => ((if bool_decide (y ∈ who e) && f r then uses e y else 0) + used_by f y l' rs')%N
  | _, _ => 0%N
  end.
Fixpoint made_at (y : bytes) (l : list entry) (rs : list receipt) : N :=
  match l, rs with
  | e :: l', r :: rs' => ((if bool_decide (made_by e r = Some y) then 1 else 0) + made_at y l' rs')%N
  | _, _ => 0%N
  end.
(** An account keeps its number and, once it has one, its key; its sequence moves by at least what
    its successful transactions use up and at most what all its transactions in blocks could. *)
Theorem C142_accounts l n rs n' y v : sane -> ready l n -> Forall entry_ok l -> history l n = (rs, n') ->
  acct_of n y = Some v ->
  exists v', acct_of n' y = Some v' /\ a_num v' = a_num v /\ (forall k, a_key v = Some k -> a_key v' = Some k) /\
    (a_seq v + used_by success y l rs <= a_seq v' <= a_seq v + used_by included y l rs + made_at y l rs)%N.
Proof.
  intros Hsane. revert n rs v. induction l as [|e l IH]; intros n rs v Hr Hl Hh Hv; cbn [history] in Hh.
  - injection Hh as <- <-. exists v. cbn. split_and!; try done; lia.
  - apply Forall_cons in Hl as [Hi Hl]. pose proof (step n e Hsane (ready_one _ _ _ Hr) Hi) as H1.
    destruct (history l (node_after n (receive n e))) as [rs' n''] eqn:Hh'. injection Hh as <- <-.
    pose proof (ready_step _ _ _ _ _ Hi Hr H1) as Hr'. destruct H1 as (_ & _ & _ & Hoth & _ & Hmk & Hrf & _ & Hwho).
    cbn [used_by made_at].
    assert (exists v1, acct_of (node_after n (receive n e)) y = Some v1 /\ a_num v1 = a_num v /\ (forall k, a_key v = Some k -> a_key v1 = Some k) /\
      (a_seq v + (if bool_decide (y ∈ who e) && success (receive n e) then uses e y else 0) <= a_seq v1 <=
       a_seq v + (if bool_decide (y ∈ who e) && included (receive n e) then uses e y else 0) + (if bool_decide (made_by e (receive n e) = Some y) then 1 else 0))%N)
      as (v1 & Hv1 & Hn1 & Hk1 & Hs1).
    { destruct (decide (y ∈ who e)) as [Hin|Hout].
      - destruct (Hwho y v Hin Hv) as (v1 & G1 & _ & G2 & G3 & G4). exists v1. split_and!; try done.
        all: rewrite (bool_decide_eq_true_2 (y ∈ who e)) by done; cbn [andb].
        + destruct (receive n e) as [|[|] m]; cbn [success].
          * rewrite (Hrf eq_refl) in G1. rewrite Hv in G1. injection G1 as <-. lia.
          * destruct (G4 ltac:(done)) as (_ & _ & ->); [lia|done].
          * destruct (G4 ltac:(done)) as (_ & ? & _). lia.
        + destruct (receive n e) as [|[|] m]; cbn [included].
          * rewrite (Hrf eq_refl) in G1. rewrite Hv in G1. injection G1 as <-. lia.
          * destruct (G4 ltac:(done)) as (_ & ? & _). lia.
          * destruct (G4 ltac:(done)) as (_ & ? & _). lia.
      - rewrite (bool_decide_eq_false_2 (y ∈ who e)) by done. cbn [andb].
        destruct (decide (made_by e (receive n e) = Some y)) as [Hm|Hm].
        + rewrite (bool_decide_eq_true_2 (made_by e _ = Some y)) by done.
          destruct (Hmk _ Hm) as (_ & _ & Hz & k & Hk' & Hvk). destruct (Hvk _ Hv) as [-> Hnone].
          eexists. split; [exact Hk'|]. split; [done|]. split; [by rewrite Hnone|]. cbn [a_seq].
          assert (a_seq v = 0%N) as -> by (apply Hz; unfold seq_of; by rewrite Hv). lia.
        + rewrite (bool_decide_eq_false_2 (made_by e _ = Some y)) by done.
          specialize (Hoth y Hout Hm). rewrite Hv in Hoth. exists v. split_and!; try done; lia. }
    destruct (IH _ _ v1 Hr' Hl Hh' Hv1) as (v' & H1 & H2 & H3 & H4). exists v'. split; [done|]. split; [congruence|]. split; [|lia].
    intros k Hk. by apply H3, Hk1.
Qed.
(** Code: exactly where it was before and at the contracts made; nowhere twice. *)
Theorem C142_code l n rs n' k : sane -> ready l n -> Forall entry_ok l -> history l n = (rs, n') ->
  has_code n' k = has_code n k || (0 <? made_at k l rs)%N /\ (made_at k l rs <= if has_code n k then 0 else 1)%N.
Proof.
  intros Hsane. revert n rs. induction l as [|e l IH]; intros n rs Hr Hl Hh; cbn [history] in Hh.
  - injection Hh as <- <-. cbn. rewrite orb_false_r. split; [done|]. destruct (has_code n k); lia.
  - apply Forall_cons in Hl as [Hi Hl]. pose proof (step n e Hsane (ready_one _ _ _ Hr) Hi) as H1.
    destruct (history l (node_after n (receive n e))) as [rs' n''] eqn:Hh'. injection Hh as <- <-.
    destruct (IH _ _ (ready_step _ _ _ _ _ Hi Hr H1) Hl Hh') as [G1 G2]. destruct H1 as (_ & _ & _ & _ & Hc & Hmk & _).
    rewrite Hc in G1, G2. cbn [made_at]. destruct (decide (made_by e (receive n e) = Some k)) as [Hm|Hm].
    + rewrite (bool_decide_eq_true_2 (made_by e (receive n e) = Some k)) in * by done. rewrite orb_true_r in G1, G2.
      destruct (Hmk _ Hm) as (_ & Hn & _). rewrite Hn. rewrite G1. destruct (N.ltb_spec 0 (1 + made_at k l rs')); [|lia]. split; [done|]. lia.
    + rewrite (bool_decide_eq_false_2 (made_by e (receive n e) = Some k)) in * by done. rewrite orb_false_r in G1, G2.
      rewrite N.add_0_l. done.
Qed.
Lemma past_refused l n rs n' y s : sane -> ready l n -> Forall entry_ok l -> history l n = (rs, n') ->
  seq_of n y = Some s -> forall q j s2, l !! q = Some j -> y ∈ who j -> signed_at j y s2 -> (s2 < s)%N -> rs !! q = Some Refused.
Proof.
  intros Hsane. revert n rs s. induction l as [|e l IH]; intros n rs s Hr Hl Hh Hs q j s2 Hq Hj Hsg Hlt; [done|].
  cbn [history] in Hh. apply Forall_cons in Hl as [Hi Hl].
  pose proof (step n e Hsane (ready_one _ _ _ Hr) Hi) as H1.
  destruct (history l (node_after n (receive n e))) as [rs' n''] eqn:Hh'. injection Hh as <- <-.
  pose proof (ready_step _ _ _ _ _ Hi Hr H1) as Hr'.
  unfold seq_of in Hs. destruct (acct_of n y) as [v|] eqn:Ev; [|done]. cbn in Hs. injection Hs as <-.
  destruct q as [|q]; cbn in Hq |- *.
  - injection Hq as ->. f_equal. destruct H1 as (_ & _ & _ & _ & _ & _ & _ & _ & Hwho).
    destruct (Hwho y v Hj Ev) as (v' & _ & _ & _ & _ & G). destruct (receive n j) as [|ok m]; [done|].
    destruct (G ltac:(done)) as (G1 & _). specialize (G1 s2 Hsg). exfalso. lia.
  - assert (history [e] n = ([receive n e], node_after n (receive n e))) as H0 by done.
    destruct (C142_accounts [e] n _ _ y v Hsane (ready_one _ _ _ Hr) ltac:(by apply Forall_singleton) H0 Ev) as (v' & Hv' & _ & _ & Hb).
    eapply (IH _ _ (a_seq v') Hr' Hl Hh'); [unfold seq_of; by rewrite Hv'|exact Hq|exact Hj|exact Hsg|lia].
Qed.
(** Replay: after a transaction has succeeded, no transaction of one of its signers with the sequence
    it was signed with, or any other number it used up, or an earlier one, is taken again, however
    long the history goes on and whatever kind of transaction either is. *)
Theorem C142_no_replay l n rs n' p q e j m y s s2 : sane -> ready l n -> Forall entry_ok l -> history l n = (rs, n') ->
  l !! p = Some e -> rs !! p = Some (Included true m) -> y ∈ who e -> signed_at e y s ->
  (p < q)%nat -> l !! q = Some j -> y ∈ who j -> signed_at j y s2 -> (s2 < s + uses e y)%N ->
  rs !! q = Some Refused.
Proof.
  intros Hsane. revert n rs p q. induction l as [|h l IH]; intros n rs p q Hr Hl Hh Hp Hok Hy Hs Hpq Hq Hj Hs2 Hlt; [done|].
  cbn [history] in Hh. apply Forall_cons in Hl as [Hi Hl].
  pose proof (step n h Hsane (ready_one _ _ _ Hr) Hi) as H1.
  destruct (history l (node_after n (receive n h))) as [rs' n''] eqn:Hh'. injection Hh as <- <-.
  pose proof (ready_step _ _ _ _ _ Hi Hr H1) as Hr'. destruct q as [|q]; [lia|]. cbn in Hq |- *.
  destruct p as [|p]; cbn in Hp, Hok.
  - injection Hp as ->. injection Hok as Hok. destruct H1 as (_ & _ & _ & _ & _ & _ & _ & Hno & Hwho). rewrite Hok in *. cbn [node_after] in *.
    destruct (acct_of n y) as [v|] eqn:Ev; [|by specialize (Hno y Hy Ev)].
    destruct (Hwho y v Hy Ev) as (v' & Hv' & _ & _ & _ & G). destruct (G ltac:(done)) as (G1 & _ & G2). specialize (G2 eq_refl). specialize (G1 s Hs).
    eapply (past_refused l m rs' n'' y (a_seq v') Hsane Hr' Hl Hh'); [unfold seq_of; by rewrite Hv'|exact Hq|exact Hj|exact Hs2|lia].
  - by apply (IH _ _ p q Hr' Hl Hh' Hp Hok Hy Hs ltac:(lia) Hq Hj Hs2 Hlt).
Qed.
(** The fee collector never loses, as long as no code runs in its name. *)
Definition spares (e : entry) : Prop :=
  match e with
  | One i => p_from i <> col /\ never_pays col (target create_addr (p_com i) (p_from i)) (p_code i)
  | Many _ acts _ _ => Forall (fun r => actor r <> col /\ match r with ACall _ to d _ => never_pays col to (code_at to d) | ASend _ _ _ => True end) acts
  end.
Theorem C142_collector_keeps l n rs n' : sane -> ready l n -> Forall entry_ok l -> Forall spares l -> history l n = (rs, n') ->
  balance (s_w (nd_st n)) fee col <= balance (s_w (nd_st n')) fee col.
Proof.
  intros Hsane. revert n rs. induction l as [|e l IH]; intros n rs Hr Hl Hc Hh; cbn [history] in Hh.
  - injection Hh as <- <-. lia.
  - apply Forall_cons in Hl as [Hi Hl]. apply Forall_cons in Hc as [Hce Hc].
    pose proof (step n e Hsane (ready_one _ _ _ Hr) Hi) as H1.
    destruct (history l (node_after n (receive n e))) as [rs' n''] eqn:Hh'. injection Hh as <- <-.
    etransitivity; [|by apply (IH _ _ (ready_step _ _ _ _ _ Hi Hr H1) Hl Hc Hh')]. clear IH Hh' H1.
    apply ready_one in Hr as (Hh & _ & Hroom0 & Ho). destruct e as [i|x acts used keep].
    + rewrite (one_is i n Hsane Hi).
      assert (Hr1 : MixedHistoryProps.ready fee_denom fee [i] n).
      { split; [done|]. intros j v Hj%elem_of_list_singleton Hv. subst j. apply (Ho (One i) (p_from i)); [by left|by left|done]. }
      eapply (C140_collector_keeps keccak ck bech_enc bech_dec recover_addr key_addr key_verify sign_bytes fee_denom decimals cid cost_k1 cost_r1 limit E B fee code_at ratio publishers create_addr init_of col [i] n _ _ Hsane Hr1);
        [by apply Forall_singleton|by apply Forall_singleton|reflexivity].
    + destruct Hi as ((F & Hpk) & Hp & _). cbn [receive spares] in *.
      assert (Hroom : room n acts).
      { intros y s _ Hs. specialize (Hroom0 y s Hs). cbn [total size] in Hroom0. pose proof (calls_le y acts). lia. }
      assert (Hcode : Forall (code_ok code_at (s_w (nd_st n))) acts).
      { apply Forall_forall. intros r Hr. rewrite Forall_forall in Hp. specialize (Hp r Hr). destruct r as [a to d v|]; [|done]. cbn. unfold code. by destruct (w_code _ !! to). }
      pose proof (pk_amount _ _ _ _ _ _ _ Hpk) as [HF _].
      destruct (deliver x used keep n) as [|[|] n1] eqn:Hd; cbn [node_after]; [lia| |].
      * destruct (C141_any keccak bech_enc bech_dec recover_addr key_addr key_verify sign_bytes fee_denom decimals cid cost_k1 cost_r1 limit E B fee code_at ratio publishers create_addr init_of col params send_of x acts F n used keep n1 Hsane Hh Hpk Hroom Hcode Hd) as (_ & _ & Hcol & _).
        etransitivity; [|apply Hcol]; [lia|]. apply Forall_forall. intros r Hr. rewrite Forall_forall in Hce. destruct (Hce r Hr) as [Ha Hn].
        split; [by apply not_eq_sym|]. destruct r as [a to d v|]; [|done]. unfold code. by destruct (w_code _ !! to).
      * destruct (C141_effects keccak bech_enc bech_dec recover_addr key_addr key_verify sign_bytes fee_denom decimals cid cost_k1 cost_r1 limit E B fee code_at ratio publishers create_addr init_of col params send_of x acts F n used keep false n1 Hsane Hh Hpk Hroom Hcode Hd) as ((A1 & _) & _).
        rewrite A1. cbn [only_fee pay l_bal]. unfold EthDeliverProps.before. cbn [l_bal].
        assert (Hne : col <> payer acts).
        { pose proof (pk_many _ _ _ _ _ _ _ Hpk) as Hm. unfold payer. destruct acts as [|r l0]; [cbn in Hm; lia|]. apply Forall_inv in Hce as [Ha _]. cbn. by apply not_eq_sym. }
        rewrite (bool_decide_eq_false_2 (col = payer acts)), (bool_decide_eq_true_2 (col = col)) by done. lia.
Qed.
End props.

(** Alice (60, sequence 3) and bob (sequence 7) send the transaction of C141 (alice pays bob 10 and 5, bob
    pays carol 4; fee 21); alice's Cosmos-signed payment with sequence 3 comes too late; the same
    transaction of both is signed again with 5 and 8, but alice cannot pay 10 any more; it is sent again. *)
Definition b_entries : list entry :=
  [ Many (m_tx 4 3 7) (m_acts 4) (Some 15%N) true;
    One (Parcel (k_tx (Some (KEth x_alice)) 1 k_good) (y_com 10) x_alice (Some 15%N) true);
    Many (m_tx 4 5 8) (m_acts 4) (Some 15%N) true;
    Many (m_tx 4 3 7) (m_acts 4) (Some 15%N) true ].
Notation b_history := (history w_kc w_bdec y_rec y_key k_ver k_doc x_stake 18 [] 1000 500 10000
                       x_env (x_bank None) x_stake_at (fun _ _ => PStop) dec_one [] y_create y_init m_params m_send).
Lemma b_entries_ok : Forall (entry_ok w_kc w_ck w_benc w_bdec y_rec y_key x_stake 18 [] (fun _ _ => PStop) y_create y_init m_send) b_entries.
Proof.
  assert (Hm : forall sa sb, entry_ok w_kc w_ck w_benc w_bdec y_rec y_key x_stake 18 [] (fun _ _ => PStop) y_create y_init m_send (Many (m_tx 4 sa sb) (m_acts 4) (Some 15%N) true)).
  { intros sa sb. split; [exists 21; apply (m_packed 4); by left|]. split; [|by apply Forall_forall; intros sg [->|[->|[]%elem_of_nil]%elem_of_cons]%elem_of_cons].
    apply Forall_forall. by intros [] _. }
  unfold b_entries. apply Forall_cons. split; [apply Hm|]. apply Forall_cons. split; [|apply Forall_cons; split; [apply Hm|apply Forall_cons; split; [apply Hm|by apply Forall_nil]]].
  pose proof m_items_ok as H. unfold m_items in H. cbv zeta in H. by apply Forall_cons in H as [H _].
Qed.
Example C142_example :
  ready x_stake x_stake_at b_entries m_node /\
  let '(rs, n') := b_history b_entries m_node in
  map success rs = [true; false; false; false] /\ map included rs = [true; false; true; false] /\
  balance (s_w (nd_st n')) x_stake_at x_alice = 3 /\ balance (s_w (nd_st n')) x_stake_at x_bob = 11 /\
  balance (s_w (nd_st n')) x_stake_at x_carol = 4 /\ balance (s_w (nd_st n')) x_stake_at x_collector = 42 /\
  seq_of n' x_alice = Some 6%N /\ seq_of n' x_bob = Some 9%N.
Proof.
  split.
  - split; [exact m_healthy|]. split; [done|].
    assert (Hb : forall y v, acct_of m_node y = Some v -> (a_seq v <= 7)%N /\ ordinary v).
    { intros y v Hv. unfold acct_of in Hv. destruct (nd_accs m_node !! y) as [u|] eqn:Eu.
      - injection Hv as ->. unfold m_node in Eu. cbn [nd_accs] in Eu.
        apply lookup_insert_Some in Eu as [[_ <-]|[_ Eu]]; [split; [cbn; lia|done]|].
        apply lookup_singleton_Some in Eu as [_ <-]. split; [cbn; lia|done].
      - destruct (w_accts (s_w (nd_st m_node)) !! y) as [c|] eqn:Ec; [|done]. cbn in Hv. injection Hv as <-. split; [|done]. cbn [a_seq].
        assert (Hall : forallb (fun p => (ac_seq p.2 <=? 7)%N) (map_to_list (w_accts (s_w (nd_st m_node)))) = true) by by vm_compute.
        rewrite forallb_forall in Hall. specialize (Hall (y, c)). rewrite <- elem_of_list_In, elem_of_map_to_list in Hall.
        specialize (Hall Ec). apply N.leb_le in Hall. exact Hall. }
    split.
    + intros y s Hs. unfold seq_of in Hs. destruct (acct_of m_node y) as [v|] eqn:Ev; [|done]. cbn in Hs. injection Hs as <-.
      destruct (Hb y v Ev) as [H _]. change (total b_entries) with 10%N. lia.
    + intros e y v _ _ Hv. by apply (Hb y).
  - vm_compute. done.
Qed.
