(** C98, C99: who signed an accepted transaction; transactions that stop the indexer. *)
From Verif.Base Require Import Prelude Hex.
From Verif.Model Require Import Fees EthTx SigVerify.
From Verif.Spec Require Import SigSpec.
From Verif.Proofs Require Import EthTxP SigP.
Local Open Scope N_scope.

Section props.
(** The codecs, the signature schemes and the sign bytes; nothing is assumed about them. *)
Variable keccak : bytes -> bytes.
Variable bech_dec : text -> option bytes.
Variable recover_addr : content -> N -> Z -> Z -> option bytes.
Variable key_addr : pubkey -> bytes.
Variable key_verify : pubkey -> bytes -> bytes -> bool.
Variable sign_bytes : Z -> bytes -> N -> N -> pubkey -> vtx -> option bytes.
Variable fee_denom : text.
Variable decimals : Z.
Variable chain : bytes.
Variable cost_k1 cost_r1 : N.
Notation ante := (ante_sigs keccak bech_dec recover_addr key_addr key_verify sign_bytes fee_denom decimals chain cost_k1 cost_r1).
Notation convert := (convert keccak bech_dec key_addr fee_denom decimals chain).
Notation is_eth := (is_eth key_addr fee_denom).
Notation index_txs := (index_txs keccak bech_dec key_addr fee_denom decimals chain).
Notation verify_one := (verify_one keccak bech_dec recover_addr key_addr key_verify sign_bytes fee_denom decimals chain).
Notation verify_all := (verify_all keccak bech_dec recover_addr key_addr key_verify sign_bytes fee_denom decimals chain).
(** the Ethereum transaction carried by [x], if any, and who signed it *)
Definition carried (x : vtx) : option eth_tx := match convert x with Conv (COk t _) => Some t | _ => None end.
Definition eth_signer (x : vtx) : option bytes :=
  t ← carried x; recover_sender recover_addr (eth_chain_id keccak chain) t.
Notation entry_ok := (entry_ok key_addr key_verify sign_bytes cost_k1 cost_r1 eth_signer).

Lemma convert_sender x t s : convert x = Conv (COk t s) ->
  exists sg pk m b, v_sigs x = [sg] /\ v_key sg = Some pk /\ s = key_addr pk /\ v_data sg = SSingle m b.
Proof.
  unfold SigVerify.convert. destruct (v_msgs x) as [|m0 [|]] eqn:Em; try done. destruct (v_memo x) eqn:Eo; [|done].
  destruct (v_sigs x) as [|sg [|]]; try done.
  destruct (negb (SigVerify.fee_ok fee_denom x)); [done|]. destruct (v_key sg) as [pk|] eqn:Epk; [|done].
  intros [= H]. exists sg, pk. unfold with_key, cosmos_to_eth in H. rewrite Em, Eo in H. cbn [c_msgs c_memo c_sigs c_fee c_gas] in H.
  destruct (match v_fee x with [] => false | _ => _ end); [done|].
  cbn [s_pub s_data s_seq] in H. destruct (negb _); [done|].
  destruct (v_data sg) as [md b|]; [|done]. exists md, b. split; [done|]. split; [done|]. split; [|done].
  destruct (negb _); [done|]. destruct (split_sig b) as [[[v r] s0]|]; [|done].
  destruct (m_fee_cap _); [|done]. destruct (m_tip_cap _); [|done]. destruct (msg_fields _ _ _) as [e|[[[to data] value] al]] eqn:Emf.
  { subst e. destruct m0; cbn [msg_fields] in Emf; repeat case_match; done. }
  destruct (m_type m) as [|[[]|[]|]]; try done; injection H as <- <-; done.
Qed.

Lemma zip_elem {A B} (l : list A) (k : list B) i a b : zip l k !! i = Some (a, b) -> l !! i = Some a /\ k !! i = Some b.
Proof.
  rewrite lookup_zip_with. destruct (l !! i); [|done]. destruct (k !! i); [|done]. cbn. intros [= -> ->]. done.
Qed.
Lemma find_unique (l : list (vsig * bytes)) sg a : NoDup (map snd l) -> (sg, a) ∈ l ->
  exists i, list_find (fun p => snd p = a) l = Some (i, (sg, a)).
Proof.
  intros HN Hin. apply elem_of_list_lookup in Hin as [i Hi]. exists i. apply list_find_Some. split; [done|]. split; [done|].
  intros j [sg' a'] Hj Hlt Ha. cbn in Ha. subst a'.
  assert (Hx : (map snd l) !! i = Some a) by (change (map snd l) with (snd <$> l); rewrite list_lookup_fmap, Hi; done).
  assert (Hy : (map snd l) !! j = Some a) by (change (map snd l) with (snd <$> l); rewrite list_lookup_fmap, Hj; done).
  pose proof (NoDup_lookup _ _ _ _ HN Hx Hy). lia.
Qed.
Lemma snd_zip_sigs x : length (v_sigs x) = length (v_signers x) -> map snd (zip (v_sigs x) (v_signers x)) = v_signers x.
Proof. intros H. change (map snd) with (fmap (M:=list) (@snd vsig bytes)). apply snd_zip. lia. Qed.

(** ** C98 *)
(** A transaction is accepted exactly when it has one signature per signer and each of them
    counts ([entry_ok]): the signer's account exists, the key (the one on the account, or
    the one in the transaction if there is none) belongs to it, the sequence is the
    account's, the signature was made by that key over this very transaction, in Ethereum
    mode by the signer's address over the Ethereum transaction it stands for, and the gas
    for all of them fits. *)
Theorem C98_accepted_iff genesis limit accs x :
  NoDup (v_signers x) ->
  is_Some (ante false genesis limit accs x) <->
  length (v_sigs x) = length (v_signers x) /\
  exists bills, length bills = length (v_sigs x) /\ total bills <= limit /\
    forall i sg a g, v_sigs x !! i = Some sg -> v_signers x !! i = Some a -> bills !! i = Some g ->
      entry_ok genesis accs x sg a g.
Proof.
  intros HN. unfold ante_sigs.
  destruct (bool_decide (length (v_sigs x) = length (v_signers x))) eqn:EL; cbn [negb].
  2: { apply bool_decide_eq_false in EL. split; [intros []; done|]. intros [? _]. done. }
  apply bool_decide_eq_true in EL. set (l := zip (v_sigs x) (v_signers x)).
  assert (HNl : NoDup (map snd l)) by (unfold l; rewrite snd_zip_sigs; done).
  assert (Hll : length l = length (v_sigs x)) by (unfold l; rewrite zip_with_length; lia).
  assert (Hl : forall i sg a, l !! i = Some (sg, a) <-> v_sigs x !! i = Some sg /\ v_signers x !! i = Some a).
  { intros i sg a. split; [apply zip_elem|]. intros [H1 H2]. unfold l. rewrite lookup_zip_with, H1. cbn. rewrite H2. done. }
  split.
  - intros [accs' H]. destruct (set_keys key_addr accs l) as [accs1|] eqn:Ek; [|done]. cbn [mbind option_bind] in H.
    destruct (gas_sum cost_k1 cost_r1 accs1 l) as [g|] eqn:Eg; [|done]. cbn [mbind option_bind] in H.
    destruct (limit <? g) eqn:Elim; [done|]. apply N.ltb_ge in Elim.
    destruct (verify_all false genesis accs1 x l) eqn:Ev; try done.
    split; [done|]. apply gas_sum_iff in Eg as (gs & Hgl & Hgt & Hgs).
    exists gs. split; [lia|]. split; [lia|]. intros i sg a h Hsg Ha Hh.
    assert (Hi : l !! i = Some (sg, a)) by (apply Hl; done).
    assert (Hin : (sg, a) ∈ l) by (eapply elem_of_list_lookup_2; done).
    destruct (Hgs i sg a h Hi Hh) as (acc1 & pk & H1 & H2 & H3).
    rewrite verify_all_iff in Ev. specialize (Ev sg a Hin). unfold SigVerify.verify_one in Ev. rewrite H1, H2 in Ev.
    destruct (v_seq sg =? a_seq acc1) eqn:Eseq; cbn [negb] in Ev; [|done]. apply N.eqb_eq in Eseq.
    assert (Hown : forall pk, v_key sg = Some pk -> key_addr pk = a).
    { intros pk0 Hk0. destruct (proj1 (set_keys_some key_addr l accs) (ex_intro _ _ Ek) sg a pk0 Hin Hk0). done. }
    rewrite (set_keys_lookup key_addr l accs accs1 HNl Ek a) in H1.
    destruct (find_unique l sg a HNl Hin) as [j Hj]. rewrite Hj in H1.
    destruct (accs !! a) as [acc|] eqn:Eacc; [|done].
    assert (Hf : key_for acc sg pk /\ a_seq acc1 = a_seq acc /\ a_num acc1 = a_num acc).
    { unfold key_for. destruct (a_key acc) eqn:E0; injection H1 as <-.
      - split; [left; congruence|done].
      - cbn in H2 |- *. split; [right; done|done]. }
    destruct Hf as (Hf & Hsq & Hnm). rewrite Hsq, Hnm in *.
    exists acc, pk. split; [done|]. split; [done|]. split; [done|]. split; [done|].
    unfold verify_signature in Ev. destruct (v_data sg) as [mode b|bits sigs] eqn:Ed.
    + split; [eapply (sig_gas_due key_verify _ _ (fun _ => None)); [eauto|done]|]. cbn zeta. case_decide as Hm.
      * subst mode. rewrite Z.eqb_refl in Ev.
        destruct (convert x) as [|[| |t s]] eqn:Ec; try done.
        destruct (recover_sender _ _ t) as [r|] eqn:Er; [|done]. case_bool_decide; [|done]. subst r.
        unfold eth_signer, carried. rewrite Ec. cbn [mbind option_bind]. rewrite Er. f_equal.
        destruct (convert_sender x t s Ec) as (sg' & pk' & ? & ? & Hsg' & Hk' & -> & _).
        assert (sg' = sg) as ->. { rewrite Hsg' in Hsg. destruct i; [injection Hsg as ->; done|done]. }
        apply Hown. done.
      * destruct (Z.eqb_spec mode mode_ethereum); [done|]. exact (proj1 (verify_data_iff key_verify _ _ _) Ev).
    + pose proof (proj1 (verify_data_iff key_verify _ _ _) Ev) as Ev'. split; [eapply (sig_gas_due key_verify); [left; done|done]|done].
  - intros (_ & bills & Hbl & Hbt & Hb).
    assert (Hent : forall sg a, (sg, a) ∈ l -> exists i g, l !! i = Some (sg, a) /\ bills !! i = Some g /\ entry_ok genesis accs x sg a g).
    { intros sg a Hin. apply elem_of_list_lookup in Hin as [i Hi]. pose proof (proj1 (Hl i sg a) Hi) as [Hsg Ha].
      destruct (lookup_lt_is_Some_2 bills i) as [g Hg]. { rewrite Hbl. eapply lookup_lt_Some; done. }
      exists i, g. eauto. }
    assert (Hset : is_Some (set_keys key_addr accs l)).
    { apply set_keys_some. intros sg a pk Hin Hk. destruct (Hent sg a Hin) as (i & g & _ & _ & acc & key & Hacc & Hown & _).
      split; [auto|]. rewrite Hacc. eauto. }
    destruct Hset as [accs1 Ek]. rewrite Ek. cbn [mbind option_bind].
    assert (Hacc1 : forall sg a, (sg, a) ∈ l -> forall acc key, accs !! a = Some acc -> key_for acc sg key ->
      exists acc1, accs1 !! a = Some acc1 /\ a_key acc1 = Some key /\ a_seq acc1 = a_seq acc /\ a_num acc1 = a_num acc).
    { intros sg a Hin acc key Hacc Hkf. rewrite (set_keys_lookup key_addr l accs accs1 HNl Ek a), Hacc.
      destruct (find_unique l sg a HNl Hin) as [j Hj]. rewrite Hj. destruct Hkf as [E|[E E2]]; rewrite E; eexists; split; done. }
    assert (Hg : gas_sum cost_k1 cost_r1 accs1 l = Some (total bills)).
    { apply gas_sum_iff. exists bills. split; [lia|]. split; [done|]. intros i sg a h Hi Hh.
      assert (Hin : (sg, a) ∈ l) by (eapply elem_of_list_lookup_2; done).
      pose proof (proj1 (Hl i sg a) Hi) as [Hsg Ha]. destruct (Hb i sg a h Hsg Ha Hh) as (acc & key & Hacc & Hown & Hkf & Hsq & Hdue & Hsd).
      destruct (Hacc1 sg a Hin acc key Hacc Hkf) as (acc1 & H1 & H2 & H3 & H4). exists acc1, key. split; [done|]. split; [done|].
      destruct (v_data sg) as [mode b|bits sigs] eqn:Ed.
      + eapply (sig_gas_due key_verify _ _ (fun _ => None)); [eauto|done].
      + eapply (sig_gas_due key_verify); [left; exact Hsd|done]. }
    rewrite Hg. cbn [mbind option_bind]. destruct (N.ltb_spec limit (total bills)); [lia|].
    assert (Hv : verify_all false genesis accs1 x l = ROk).
    { apply verify_all_iff. intros sg a Hin. destruct (Hent sg a Hin) as (i & g & Hi & _ & acc & key & Hacc & Hown & Hkf & Hsq & Hdue & Hsd).
      destruct (Hacc1 sg a Hin acc key Hacc Hkf) as (acc1 & H1 & H2 & H3 & H4). unfold SigVerify.verify_one. rewrite H1, H2, H3, H4, Hsq, N.eqb_refl. cbn [negb].
      unfold verify_signature. destruct (v_data sg) as [mode b|bits sigs] eqn:Ed.
      + cbn zeta in Hsd. case_decide as Hm.
        * subst mode. rewrite Z.eqb_refl. unfold eth_signer, carried in Hsd.
          destruct (convert x) as [|[| |t s]] eqn:Ec; try done. cbn [mbind option_bind] in Hsd. rewrite Hsd.
          destruct (convert_sender x t s Ec) as (sg' & pk' & ? & ? & Hsg' & Hk' & -> & _).
          assert (sg' = sg) as ->. { apply Hl in Hi as [Hi _]. rewrite Hsg' in Hi. destruct i; [injection Hi as ->; done|done]. }
          rewrite bool_decide_eq_true_2; [done|]. symmetry. apply Hown. done.
        * destruct (Z.eqb_spec mode mode_ethereum); [done|]. apply verify_data_iff. done.
      + apply verify_data_iff. done. }
    rewrite Hv. eauto.
Qed.

(** What acceptance leaves behind: accounts are neither created nor removed, numbers and
    sequences do not move, a stored key never changes, and a newly stored key is one whose
    address is the account's. *)
Theorem C98_keys_after recheck genesis limit accs x accs' a :
  NoDup (v_signers x) -> ante recheck genesis limit accs x = Some accs' ->
  match accs !! a, accs' !! a with
  | None, None => True
  | Some acc, Some acc' =>
      a_seq acc' = a_seq acc /\ a_num acc' = a_num acc /\
      match a_key acc with
      | Some pk => a_key acc' = Some pk
      | None => forall pk, a_key acc' = Some pk -> key_addr pk = a /\ a ∈ v_signers x
      end
  | _, _ => False
  end.
Proof.
  intros HN. unfold ante_sigs.
  destruct (bool_decide (length (v_sigs x) = length (v_signers x))) eqn:EL; cbn [negb]; [|done].
  apply bool_decide_eq_true in EL. set (l := zip (v_sigs x) (v_signers x)).
  assert (HNl : NoDup (map snd l)) by (unfold l; rewrite snd_zip_sigs; done).
  destruct (set_keys key_addr accs l) as [accs1|] eqn:Ek; [|done]. cbn [mbind option_bind].
  destruct (gas_sum cost_k1 cost_r1 accs1 l) as [g|]; [|done]. cbn [mbind option_bind].
  destruct (limit <? g); [done|]. destruct (verify_all recheck genesis accs1 x l); try done. intros [= <-].
  rewrite (set_keys_lookup key_addr l accs accs1 HNl Ek a). destruct (accs !! a) as [acc|]; [|done].
  destruct (a_key acc) as [k0|] eqn:E0; [done|].
  destruct (list_find (fun p : vsig * bytes => snd p = a) l) as [[i [sg b]]|] eqn:Ef.
  - apply list_find_Some in Ef as (Hi & Hb & _). cbn in Hb. subst b. cbn [a_seq a_num a_key]. split; [done|]. split; [done|].
    intros pk Hk. assert (Hin : (sg, a) ∈ l) by (eapply elem_of_list_lookup_2; done).
    destruct (proj1 (set_keys_some key_addr l accs) (ex_intro _ _ Ek) sg a pk Hin Hk) as [H _]. split; [done|].
    apply zip_elem in Hi as [_ Hi]. eapply elem_of_list_lookup_2; done.
  - split; [done|]. split; [done|]. intros pk Hk. congruence.
Qed.
(** So "every stored key belongs to its account" is kept by every accepted transaction. *)
Theorem C98_stored_keys_belong recheck genesis limit accs x accs' :
  NoDup (v_signers x) -> ante recheck genesis limit accs x = Some accs' ->
  (forall a acc pk, accs !! a = Some acc -> a_key acc = Some pk -> key_addr pk = a) ->
  forall a acc pk, accs' !! a = Some acc -> a_key acc = Some pk -> key_addr pk = a.
Proof.
  intros HN Ha Hinv a acc' pk Hacc Hk. pose proof (C98_keys_after recheck genesis limit accs x accs' a HN Ha) as H.
  rewrite Hacc in H. destruct (accs !! a) as [acc|] eqn:E; [|done]. destruct H as (_ & _ & H).
  destruct (a_key acc) as [k0|] eqn:E0; [|apply H; done]. rewrite Hk in H. injection H as ->. eauto.
Qed.
(** A k-of-n key: at least k different members signed the transaction. *)
Theorem C98_threshold sb k ks d : signed key_verify sb (KMulti k ks) d ->
  exists I : list nat, NoDup I /\ (k <= length I)%nat /\
    forall i, i ∈ I -> exists pk d', ks !! i = Some pk /\ signed key_verify sb pk d'.
Proof.
  intros H. inversion H as [|? ? ? ? l Hp Hk Hl Hall]; subst; [done|].
  destruct (picks_index _ _ _ _ Hp) as (I & HN & HL & HI). exists I. split; [done|]. split; [lia|].
  intros i Hi. apply elem_of_list_lookup in Hi as [j Hj].
  destruct (lookup_lt_is_Some_2 l j) as [p Hp']. { rewrite <- HL. eapply lookup_lt_Some; done. }
  exists (fst p), (snd p). split; [eauto|]. apply Hall. eapply elem_of_list_lookup_2; done.
Qed.
(** An Ethereum-mode signature stands alone: one message, one signature, one signer, and the
    signer is who signed the Ethereum transaction. Inside a multi-signature the mode is
    refused. *)
Theorem C98_ethereum_alone genesis limit accs x i sg b :
  NoDup (v_signers x) -> is_Some (ante false genesis limit accs x) ->
  v_sigs x !! i = Some sg -> v_data sg = SSingle mode_ethereum b ->
  exists m a t, v_msgs x = [m] /\ v_sigs x = [sg] /\ v_signers x = [a] /\ carried x = Some t /\
    recover_sender recover_addr (eth_chain_id keccak chain) t = Some a /\ v_key sg <> None.
Proof.
  intros HN Hacc Hsg Hd. apply C98_accepted_iff in Hacc as (HL & bills & Hbl & _ & Hb); [|done].
  destruct (lookup_lt_is_Some_2 (v_signers x) i) as [a Ha]. { rewrite <- HL. eapply lookup_lt_Some; done. }
  destruct (lookup_lt_is_Some_2 bills i) as [g Hg]. { rewrite Hbl. eapply lookup_lt_Some; done. }
  destruct (Hb i sg a g Hsg Ha Hg) as (acc & key & _ & _ & _ & _ & _ & Hs). cbn zeta in Hs. rewrite Hd in Hs.
  rewrite decide_True in Hs by done. unfold eth_signer in Hs. destruct (carried x) as [t|] eqn:Ec; [|done]. cbn [mbind option_bind] in Hs.
  unfold carried in Ec. destruct (convert x) as [|[| |t' s]] eqn:Ecv; try done. injection Ec as ->.
  destruct (convert_sender x t s Ecv) as (sg' & pk & ? & ? & Hsg' & Hk & _ & _).
  rewrite Hsg' in Hsg, HL. destruct i as [|i]; [|done]. injection Hsg as ->.
  destruct (v_signers x) as [|a' [|]]; try done. injection Ha as ->.
  unfold SigVerify.convert in Ecv. destruct (v_msgs x) as [|m [|]]; try done.
  exists m, a, t. split; [done|]. split; [done|]. split; [done|]. split; [done|]. split; [done|]. congruence.
Qed.
Theorem C98_no_ethereum_inside sb pk d b : ~ signed key_verify sb pk (SSingle mode_ethereum b) /\
  (forall bits sigs k ks, signed key_verify sb (KMulti k ks) (SMulti bits sigs) ->
     forall l, picks ks bits sigs l -> forall p, p ∈ l -> snd p <> SSingle mode_ethereum d).
Proof.
  assert (Hone : forall pk0 b0, ~ signed key_verify sb pk0 (SSingle mode_ethereum b0)).
  { intros pk0 b0 H. inversion H as [? ? ? ? _ Hm|]; subst. unfold cosmos_mode, mode_ethereum in Hm. lia. }
  split; [apply Hone|]. intros bits sigs k ks H l Hp p Hin Heq. inversion H as [|? ? ? ? l' Hp' Hk Hl Hall]; subst.
  assert (Hu : l = l'). { clear -Hp Hp'. revert l' Hp'. induction Hp; intros l' Hl'; inversion Hl'; subst; f_equal; auto. }
  subst l'. specialize (Hall p Hin). rewrite Heq in Hall. eapply Hone; done.
Qed.
(** Ed25519 and unknown keys are never accepted. *)
Theorem C98_unsupported_keys genesis limit accs x i a acc pk :
  NoDup (v_signers x) -> v_signers x !! i = Some a -> accs !! a = Some acc -> a_key acc = Some pk ->
  match pk with KEd _ | KUnknown _ => True | _ => False end ->
  ante false genesis limit accs x = None.
Proof.
  intros HN Ha Hacc Hk Hpk. destruct (ante false genesis limit accs x) as [r|] eqn:E; [|done]. exfalso.
  assert (Hs : is_Some (ante false genesis limit accs x)) by (rewrite E; eauto).
  apply C98_accepted_iff in Hs as (HL & bills & Hbl & _ & Hb); [|done].
  destruct (lookup_lt_is_Some_2 (v_sigs x) i) as [sg Hsg]. { rewrite HL. eapply lookup_lt_Some; done. }
  destruct (lookup_lt_is_Some_2 bills i) as [g Hg]. { rewrite Hbl. eapply lookup_lt_Some; done. }
  destruct (Hb i sg a g Hsg Ha Hg) as (acc' & key & Hacc' & _ & Hf & _ & Hdue & _).
  rewrite Hacc in Hacc'. injection Hacc' as <-. destruct Hf as [Hf|[Hf _]]; [|congruence]. rewrite Hk in Hf. injection Hf as <-.
  inversion Hdue; subst; done.
Qed.
(** When a transaction is checked again (after a block), signatures are not looked at: only
    the accounts, keys and sequences. *)
Theorem C98_recheck genesis limit accs x :
  NoDup (v_signers x) ->
  is_Some (ante false genesis limit accs x) -> is_Some (ante true genesis limit accs x).
Proof.
  intros HN. unfold ante_sigs. destruct (negb _); [done|]. set (l := zip (v_sigs x) (v_signers x)).
  destruct (set_keys key_addr accs l) as [accs1|]; [|done]. cbn [mbind option_bind].
  destruct (gas_sum cost_k1 cost_r1 accs1 l) as [g|]; [|done]. cbn [mbind option_bind].
  destruct (limit <? g); [done|]. destruct (verify_all false genesis accs1 x l) eqn:Ev; try (intros []; done). intros _.
  assert (Hr : verify_all true genesis accs1 x l = ROk).
  { rewrite verify_all_iff in Ev |- *. intros sg a Hin. specialize (Ev sg a Hin). unfold SigVerify.verify_one in *.
    destruct (accs1 !! a) as [acc|]; [|done]. destruct (a_key acc); [|done]. destruct (negb _); done. }
  rewrite Hr. eauto.
Qed.

(** ** C99 *)
(** The claim "indexing a block never stops the node" is refuted. Exactly: the conversion
    dereferences a missing key for every transaction with one message, a memo that reads as
    transaction metadata, one signature without a key, and no fee or a fee in the fee
    denomination, whatever its sign mode. *)
Theorem C99_crash_iff x :
  convert x = CrashC <->
  exists m md sg, v_msgs x = [m] /\ v_memo x = Some md /\ v_sigs x = [sg] /\ v_key sg = None /\
    (v_fee x = [] \/ exists amount rest, v_fee x = (fee_denom, amount) :: rest).
Proof.
  unfold SigVerify.convert. split.
  - destruct (v_msgs x) as [|m [|]]; try done. destruct (v_memo x) as [md|]; [|done]. destruct (v_sigs x) as [|sg [|]]; try done.
    destruct (SigVerify.fee_ok fee_denom x) eqn:Ef; cbn [negb]; [|done]. destruct (v_key sg) eqn:Ek; [done|]. intros _.
    exists m, md, sg. do 4 (split; [done|]). unfold SigVerify.fee_ok in Ef. destruct (v_fee x) as [|[d am] rest]; [left; done|right].
    apply bool_decide_eq_true in Ef. subst d. eauto.
  - intros (m & md & sg & -> & -> & -> & Hk & Hf). rewrite Hk.
    assert (SigVerify.fee_ok fee_denom x = true) as ->; [|done]. unfold SigVerify.fee_ok.
    destruct Hf as [->|(am & rest & ->)]; [done|]. apply bool_decide_eq_true. done.
Qed.
(** An ordinary account holder can send one: any transaction of an account whose key is
    already stored, signed in a Cosmos mode, with the key left out, is accepted; and a block
    that contains it stops the indexer. *)
Theorem C99_keyless_refuted (genesis : bool) limit accs x m md sg a acc pk mode b bs before after r :
  v_msgs x = [m] -> v_memo x = Some md -> v_sigs x = [sg] -> v_signers x = [a] -> v_fee x = [] ->
  v_key sg = None -> v_data sg = SSingle mode b -> cosmos_mode mode ->
  accs !! a = Some acc -> a_key acc = Some pk -> v_seq sg = a_seq acc ->
  (exists k, pk = KSecp k \/ pk = KEth k) -> cost_k1 <= limit ->
  sign_bytes mode a (if genesis then 0 else a_num acc) (a_seq acc) pk x = Some bs -> key_verify pk bs b = true ->
  is_Some (ante false genesis limit accs x) /\ index_txs (before ++ (Some x, r) :: after) = None.
Proof.
  intros Hm Hmd Hsg Ha Hfee Hk Hd Hmode Hacc Hpk Hseq Hkind Hlim Hbs Hver. split.
  - apply C98_accepted_iff; [rewrite Ha; apply NoDup_singleton|]. rewrite Hsg, Ha. split; [done|].
    exists [cost_k1]. split; [done|]. split; [cbn; lia|]. intros [|i] sg' a' g H1 H2 H3; [|done].
    injection H1 as <-. injection H2 as <-. injection H3 as <-. exists acc, pk. split; [done|]. split; [congruence|].
    split; [left; done|]. split; [done|]. split; [destruct Hkind as [k [-> | ->]]; constructor|]. cbn zeta. rewrite Hd.
    rewrite decide_False. 2: { unfold cosmos_mode, mode_ethereum in *. lia. }
    econstructor; [destruct Hkind as [k [-> | ->]]; done|done|exact Hbs|done].
  - assert (Hc : convert x = CrashC) by (apply C99_crash_iff; exists m, md, sg; tauto).
    induction before as [|[[y|] ry] before IH]; cbn [app SigVerify.index_txs].
    + rewrite Hc. done.
    + destruct (convert y) as [|[| |t s]]; try done. destruct (extract_ok _ _); [|done]. rewrite IH. done.
    + done.
Qed.
(** A second way, with a key: an accepted Ethereum-mode transaction whose single message is
    not an EVM message (the signature covers an empty contract creation) stops the indexer as
    soon as it succeeds, since its response is not a creation response. *)
Theorem C99_other_message_refuted x body t s url ok rest before after :
  v_msgs x = [COther body] -> convert x = Conv (COk t s) -> url <> url_create ->
  index_txs (before ++ (Some x, TRes true (Some ((url, ok) :: rest))) :: after) = None.
Proof.
  intros Hm Hc Hu. assert (Hto : tx_to t = None).
  { unfold SigVerify.convert in Hc. rewrite Hm in Hc. destruct (v_memo x) as [md|] eqn:Emd; [|done]. destruct (v_sigs x) as [|sg [|]]; try done.
    destruct (negb _); [done|]. destruct (v_key sg) as [pk|]; [|done]. injection Hc as Hc. unfold with_key, cosmos_to_eth in Hc. rewrite Hm, Emd in Hc.
    cbn [c_msgs c_memo c_sigs c_fee c_gas msg_fields s_pub s_data s_seq] in Hc.
    repeat (match type of Hc with context [match ?y with _ => _ end] => destruct y end; try discriminate Hc);
      injection Hc as <- <-; reflexivity. }
  induction before as [|[[y|] ry] before IH]; cbn [app SigVerify.index_txs].
  - rewrite Hc. unfold extract_ok. cbn [r_ok r_data negb]. rewrite (bool_decide_eq_true_2 (tx_to t = None) Hto). rewrite bool_decide_eq_false_2 by done. done.
  - destruct (convert y) as [|[| |t' s']]; try done. destruct (extract_ok _ _); [|done]. rewrite IH. done.
  - done.
Qed.
(** When the indexer goes on: exactly when no transaction of the block crashes or fails the
    conversion, and every successful Ethereum transaction has the response of its kind. *)
Theorem C99_goes_on_iff l :
  is_Some (index_txs l) <->
  forall x r, (Some x, r) ∈ l ->
    convert x <> CrashC /\ convert x <> Conv CErr /\
    forall t s, convert x = Conv (COk t s) -> r_ok r = true ->
      exists rest, r_data r = Some ((if decide (tx_to t = None) then url_create else url_call, true) :: rest).
Proof.
  induction l as [|[[y|] ry] l IH]; cbn [SigVerify.index_txs].
  - split; [|eauto]. intros _ x r Hin. inversion Hin.
  - assert (Hgen : is_Some (index_txs l) -> (convert y <> CrashC /\ convert y <> Conv CErr /\
      forall t s, convert y = Conv (COk t s) -> r_ok ry = true ->
      exists rest, r_data ry = Some ((if decide (tx_to t = None) then url_create else url_call, true) :: rest)) ->
      forall x r, (Some x, r) ∈ (Some y, ry) :: l ->
    convert x <> CrashC /\ convert x <> Conv CErr /\
    forall t s, convert x = Conv (COk t s) -> r_ok r = true ->
      exists rest, r_data r = Some ((if decide (tx_to t = None) then url_create else url_call, true) :: rest)).
    { intros H1 H2 x r Hin. apply elem_of_cons in Hin as [Heq|Hin]; [injection Heq as -> ->; done|]. rewrite IH in H1. eauto. }
    destruct (convert y) as [|[| |t s]] eqn:Ec.
    + split; [intros []; done|]. intros H. destruct (H y ry (elem_of_list_here _ _)) as [H1 _]. done.
    + split; [intros []; done|]. intros H. destruct (H y ry (elem_of_list_here _ _)) as (_ & H1 & _). done.
    + split.
      * intros H. apply Hgen; [done|]. done.
      * intros H. apply IH. intros x r Hin. apply H. right. done.
    + destruct (extract_ok ry (bool_decide (tx_to t = None))) eqn:Ee.
      * split.
        -- intros H. apply Hgen; [destruct (index_txs l); [eauto|destruct H as [? H]; discriminate H]|].
           split; [done|]. split; [done|]. intros t' s' [= <- <-] Hok. unfold extract_ok in Ee. rewrite Hok in Ee. cbn [negb] in Ee.
           destruct (r_data ry) as [[|[url vok] rest]|]; try done. apply andb_true_iff in Ee as [H1 ->]. apply bool_decide_eq_true in H1.
           exists rest. rewrite H1. case_bool_decide as E1; case_decide as E2; try done.
        -- intros H. assert (Hl : is_Some (index_txs l)) by (apply IH; intros x r Hin; apply H; right; done).
           destruct Hl as [ts ->]. eauto.
      * split; [intros []; done|]. intros H. destruct (H y ry (elem_of_list_here _ _)) as (_ & _ & H1).
        unfold extract_ok in Ee. destruct (r_ok ry) eqn:Eok; [|done]. cbn [negb] in Ee.
        destruct (H1 t s Ec eq_refl) as [rest Hr]. rewrite Hr in Ee. rewrite andb_true_r in Ee. apply bool_decide_eq_false in Ee. exfalso. apply Ee.
        case_bool_decide as E1; case_decide as E2; done.
  - rewrite IH. split; intros H x r Hin; [apply elem_of_cons in Hin as [Heq|Hin]; [done|eauto]|]. apply H. right. done.
Qed.
End props.

(** ** Concrete cases *)
(** A toy scheme: an address is the key itself, and a signature is the key followed by the
    bytes to sign. *)
Definition toy_key (pk : pubkey) : bytes :=
  match pk with KSecp b | KEth b | KR1 b | KEd b | KUnknown b => b | KMulti k _ => [200 + N.of_nat k] end.
Definition toy_verify (pk : pubkey) (m b : bytes) : bool := bool_decide (b = toy_key pk ++ m).
Definition toy_bytes (mode : Z) (a : bytes) (num seq : N) (pk : pubkey) (x : vtx) : option bytes :=
  Some (Z.to_N mode :: num :: seq :: v_rest x).
Definition toy_multi : pubkey := KMulti 2 [KSecp [1]; KR1 [2]; KSecp [3]].
Definition toy_accs : vaccs := {[ [202] := VAcc None 7 40; [9] := VAcc (Some (KEth [9])) 5 41 ]}.
(** Two signers: a 2-of-3 multisig whose key comes with the transaction, members 0 and 2
    signing, and an account whose key is stored. *)
Definition toy_tx : vtx :=
  VTx [COther [1]; COther [2]] None
      [VSig (Some toy_multi) (SMulti [true; false; true] [SSingle 127 [1; 127; 40; 7; 66]; SSingle 1 [3; 1; 40; 7; 66]]) 7;
       VSig None (SSingle 1 [9; 1; 41; 5; 66]) 5]
      [] 200000 [[202]; [9]] [66].
Notation toy_ante := (ante_sigs (fun b => b) (fun t => Some t) (fun _ _ _ _ => None) toy_key toy_verify toy_bytes (txt "umin") 6%Z [] 1000 500).
Example C98_example :
  a_key <$> (default ∅ (toy_ante false false 3000 toy_accs toy_tx) !! [202]) = Some (Some toy_multi) /\
  is_Some (toy_ante false false 3000 toy_accs toy_tx) /\ toy_ante false false 2999 toy_accs toy_tx = None /\
  (* member 2 signed something else *)
  toy_ante false false 3000 toy_accs
    (VTx (v_msgs toy_tx) None
      [VSig (Some toy_multi) (SMulti [true; false; true] [SSingle 127 [1; 127; 40; 7; 66]; SSingle 1 [3; 1; 40; 7; 67]]) 7;
       VSig None (SSingle 1 [9; 1; 41; 5; 66]) 5] [] 200000 [[202]; [9]] [66]) = None.
Proof. vm_compute. split; [done|]. split; [eauto|]. done. Qed.
(** A keyless transaction in direct mode with memo "{}": accepted, and its block is not
    indexed. *)
Definition keyless_tx : vtx :=
  VTx [COther [1]] (Some (Meta 0 None None)) [VSig None (SSingle 1 [9; 1; 41; 5; 66]) 5] [] 200000 [[9]] [66].
Example C99_example :
  is_Some (toy_ante false false 1000 toy_accs keyless_tx) /\
  index_txs (fun b => b) (fun t => Some t) toy_key (txt "umin") 6%Z [] [(Some toy_tx, TRes true None); (Some keyless_tx, TRes true None)] = None /\
  index_txs (fun b => b) (fun t => Some t) toy_key (txt "umin") 6%Z [] [(Some toy_tx, TRes true None); (None, TRes false None)] = Some [].
Proof. vm_compute. split; [eauto|]. done. Qed.
(** An Ethereum-mode transaction, carrying a message that is neither a call nor a creation:
    accepted, and its block is not indexed either. *)
Definition eth_user : bytes := repeat 7 20.
Definition eth_other_tx : vtx :=
  VTx [COther [1]] (Some (Meta 2 (Some 1%Z) (Some 1%Z)))
      [VSig (Some (KEth eth_user)) (SSingle mode_ethereum (repeat 1 64 ++ [0])) 3] [] 200000 [eth_user] [66].
Notation eth_ante := (ante_sigs (fun b => b) (fun t => Some t) (fun _ _ _ _ => Some eth_user) toy_key toy_verify toy_bytes (txt "umin") 6%Z [] 1000 500).
Example C98_ethereum_example :
  is_Some (eth_ante false false 1000 {[ eth_user := VAcc None 3 40 ]} eth_other_tx) /\
  (exists t s, convert (fun b => b) (fun t => Some t) toy_key (txt "umin") 6%Z [] eth_other_tx = Conv (COk t s) /\ s = eth_user) /\
  index_txs (fun b => b) (fun t => Some t) toy_key (txt "umin") 6%Z []
    [(Some eth_other_tx, TRes true (Some [([99], true)]))] = None.
Proof. vm_compute. split; [eauto|]. split; [eauto|]. done. Qed.
