(** Lemmas about Model/SigVerify.v. *)
From Verif.Base Require Import Prelude Hex.
From Verif.Model Require Import Fees EthTx SigVerify.
From Verif.Spec Require Import SigSpec.
Local Open Scope N_scope.

Lemma sigdata_rect' (P : sigdata -> Prop) :
  (forall m b, P (SSingle m b)) ->
  (forall bits sigs, (forall s, s ∈ sigs -> P s) -> P (SMulti bits sigs)) -> forall d, P d.
Proof.
  intros H1 H2. fix IH 1. intros [m b|bits sigs]; [apply H1|]. apply H2.
  induction sigs as [|s sigs IHs]; intros s' Hs'; [inversion Hs'|].
  apply elem_of_cons in Hs' as [->|Hs']; [apply IH|apply IHs; done].
Qed.

Lemma picks_length ks bits sigs l : picks ks bits sigs l ->
  length ks = length bits /\ (length l <= length sigs)%nat /\ length l = count_true bits.
Proof.
  induction 1 as [|????? l H IH|???? l H IH]; try (destruct IH as (?&?&?)).
  - split; [done|]. split; [cbn; lia|done].
  - unfold count_true in *. rewrite filter_cons_True by done. cbn [length]. lia.
  - unfold count_true in *. rewrite filter_cons_False by done. cbn [length]. lia.
Qed.
Lemma picks_elem ks bits sigs l p : picks ks bits sigs l -> p ∈ l -> snd p ∈ sigs.
Proof.
  induction 1; intros Hp; [inversion Hp| |auto].
  apply elem_of_cons in Hp as [->|Hp]; [left|right; auto].
Qed.
Lemma picks_index ks bits sigs l : picks ks bits sigs l ->
  exists I : list nat, NoDup I /\ length I = length l /\
    forall j i p, I !! j = Some i -> l !! j = Some p -> ks !! i = Some (fst p).
Proof.
  induction 1 as [|pk ks bits s sigs l H (I & HN & HL & HI)|pk ks bits sigs l H (I & HN & HL & HI)].
  - exists []. split; [constructor|]. done.
  - exists (0%nat :: (S <$> I)). split; [|split].
    + constructor; [|apply NoDup_fmap_2; [typeclasses eauto|done]].
      intros (j & ? & _)%elem_of_list_fmap. done.
    + cbn [length]. rewrite fmap_length. lia.
    + intros [|j] i p Hi Hp; rewrite lookup_cons in Hi; rewrite lookup_cons in Hp; [injection Hi as <-; injection Hp as <-; done|].
      rewrite list_lookup_fmap in Hi. destruct (I !! j) eqn:E; [|done]. cbn in Hi. injection Hi as <-. cbn. eauto.
  - exists (S <$> I). split; [|split].
    + apply NoDup_fmap_2; [typeclasses eauto|done].
    + rewrite fmap_length. lia.
    + intros j i p Hi Hp. rewrite list_lookup_fmap in Hi.
      destruct (I !! j) eqn:E; [|done]. cbn in Hi. injection Hi as <-. cbn. eauto.
Qed.

Lemma known_mode_iff m : known_mode m = true <-> cosmos_mode m.
Proof.
  unfold known_mode, cosmos_mode. rewrite !orb_true_iff, !Z.eqb_eq. tauto.
Qed.

Section sig.
Variable keccak : bytes -> bytes.
Variable bech_dec : text -> option bytes.
Variable recover_addr : content -> N -> Z -> Z -> option bytes.
Variable key_addr : pubkey -> bytes.
Variable key_verify : pubkey -> bytes -> bytes -> bool.
Variable sign_bytes : Z -> bytes -> N -> N -> pubkey -> vtx -> option bytes.
Variable fee_denom : text.
Variable decimals : Z.
Variable chain : bytes.
Variable cost_k1 cost_r1 : N.
Notation verify_data := (verify_data key_verify).
Notation signed := (signed key_verify).
Notation sig_gas := (sig_gas cost_k1 cost_r1).
Notation due := (due cost_k1 cost_r1).
Notation set_keys := (set_keys key_addr).
Notation gas_sum := (gas_sum cost_k1 cost_r1).

Lemma multi_loop_ok sb ks bits sigs : length ks = length bits ->
  multi_loop ks bits (map (fun s pk' => verify_data sb s pk') sigs) = ROk <->
  exists l, picks ks bits sigs l /\ forall p, p ∈ l -> verify_data sb (snd p) (fst p) = ROk.
Proof.
  revert ks sigs. induction bits as [|b bits IH]; intros [|pk ks] sigs HL; try done.
  - split; [|done]. intros _. exists []. split; [constructor|]. intros p Hp. inversion Hp.
  - cbn in HL. injection HL as HL. destruct b; cbn [multi_loop].
    + destruct sigs as [|s sigs]; cbn [map].
      * split; [done|]. intros (l & Hp & _). inversion Hp.
      * destruct (verify_data sb s pk) eqn:E.
        -- rewrite IH by done. split.
           ++ intros (l & Hp & Hl). exists ((pk, s) :: l). split; [constructor; done|].
              intros p Hin. apply elem_of_cons in Hin as [->|Hin]; [done|auto].
           ++ intros (l & Hp & Hl). inversion Hp; subst. eexists. split; [done|]. intros p Hin. apply Hl. right. done.
        -- split; [done|]. intros (l & Hp & Hl). inversion Hp; subst.
           specialize (Hl (pk, s)). cbn in Hl. rewrite E in Hl. discriminate Hl. left.
        -- split; [done|]. intros (l & Hp & Hl). inversion Hp; subst.
           specialize (Hl (pk, s)). cbn in Hl. rewrite E in Hl. discriminate Hl. left.
    + rewrite IH by done. split; intros (l & Hp & Hl); [exists l; split; [constructor; done|done]|].
      inversion Hp; subst. eauto.
Qed.

Lemma verify_data_iff sb d : forall pk, verify_data sb d pk = ROk <-> signed sb pk d.
Proof.
  induction d as [mode b|bits sigs IH] using sigdata_rect'; intros pk; cbn [SigVerify.verify_data].
  - destruct (known_mode mode) eqn:Em; cbn [negb].
    + destruct (sb mode) as [m|] eqn:Eb.
      * split.
        -- intros H. apply known_mode_iff in Em.
           assert (plain_key pk /\ key_verify pk m b = true) as [].
           { destruct pk; try done; destruct (key_verify _ m b); done. }
           econstructor; eauto.
        -- intros H. inversion H as [? ? ? m' Hpl Hcm Hsb Hkv|]; subst. rewrite Eb in Hsb. injection Hsb as <-.
           destruct pk; try done; rewrite Hkv; done.
      * split; [done|]. intros H. inversion H; subst. congruence.
    + split; [done|]. intros H. inversion H as [? ? ? m' Hpl Hcm Hsb Hkv|]; subst. apply known_mode_iff in Hcm. congruence.
  - destruct pk as [| | | |k ks|]; try (split; [done|intros H; inversion H; done]).
    destruct (bool_decide (length ks = length bits)) eqn:E1; cbn [negb].
    2: { split; [done|]. intros H. inversion H as [|? ? ? ? l Hp Hk Hl Hall]; subst. apply bool_decide_eq_false in E1.
         apply picks_length in Hp as (? & _). done. }
    apply bool_decide_eq_true in E1.
    destruct (bool_decide (length sigs < k)%nat) eqn:E2; cbn [orb].
    { split; [done|]. intros H. inversion H as [|? ? ? ? l Hp Hk Hl Hall]; subst. apply bool_decide_eq_true in E2.
      apply picks_length in Hp as (? & ? & ?). lia. }
    apply bool_decide_eq_false in E2.
    destruct (bool_decide (length bits < length sigs)%nat) eqn:E3.
    { split; [done|]. intros H. inversion H; subst. apply bool_decide_eq_true in E3. lia. }
    apply bool_decide_eq_false in E3.
    destruct (bool_decide (count_true bits < k)%nat) eqn:E4.
    { split; [done|]. intros H. inversion H as [|? ? ? ? l Hp Hk Hl Hall]; subst. apply bool_decide_eq_true in E4.
      apply picks_length in Hp as (? & ? & ?). lia. }
    apply bool_decide_eq_false in E4.
    rewrite multi_loop_ok by done. split.
    + intros (l & Hp & Hl). pose proof (picks_length _ _ _ _ Hp) as (? & ? & ?).
      econstructor; [done|lia|lia|]. intros p Hin. apply IH; [eapply picks_elem; done|auto].
    + intros H. inversion H; subst. eexists. split; [done|]. intros p Hin.
      apply IH; [eapply picks_elem; done|auto].
Qed.

Lemma total_app l1 l2 : total (l1 ++ l2) = total l1 + total l2.
Proof. induction l1; cbn; lia. Qed.

Lemma gas_loop_iff ks0 ks bits sigs g :
  length ks = length bits ->
  gas_loop (length ks0) (ks0 ++ ks) bits (map (fun s pk' => sig_gas s pk') sigs) = Some g <->
  exists l gs, picks ks bits sigs l /\ length gs = length l /\ total gs = g /\
    forall i p h, l !! i = Some p -> gs !! i = Some h -> sig_gas (snd p) (fst p) = Some h.
Proof.
  revert ks0 ks sigs g. induction bits as [|b bits IH]; intros ks0 [|pk ks] sigs g HL; try done.
  - cbn. split.
    + intros [= <-]. exists [], []. split; [constructor|]. done.
    + intros (l & gs & Hp & Hl & Ht & _). inversion Hp; subst. destruct gs; done.
  - cbn in HL. injection HL as HL.
    assert (Hx : ks0 ++ pk :: ks = (ks0 ++ [pk]) ++ ks) by (rewrite <- app_assoc; done).
    assert (Hlen : S (length ks0) = length (ks0 ++ [pk])) by (rewrite app_length; cbn; lia).
    destruct b; cbn [gas_loop].
    + rewrite list_lookup_middle by done. cbn [mbind option_bind].
      destruct sigs as [|s sigs]; cbn [map].
      { split; [done|]. intros (l & gs & Hp & _). inversion Hp. }
      destruct (sig_gas s pk) as [a|] eqn:E; cbn [mbind option_bind].
      2: { split; [done|]. intros (l & gs & Hp & Hl & Ht & Hs). inversion Hp; subst.
           destruct gs as [|h gs]; [done|]. specialize (Hs 0%nat _ _ eq_refl eq_refl). cbn in Hs. congruence. }
      rewrite Hx, Hlen. specialize (IH (ks0 ++ [pk]) ks sigs).
      destruct (gas_loop (length (ks0 ++ [pk])) ((ks0 ++ [pk]) ++ ks) bits
                         (map (fun s pk' => sig_gas s pk') sigs)) as [r|] eqn:E2; cbn [mbind option_bind].
      * split.
        -- intros [= <-]. destruct (proj1 (IH r HL) eq_refl) as (l & gs & Hp & Hl & Ht & Hs).
           exists ((pk, s) :: l), (a :: gs). split; [constructor; done|]. split; [cbn; lia|]. split; [cbn; lia|].
           intros [|i] p h Hi Hh; cbn in *; [simplify_eq; done|eauto].
        -- intros (l & gs & Hp & Hl & Ht & Hs). inversion Hp; subst. destruct gs as [|h gs]; [done|].
           cbn in Hl. pose proof (Hs 0%nat _ _ eq_refl eq_refl) as H0. cbn in H0. rewrite E in H0. injection H0 as ->.
           assert (Some r = Some (total gs)) as [= ->].
           { apply IH; [done|]. exists l0, gs. split; [done|]. split; [lia|]. split; [done|].
             intros i p h' Hi Hh. exact (Hs (S i) p h' Hi Hh). }
           done.
      * split; [done|]. intros (l & gs & Hp & Hl & Ht & Hs). inversion Hp; subst. destruct gs as [|h gs]; [done|].
        assert (None = Some (total gs)) as Hb; [|done].
        apply IH; [done|]. exists l0, gs. cbn in Hl. split; [done|]. split; [lia|]. split; [done|].
        intros i p h' Hi Hh. exact (Hs (S i) p h' Hi Hh).
    + rewrite Hx, Hlen. rewrite IH by done. split.
      * intros (l & gs & Hp & Hr). exists l, gs. split; [constructor; done|done].
      * intros (l & gs & Hp & Hr). inversion Hp; subst. eauto.
Qed.

Lemma sig_gas_due sb d : forall pk g, signed sb pk d \/ (exists m b, d = SSingle m b) ->
  sig_gas d pk = Some g <-> due pk d g.
Proof.
  induction d as [mode b|bits sigs IH] using sigdata_rect'; intros pk g Hs.
  - destruct pk; cbn; (split; [intros H; simplify_eq; constructor|intros H; inversion H; subst; done]).
  - destruct Hs as [Hs|(? & ? & ?)]; [|done].
    destruct pk as [| | | |k ks|]; cbn [SigVerify.sig_gas];
      try (split; [intros H; simplify_eq; constructor|intros H; inversion H; subst; done]).
    inversion Hs as [|? ? ? ? l Hp Hk Hl Hall]; subst.
    pose proof (picks_length _ _ _ _ Hp) as (HL & _).
    pose proof (gas_loop_iff [] ks bits sigs g HL) as Hg. cbn [length app] in Hg. rewrite Hg.
    assert (Huniq : forall l', picks ks bits sigs l' -> l' = l).
    { clear -Hp. induction Hp; intros l' Hl'; inversion Hl'; subst; f_equal; auto. }
    split.
    + intros (l' & gs & Hp' & Hlen & <- & Hs'). pose proof (Huniq _ Hp'); subst l'.
      eapply due_multi; [done|done|]. intros i p h Hi Hh.
      assert (Hin : p ∈ l) by (eapply elem_of_list_lookup_2; done).
      apply (IH (snd p)); [eapply picks_elem; done|left; apply Hall; done|eauto].
    + intros H. inversion H as [| | |? ? ? ? l' gs Hp' Hlen Hs']; subst. pose proof (Huniq _ Hp'); subst l'.
      exists l, gs. split; [done|]. split; [done|]. split; [done|]. intros i p h Hi Hh.
      assert (Hin : p ∈ l) by (eapply elem_of_list_lookup_2; done).
      apply (IH (snd p)); [eapply picks_elem; done|left; apply Hall; done|eauto].
Qed.

(** ** Keys *)
Lemma set_keys_lookup l : forall accs accs1, NoDup (map snd l) -> set_keys accs l = Some accs1 ->
  forall a, accs1 !! a =
    match accs !! a with
    | None => None
    | Some acc => Some (match a_key acc with
                        | Some _ => acc
                        | None => match list_find (fun p => snd p = a) l with
                                  | Some (_, (sg, _)) => VAcc (v_key sg) (a_seq acc) (a_num acc)
                                  | None => acc
                                  end
                        end)
    end.
Proof.
  induction l as [|[sg b] l IH]; intros accs accs1 HN; cbn [SigVerify.set_keys].
  - intros [= <-] a. destruct (accs !! a) as [acc|]; [|done]. cbn. destruct (a_key acc); done.
  - cbn in HN. apply NoDup_cons in HN as [Hni HN].
    assert (Hnf : list_find (fun p : vsig * bytes => snd p = b) l = None).
    { apply list_find_None, Forall_forall. intros p Hp Hb. apply Hni.
      apply elem_of_list_fmap. exists p. done. }
    destruct (v_key sg) as [pk|] eqn:Ek.
    + destruct (bool_decide (key_addr pk = b)); cbn [negb]; [|done].
      destruct (accs !! b) as [acc|] eqn:Eb; cbn [mbind option_bind]; [|done].
      destruct (a_key acc) as [k0|] eqn:E0.
      * intros H a. rewrite (IH _ _ HN H a). destruct (accs !! a) as [acc'|] eqn:Ea; [|done].
        destruct (a_key acc') eqn:E'; [done|]. cbn [list_find]. destruct (decide (b = a)) as [->|Hne].
        -- congruence.
        -- rewrite decide_False by done. destruct (list_find (fun p : vsig * bytes => snd p = a) l) as [[? [? ?]]|]; reflexivity.
      * intros H a. rewrite (IH _ _ HN H a). destruct (decide (b = a)) as [->|Hne].
        -- rewrite lookup_insert, Eb. cbn [a_key]. rewrite E0. cbn [list_find]. rewrite decide_True by done. cbn. rewrite Ek. done.
        -- rewrite lookup_insert_ne by done. destruct (accs !! a) as [acc'|]; [|done].
           destruct (a_key acc'); [done|]. cbn [list_find]. rewrite decide_False by done. destruct (list_find (fun p : vsig * bytes => snd p = a) l) as [[? [? ?]]|]; reflexivity.
    + intros H a. rewrite (IH _ _ HN H a). destruct (accs !! a) as [acc'|]; [|done].
      destruct (a_key acc') eqn:E'; [done|]. cbn [list_find]. destruct (decide (b = a)) as [->|Hne].
      * rewrite decide_True by done. rewrite Hnf. cbn. rewrite Ek. destruct acc'; cbn in *; subst; done.
      * rewrite decide_False by done. destruct (list_find (fun p : vsig * bytes => snd p = a) l) as [[? [? ?]]|]; reflexivity.
Qed.
Lemma set_keys_some l : forall accs, 
  (is_Some (set_keys accs l)) <->
  forall sg a pk, (sg, a) ∈ l -> v_key sg = Some pk -> key_addr pk = a /\ is_Some (accs !! a).
Proof.
  induction l as [|[sg b] l IH]; intros accs; cbn [SigVerify.set_keys].
  - split; [|done]. intros _ ? ? ? H. inversion H.
  - destruct (v_key sg) as [pk|] eqn:Ek.
    + destruct (bool_decide (key_addr pk = b)) eqn:Ea; cbn [negb].
      2: { split; [intros []; done|]. intros H. apply bool_decide_eq_false in Ea.
           destruct (H sg b pk (elem_of_list_here _ _) Ek) as [? _]. done. }
      apply bool_decide_eq_true in Ea.
      destruct (accs !! b) as [acc|] eqn:Eb; cbn [mbind option_bind].
      2: { split; [intros []; done|]. intros H. destruct (H sg b pk (elem_of_list_here _ _) Ek) as [_ Hs].
           rewrite Eb in Hs. destruct Hs. done. }
      assert (Hgen : forall accs', (forall a, is_Some (accs' !! a) <-> is_Some (accs !! a)) ->
        is_Some (set_keys accs' l) <->
        (forall sg0 a pk0, (sg0, a) ∈ (sg, b) :: l -> v_key sg0 = Some pk0 -> key_addr pk0 = a /\ is_Some (accs !! a))).
      { intros accs' He. rewrite IH. split.
        - intros H sg0 a pk0 Hin Hk. apply elem_of_cons in Hin as [Heq|Hin].
          + injection Heq as -> ->. rewrite Ek in Hk. injection Hk as <-. split; [done|]. rewrite Eb. eauto.
          + destruct (H _ _ _ Hin Hk) as [? Hs]. split; [done|]. apply He. done.
        - intros H sg0 a pk0 Hin Hk. destruct (H sg0 a pk0 (elem_of_list_further _ _ _ Hin) Hk) as [? Hs]. split; [done|]. apply He. done. }
      destruct (a_key acc); [apply Hgen; done|]. apply Hgen. intros a.
      rewrite lookup_insert_is_Some'. split; [|by right]. intros [<-|?]; [rewrite Eb; eauto|done].
    + rewrite IH. split.
      * intros H sg0 a pk0 Hin Hk. apply elem_of_cons in Hin as [Heq|Hin]; [injection Heq as -> ->; congruence|eauto].
      * intros H sg0 a pk0 Hin Hk. eapply H; [right; done|done].
Qed.

Lemma gas_sum_iff accs l g : gas_sum accs l = Some g <->
  exists gs, length gs = length l /\ total gs = g /\
    forall i sg a h, l !! i = Some (sg, a) -> gs !! i = Some h ->
      exists acc pk, accs !! a = Some acc /\ a_key acc = Some pk /\ sig_gas (v_data sg) pk = Some h.
Proof.
  revert g. induction l as [|[sg a] l IH]; intros g; cbn [SigVerify.gas_sum].
  - split.
    + intros [= <-]. exists []. done.
    + intros (gs & Hl & <- & _). destruct gs; done.
  - split.
    + destruct (accs !! a) as [acc|] eqn:E1; [|done]. cbn [mbind option_bind].
      destruct (a_key acc) as [pk|] eqn:E2; [|done]. cbn [mbind option_bind].
      destruct (sig_gas (v_data sg) pk) as [h|] eqn:E3; [|done]. cbn [mbind option_bind].
      destruct (gas_sum accs l) as [r|] eqn:E4; [|done]. cbn [mbind option_bind].
      intros [= <-]. destruct (proj1 (IH r) eq_refl) as (gs & Hl & Ht & Hs).
      exists (h :: gs). split; [cbn; lia|]. split; [cbn; lia|].
      intros [|i] sg' a' h' Hi Hh; cbn in *; [simplify_eq; eauto|eauto].
    + intros (gs & Hl & <- & Hs). destruct gs as [|h gs]; [done|].
      destruct (Hs 0%nat sg a h eq_refl eq_refl) as (acc & pk & -> & Ek & Eg). cbn [mbind option_bind].
      rewrite Ek. cbn [mbind option_bind]. rewrite Eg. cbn [mbind option_bind].
      assert (gas_sum accs l = Some (total gs)) as ->; [|done].
      apply IH. exists gs. cbn in Hl. split; [lia|]. split; [done|]. intros i sg' a' h' Hi Hh. exact (Hs (S i) sg' a' h' Hi Hh).
Qed.

Notation verify_one := (verify_one keccak bech_dec recover_addr key_addr key_verify sign_bytes fee_denom decimals chain).
Notation verify_all := (verify_all keccak bech_dec recover_addr key_addr key_verify sign_bytes fee_denom decimals chain).
Lemma verify_all_iff recheck genesis accs x l :
  verify_all recheck genesis accs x l = ROk <->
  forall sg a, (sg, a) ∈ l -> verify_one recheck genesis accs x sg a = ROk.
Proof.
  induction l as [|[sg a] l IH]; cbn [SigVerify.verify_all].
  - split; [|done]. intros _ ? ? H. inversion H.
  - split.
    + intros H sg' a' Hin. destruct (verify_one _ _ _ _ sg a) eqn:E; try done.
      apply elem_of_cons in Hin as [Heq|Hin]; [injection Heq as -> ->; done|]. apply IH; done.
    + intros H. rewrite (H sg a (elem_of_list_here _ _)). apply IH. intros sg' a' Hin. apply H. right. done.
Qed.
End sig.
