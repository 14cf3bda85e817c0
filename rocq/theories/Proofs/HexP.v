From Verif.Base Require Import Prelude Hex.
Local Open Scope N_scope.

Lemma unhexd_hexd up n : n < 16 -> unhexd (hexd up n) = Some n.
Proof.
  intros Hn. unfold hexd, unhexd. destruct (N.ltb_spec n 10).
  - replace ((48 <=? 48 + n) && (48 + n <=? 57)) with true by (symmetry; apply andb_true_iff; split; apply N.leb_le; lia).
    f_equal. lia.
  - destruct up.
    + replace ((48 <=? 55 + n) && (55 + n <=? 57)) with false by (symmetry; apply andb_false_iff; right; apply N.leb_gt; lia).
      replace ((97 <=? 55 + n) && (55 + n <=? 102)) with false by (symmetry; apply andb_false_iff; left; apply N.leb_gt; lia).
      replace ((65 <=? 55 + n) && (55 + n <=? 70)) with true by (symmetry; apply andb_true_iff; split; apply N.leb_le; lia).
      f_equal. lia.
    + replace ((48 <=? 87 + n) && (87 + n <=? 57)) with false by (symmetry; apply andb_false_iff; right; apply N.leb_gt; lia).
      replace ((97 <=? 87 + n) && (87 + n <=? 102)) with true by (symmetry; apply andb_true_iff; split; apply N.leb_le; lia).
      f_equal. lia.
Qed.
Lemma byte_split x : x < 256 -> x / 16 < 16 /\ x mod 16 < 16 /\ x / 16 * 16 + x mod 16 = x.
Proof.
  intros Hx. split; [apply N.div_lt_upper_bound; lia|]. split; [apply N.mod_lt; lia|].
  pose proof (N.div_mod' x 16). lia.
Qed.
Lemma hex_enc_length b : forall up, length (hex_enc up b) = (2 * length b)%nat.
Proof. induction b as [|x b IH]; intros up; [done|]. cbn [hex_enc length]. rewrite IH. lia. Qed.
Lemma hex_dec_enc b : forall up, bytes_ok b -> hex_dec (hex_enc up b) = Some b.
Proof.
  induction b as [|x b IH]; intros up Hb; [done|]. inversion Hb as [|? ? Hx Hb']; subst.
  destruct (byte_split x Hx) as (H1 & H2 & H3). cbn [hex_enc hex_dec].
  rewrite !unhexd_hexd by done. cbn. rewrite IH by done. cbn. rewrite H3. done.
Qed.
Lemma hex2bytes_enc b : forall up, bytes_ok b -> hex2bytes (hex_enc up b) = b.
Proof.
  induction b as [|x b IH]; intros up Hb; [done|]. inversion Hb as [|? ? Hx Hb']; subst.
  destruct (byte_split x Hx) as (H1 & H2 & H3). cbn [hex_enc hex2bytes].
  rewrite !unhexd_hexd by done. rewrite IH by done. rewrite H3. done.
Qed.
Lemma hexutil_decode_encode b : bytes_ok b -> hexutil_decode (hexutil_encode b) = Some b.
Proof. intros Hb. unfold hexutil_decode, hexutil_encode. cbn. apply hex_dec_enc. done. Qed.
Lemma to_fixed_id n b : length b = n -> to_fixed n b = b.
Proof. intros Hl. unfold to_fixed. rewrite decide_True by lia. rewrite Hl, Nat.sub_diag. done. Qed.
Lemma to_fixed_length n b : length (to_fixed n b) = n.
Proof.
  unfold to_fixed. case_decide; [rewrite drop_length; lia|]. rewrite app_length, replicate_length. lia.
Qed.
Lemma from_hex_prefixed up b : bytes_ok b -> from_hex ([48; 120] ++ hex_enc up b) = b.
Proof.
  intros Hb. unfold from_hex. cbn [strip0x app N.eqb]. cbn. rewrite hex_enc_length.
  replace (Nat.odd _) with false.
  - apply hex2bytes_enc. done.
  - symmetry. rewrite <- Nat.negb_even. rewrite (proj2 (Nat.even_spec _)); [done|]. exists (length b). lia.
Qed.
Lemma strip_plain up b t : bytes_ok b -> strip0x (hex_enc up b ++ t) = hex_enc up b ++ t \/ b = [].
Proof.
  intros Hb. destruct b as [|x b]; [right; done|left]. inversion Hb as [|? ? Hx _]; subst.
  destruct (byte_split x Hx) as (H1 & H2 & _). cbn [hex_enc app].
  assert (Hd : hexd (up 1%nat) (x mod 16) <> 120 /\ hexd (up 1%nat) (x mod 16) <> 88).
  { unfold hexd. destruct (N.ltb_spec (x mod 16) 10); destruct (up 1%nat); lia. }
  remember (hexd (up 0%nat) (x / 16)) as c. remember (hexd (up 1%nat) (x mod 16)) as d. clear Heqc Heqd.
  assert (Hs : forall t', strip0x (c :: d :: t') = c :: d :: t').
  { intros t'. unfold strip0x. destruct Hd as [Hd1 Hd2].
    assert (E : (d =? 120) || (d =? 88) = false) by (apply orb_false_iff; split; apply N.eqb_neq; done).
    rewrite E. destruct c as [|p]; [done|]. do 6 (destruct p as [p|p|]; try done). }
  apply Hs.
Qed.
Lemma from_hex_plain up b : bytes_ok b -> from_hex (hex_enc up b) = b.
Proof.
  intros Hb. unfold from_hex. destruct (strip_plain up b [] Hb) as [He| ->].
  - rewrite !app_nil_r in He. rewrite He, hex_enc_length.
    replace (Nat.odd _) with false; [apply hex2bytes_enc; done|].
    symmetry. rewrite <- Nat.negb_even. rewrite (proj2 (Nat.even_spec _)); [done|]. exists (length b). lia.
  - done.
Qed.
Lemma hex_to_address_hex ck a : bytes_ok a -> length a = 20%nat -> hex_to_address (address_hex ck a) = a.
Proof. intros Hb Hl. unfold hex_to_address, address_hex. rewrite from_hex_prefixed by done. apply to_fixed_id. done. Qed.
Lemma hex_to_address_plain up a : bytes_ok a -> length a = 20%nat -> hex_to_address (hex_enc up a) = a.
Proof. intros Hb Hl. unfold hex_to_address. rewrite from_hex_plain by done. apply to_fixed_id. done. Qed.
Lemma hex_to_hash_hex h : bytes_ok h -> length h = 32%nat -> hex_to_hash (hash_hex h) = h.
Proof. intros Hb Hl. unfold hex_to_hash, hash_hex, hexutil_encode. rewrite from_hex_prefixed by done. apply to_fixed_id. done. Qed.
Lemma hex_enc_digits b : forall up, bytes_ok b ->
  forallb (fun c => match unhexd c with Some _ => true | None => false end) (hex_enc up b) = true.
Proof.
  induction b as [|x b IH]; intros up Hb; [done|]. inversion Hb as [|? ? Hx Hb']; subst.
  destruct (byte_split x Hx) as (H1 & H2 & _). cbn [hex_enc forallb]. rewrite !unhexd_hexd by done. cbn. apply IH. done.
Qed.
Lemma is_hex_address_hex ck a : bytes_ok a -> length a = 20%nat -> is_hex_address (address_hex ck a) = true.
Proof.
  intros Hb Hl. unfold is_hex_address, address_hex. cbn. rewrite hex_enc_length, Hl. cbn.
  apply hex_enc_digits. done.
Qed.
Lemma is_hex_address_plain up a : bytes_ok a -> length a = 20%nat -> is_hex_address (hex_enc up a) = true.
Proof.
  intros Hb Hl. unfold is_hex_address. destruct (strip_plain up a [] Hb) as [He| ->]; [|done].
  rewrite !app_nil_r in He. rewrite He, hex_enc_length, Hl. cbn. apply hex_enc_digits. done.
Qed.
(** An address parsed from any text is well formed. *)
Lemma unhexd_lt c n : unhexd c = Some n -> n < 16.
Proof.
  unfold unhexd. destruct ((48 <=? c) && (c <=? 57)) eqn:E1.
  - apply andb_true_iff in E1 as [? H2%N.leb_le]. intros [= <-]. apply N.leb_le in H. lia.
  - destruct ((97 <=? c) && (c <=? 102)) eqn:E2.
    + apply andb_true_iff in E2 as [H1%N.leb_le H2%N.leb_le]. intros [= <-]. lia.
    + destruct ((65 <=? c) && (c <=? 70)) eqn:E3; [|done].
      apply andb_true_iff in E3 as [H1%N.leb_le H2%N.leb_le]. intros [= <-]. lia.
Qed.
Lemma hex2bytes_ok n : forall t, (length t <= n)%nat -> bytes_ok (hex2bytes t).
Proof.
  induction n as [|n IH]; intros t Hl.
  - destruct t; [constructor|cbn in Hl; lia].
  - destruct t as [|c [|d t]]; [constructor|constructor|]. cbn [hex2bytes]. cbn in Hl.
    destruct (unhexd c) eqn:E1; [|constructor]. destruct (unhexd d) eqn:E2; [|constructor].
    apply unhexd_lt in E1, E2. constructor; [lia|]. apply IH. lia.
Qed.
Lemma to_fixed_ok n b : bytes_ok b -> bytes_ok (to_fixed n b).
Proof.
  intros Hb. unfold to_fixed. case_decide; [apply Forall_drop; done|]. apply Forall_app. split; [|done].
  apply Forall_replicate. lia.
Qed.
Lemma hex_to_address_ok t : bytes_ok (hex_to_address t) /\ length (hex_to_address t) = 20%nat.
Proof. split; [|apply to_fixed_length]. apply to_fixed_ok. unfold from_hex. eapply hex2bytes_ok. done. Qed.
