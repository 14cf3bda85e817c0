(** C123: numbers and addresses as text, in contracts (Model/SolStrings.v). *)
From Verif.Base Require Import Prelude Hex Dec.
From Verif.Model Require Import SolStrings.
From Verif.Proofs Require Import HexP BytesP.
Local Open Scope N_scope.

Lemma digit_lookup n : n < 16 → hex_digits !! N.to_nat n = Some (hexd false n).
Proof.
  intros H. assert (Hb : forallb (fun k => bool_decide (hex_digits !! k = Some (hexd false (N.of_nat k)))) (seq 0 16) = true) by (vm_compute; reflexivity).
  rewrite forallb_forall in Hb. specialize (Hb (N.to_nat n)). rewrite bool_decide_eq_true, N2Nat.id in Hb. apply Hb. apply in_seq. lia.
Qed.
Lemma digit_lookup10 n : n < 10 → hex_digits !! N.to_nat n = Some (digit n).
Proof. intros H. rewrite digit_lookup by lia. unfold hexd, digit. by rewrite (proj2 (N.ltb_lt n 10)). Qed.

(** ** log10 *)
Definition lstep_inv (k : N) (v : N) (s : N * N) : Prop :=
  0 < fst s ∧ 10 ^ snd s * fst s <= v < 10 ^ snd s * (fst s + 1) ∧ fst s < 10 ^ k.
Lemma log10_step_inv k p v s : p <= k → k <= 2 * p → lstep_inv k v s → lstep_inv p v (log10_step p s).
Proof.
  intros Hp Hk (H0 & [H1 H2] & H3). unfold log10_step. destruct (N.leb_spec (10 ^ p) (fst s)) as [Hle|Hlt]; [|done].
  assert (HP : 10 ^ p ≠ 0) by (apply N.pow_nonzero; lia).
  unfold lstep_inv. cbn [fst snd]. pose proof (N.div_mod (fst s) (10 ^ p) HP) as Hd. pose proof (N.mod_lt (fst s) (10 ^ p) HP) as Hm.
  set (q := fst s / 10 ^ p) in *. set (m := fst s mod 10 ^ p) in *. rewrite N.pow_add_r. assert (HR : 0 < 10 ^ snd s) by (apply N.neq_0_lt_0, N.pow_nonzero; lia).
  assert (0 < q) by (apply N.div_str_pos; lia). split; [done|].
  assert (Hq : q < 10 ^ p).
  { apply N.div_lt_upper_bound; [done|]. eapply N.lt_le_trans; [exact H3|]. rewrite <- N.pow_add_r. apply N.pow_le_mono_r; lia. }
  clearbody m q. set (P := 10 ^ p) in *. clearbody P. split; [|done].
  rewrite <- !N.mul_assoc. split.
  - etransitivity; [|exact H1]. apply N.mul_le_mono_l. lia.
  - eapply N.lt_le_trans; [exact H2|]. apply N.mul_le_mono_l. rewrite N.mul_add_distr_l. lia.
Qed.
(** log10 is the number of digits less one. *)
Theorem C123_log10 v : 0 < v < 2 ^ 256 → 10 ^ log10 v <= v < 10 ^ (log10 v + 1).
Proof.
  intros [Hv Hm]. unfold log10.
  assert (HI : lstep_inv 128 v (v, 0)).
  { unfold lstep_inv. cbn [fst snd]. split; [done|]. rewrite N.pow_0_r. split; [lia|]. eapply N.lt_trans; [exact Hm|]. vm_compute. reflexivity. }
  apply (log10_step_inv 128 64) in HI; [|lia..]. apply (log10_step_inv 64 32) in HI; [|lia..]. apply (log10_step_inv 32 16) in HI; [|lia..].
  apply (log10_step_inv 16 8) in HI; [|lia..]. apply (log10_step_inv 8 4) in HI; [|lia..]. apply (log10_step_inv 4 2) in HI; [|lia..].
  destruct (log10_step 2 _) as [v1 r1]. destruct HI as (H0 & [H1 H2] & H3). cbn [fst snd] in *.
  assert (HR : 0 < 10 ^ r1) by (apply N.neq_0_lt_0, N.pow_nonzero; lia).
  change (10 ^ 2) with 100 in H3. change (10 ^ 1) with 10.
  destruct (N.leb_spec 10 v1); rewrite ?N.pow_add_r; change (10 ^ 1) with 10; nia.
Qed.

(** ** toString *)
Lemma dec_loop_S p v buf : v mod 10 < 10 → dec_loop (S p) v buf =
  let buf := <[p := digit (v mod 10)]> buf in if v / 10 =? 0 then Some buf else dec_loop p (v / 10) buf.
Proof. intros H. cbn [dec_loop]. by rewrite (digit_lookup10 (v mod 10)) by done. Qed.
Lemma dec_loop_spec p : ∀ v buf f, v < 2 ^ N.of_nat f → v < 10 ^ N.of_nat (S p) → (10 ^ N.of_nat p <= v ∨ v = 0 ∧ p = 0%nat) → (S p <= length buf)%nat →
  dec_loop (S p) v buf = Some (dec_go (S f) v (drop (S p) buf)).
Proof.
  induction p as [|p IH]; intros v buf f Hf Hv Hl Hb; rewrite dec_loop_S by (apply N.mod_lt; lia); cbv zeta; cbn [dec_go].
  - assert (v < 10) by (change (10 ^ N.of_nat 1) with 10 in Hv; lia). rewrite N.div_small by done. cbn. destruct buf; [cbn in Hb; lia|]. done.
  - destruct Hl as [Hl|[_ Hl]]; [|done].
    assert (10 <= v).
    { rewrite Nat2N.inj_succ, N.pow_succ_r' in Hl. assert (0 < 10 ^ N.of_nat p) by (apply N.neq_0_lt_0, N.pow_nonzero; lia). nia. }
    assert (1 <= v / 10) by (apply N.div_le_lower_bound; lia).
    destruct (N.eqb_spec (v / 10) 0); [lia|]. destruct f as [|f]; [change (2 ^ N.of_nat 0) with 1 in Hf; lia|].
    rewrite (IH (v / 10) _ f).
    + f_equal. change (dec_go (S f) (v / 10) (drop (S p) (<[S p := digit (v mod 10)]> buf)) = dec_go (S f) (v / 10) (digit (v mod 10) :: drop (S (S p)) buf)).
      f_equal. rewrite <- (drop_insert_gt buf (S (S p)) (S p) (digit (v mod 10))) by lia. apply drop_S. by rewrite list_lookup_insert by lia.
    + apply N.div_lt_upper_bound; [lia|]. rewrite Nat2N.inj_succ, N.pow_succ_r' in Hf. lia.
    + apply N.div_lt_upper_bound; [lia|]. rewrite (Nat2N.inj_succ (S p)), N.pow_succ_r' in Hv. lia.
    + left. apply N.div_le_lower_bound; [lia|]. rewrite Nat2N.inj_succ, N.pow_succ_r' in Hl. lia.
    + pose proof (insert_length buf (S p) (digit (v mod 10))). unfold bytes in *. lia.
Qed.

Lemma size_nat_gt n : n < 2 ^ N.of_nat (N.size_nat n).
Proof.
  destruct n as [|p]; [done|]. cbn [N.size_nat].
  induction p as [p IH|p IH|]; cbn [Pos.size_nat]; rewrite Nat2N.inj_succ, N.pow_succ_r'; lia.
Qed.
Lemma to_string_dec_of v : v < 2 ^ 256 → to_string v = Some (dec_of v).
Proof.
  intros Hv. unfold to_string. cbv zeta. rewrite N.add_1_r, N2Nat.inj_succ.
  destruct (decide (v = 0)) as [->|Hnz]; [done|]. destruct (C123_log10 v ltac:(lia)) as [H1 H2].
  rewrite (dec_loop_spec _ v _ (N.size_nat v)).
  - f_equal. unfold dec_of. f_equal. apply drop_ge. by rewrite repeat_length.
  - apply size_nat_gt.
  - rewrite <- N2Nat.inj_succ, N2Nat.id. by rewrite <- N.add_1_r.
  - left. by rewrite N2Nat.id.
  - by rewrite repeat_length.
Qed.
Lemma dec_loop_length p : ∀ v buf t, dec_loop p v buf = Some t → length t = length buf.
Proof.
  induction p as [|p IH]; intros v buf t; [done|]. rewrite dec_loop_S by (apply N.mod_lt; lia). cbv zeta.
  destruct (v / 10 =? 0); [intros [= <-]; apply insert_length|]. intros H. rewrite (IH _ _ _ H). apply insert_length.
Qed.
Lemma dec_go_head f : ∀ v acc, v ≠ 0 → v < 2 ^ N.of_nat f → head (dec_go (S f) v acc) ≠ Some 48.
Proof.
  induction f as [|f IH]; intros v acc Hnz Hv; [change (2 ^ N.of_nat 0) with 1 in Hv; lia|].
  change (dec_go (S (S f)) v acc) with (if v / 10 =? 0 then digit (v mod 10) :: acc else dec_go (S f) (v / 10) (digit (v mod 10) :: acc)).
  destruct (N.eqb_spec (v / 10) 0) as [E|E].
  - cbn. intros [= E2]. unfold digit in E2. pose proof (N.div_mod' v 10). lia.
  - apply IH; [done|]. apply N.div_lt_upper_bound; [lia|]. rewrite Nat2N.inj_succ, N.pow_succ_r' in Hv. lia.
Qed.
(** toString of any uint256 stays within its buffer and is the usual decimal text. *)
Theorem C123_decimal v : v < 2 ^ 256 →
  ∃ t, to_string v = Some t ∧ Forall (fun c => 48 <= c <= 57) t ∧ dec_parse t = Some v ∧
    (v ≠ 0 → head t ≠ Some 48) ∧ (v = 0 → t = txt "0") ∧ N.of_nat (length t) = log10 v + 1.
Proof.
  intros Hv. pose proof (to_string_dec_of v Hv) as Hd. exists (dec_of v). split; [done|]. split; [|split; [apply dec_parse_of|split; [|split]]].
  - eapply Forall_impl; [apply dec_of_digits|]. intros c Hc. unfold is_digit in Hc. apply andb_prop in Hc as [H1 H2]. apply N.leb_le in H1, H2. done.
  - intros Hnz. apply dec_go_head; [done|apply size_nat_gt].
  - by intros ->.
  - unfold to_string in Hd. cbv zeta in Hd. apply dec_loop_length in Hd. rewrite Hd, repeat_length. lia.
Qed.

(** ** toHexString *)
Lemma hex_loop_S k v buf : hex_loop (S k) v buf =
  if decide (S (S k) < length buf)%nat then hex_loop k (v / 16) (<[S (S k) := hexd false (v mod 16)]> buf) else None.
Proof.
  cbn [hex_loop]. assert (N.land v 15 = v mod 16) as -> by (change 15 with (N.ones 4); apply N.land_ones).
  rewrite digit_lookup by (apply N.mod_lt; lia). cbn [mbind option_bind]. rewrite N.shiftr_div_pow2. done.
Qed.
Lemma hexd_byte v : v mod 256 / 16 = v / 16 mod 16 ∧ v mod 256 mod 16 = v mod 16 ∧ v / 16 / 16 = v / 256.
Proof.
  change 256 with (16 * 16). rewrite N.div_div by lia. split; [|split; [|done]].
  - rewrite N.mod_mul_r by lia. rewrite N.mul_comm, N.div_add by lia. rewrite N.div_small by (apply N.mod_lt; lia). lia.
  - rewrite N.mod_mul_r by lia. rewrite N.mul_comm, N.mod_add by lia. apply N.mod_mod. lia.
Qed.
Lemma hex_enc_snoc l z : hex_enc lower (l ++ [z]) = hex_enc lower l ++ [hexd false (z / 16); hexd false (z mod 16)].
Proof. induction l as [|x l IH]; [done|]. cbn [app hex_enc]. change (fun i => lower (2 + i)%nat) with lower. by rewrite IH. Qed.
Lemma hex_loop_spec n : ∀ v a b rest tail, length rest = (2 * n)%nat →
  hex_loop (2 * n) v (a :: b :: rest ++ tail) = Some (a :: b :: hex_enc lower (be n v) ++ tail, v / 256 ^ N.of_nat n).
Proof.
  induction n as [|n IH]; intros v a b rest tail Hl.
  - destruct rest; [|done]. cbn. by rewrite N.div_1_r.
  - destruct rest as [|y rest _] using rev_ind; [done|]. destruct rest as [|x rest _] using rev_ind; [cbn in Hl; lia|].
    rewrite !app_length in Hl. cbn [length] in Hl. assert (Hr : length rest = (2 * n)%nat) by lia. clear Hl.
    replace (2 * S n)%nat with (S (S (2 * n))) by lia. rewrite <- !app_assoc. cbn [app].
    rewrite hex_loop_S. rewrite decide_True by (cbn [length]; rewrite app_length; cbn [length]; lia).
    rewrite hex_loop_S. rewrite decide_True by (rewrite insert_length; cbn [length]; rewrite app_length; cbn [length]; lia).
    destruct (hexd_byte v) as (E1 & E2 & E3). rewrite E3.
    assert (<[S (S (2 * n)) := hexd false (v / 16 mod 16)]> (<[S (S (S (2 * n))) := hexd false (v mod 16)]> (a :: b :: rest ++ x :: y :: tail))
      = a :: b :: rest ++ hexd false (v mod 256 / 16) :: hexd false (v mod 256 mod 16) :: tail) as ->.
    { rewrite E1, E2, <- Hr. apply list_eq. intros k.
      assert (HL : length (a :: b :: rest ++ x :: y :: tail) = (4 + length rest + length tail)%nat) by (cbn; rewrite app_length; cbn; lia).
      destruct (decide (k = S (S (length rest)))) as [->|H1].
      { rewrite list_lookup_insert by (rewrite insert_length; lia). simpl. rewrite lookup_app_r by lia. by rewrite Nat.sub_diag. }
      rewrite list_lookup_insert_ne by done. destruct (decide (k = S (S (S (length rest))))) as [->|H2].
      { rewrite list_lookup_insert by lia. simpl. rewrite lookup_app_r by lia. by replace (S (length rest) - length rest)%nat with 1%nat by lia. }
      rewrite list_lookup_insert_ne by done. destruct k as [|[|k]]; [done|done|]. simpl. destruct (decide (k < length rest)%nat).
      - by rewrite !lookup_app_l by done.
      - rewrite !lookup_app_r by lia. destruct (k - length rest)%nat as [|[|m]] eqn:Em; [lia|lia|done]. }
    rewrite IH by done. cbn [be]. rewrite hex_enc_snoc, <- app_assoc. cbn [app].
    rewrite N.div_div by (try apply N.pow_nonzero; lia). rewrite Nat2N.inj_succ, N.pow_succ_r'. done.
Qed.
(** toHexString(value, length) is 0x and the 2*length hexadecimal digits, lower case, of the value;
    it reverts exactly when the value does not fit. *)
Theorem C123_hex v len :
  (v < 256 ^ N.of_nat len → ∃ b, length b = len ∧ bytes_ok b ∧ of_be b = v ∧ to_hex_string v len = Some (txt "0x" ++ hex_enc lower b)) ∧
  (256 ^ N.of_nat len <= v → to_hex_string v len = None).
Proof.
  assert (Hs : to_hex_string v len = if v / 256 ^ N.of_nat len =? 0 then Some (txt "0x" ++ hex_enc lower (be len v)) else None).
  { unfold to_hex_string. cbv zeta. replace (2 * len + 2)%nat with (S (S (2 * len))) by lia. cbn [repeat].
    change (<[1%nat := 120]> (<[0%nat := 48]> (0 :: 0 :: repeat 0 (2 * len)))) with (48 :: 120 :: repeat 0 (2 * len)).
    rewrite <- (app_nil_r (repeat 0 (2 * len))). rewrite hex_loop_spec by apply repeat_length. rewrite app_nil_r. done. }
  rewrite Hs. assert (HP : 256 ^ N.of_nat len ≠ 0) by (apply N.pow_nonzero; lia). split; intros H.
  - exists (be len v). split; [apply be_length|]. split; [apply be_bytes_ok|]. split; [by apply of_be_be_small|]. by rewrite N.div_small by done.
  - destruct (N.eqb_spec (v / 256 ^ N.of_nat len) 0) as [E|E]; [|done]. apply N.div_small_iff in E; [lia|done].
Qed.
(** toHexString(address) never fails, and reading the text gives the address back. *)
Theorem C123_address a : length a = 20%nat → bytes_ok a →
  ∃ t, to_hex_address a = Some t ∧ length t = 42%nat ∧ t = hexutil_encode a ∧ is_hex_address t = true ∧ hex_to_address t = a.
Proof.
  intros Hl Hb. pose proof (of_be_bound a Hb) as Hlt. rewrite Hl in Hlt. destruct (proj1 (C123_hex (of_be a) 20) Hlt) as (b & H1 & H2 & H3 & H4).
  assert (b = a) as ->. { rewrite <- (be_of_be a Hb), <- (be_of_be b H2), H1, Hl. by rewrite H3. }
  exists (hexutil_encode a). split; [exact H4|]. split.
  { unfold hexutil_encode. rewrite app_length, hex_enc_length, Hl. done. }
  split; [done|]. split; [by apply (is_hex_address_hex (fun _ => lower))|by apply (hex_to_address_hex (fun _ => lower))].
Qed.
(** The texts the model of ERC20Wrapper puts into its message (Model/Wrapper.v) are these. *)
Theorem C123_wrapper_texts n a : n < 2 ^ 256 → length a = 20%nat → bytes_ok a →
  to_string n = Some (dec_of n) ∧ to_hex_address a = Some (hexutil_encode a).
Proof. intros Hn Hl Hb. split; [by apply to_string_dec_of|]. destruct (C123_address a Hl Hb) as (t & H & _ & -> & _). done. Qed.
Example C123_example :
  to_string 0 = Some (txt "0") ∧ to_string 100 = Some (txt "100") ∧ to_string (10 ^ 64) = Some (txt ("1" ++ String.concat "" (List.repeat "0" 64))%string) ∧
  to_string (2 ^ 256 - 1) = Some (txt "115792089237316195423570985008687907853269984665640564039457584007913129639935") ∧
  to_hex_string 4660 2 = Some (txt "0x1234") ∧ to_hex_string 65536 2 = None ∧
  to_hex_address (replicate 19 0 ++ [241]) = Some (txt "0x00000000000000000000000000000000000000f1").
Proof. vm_compute. repeat split. Qed.
