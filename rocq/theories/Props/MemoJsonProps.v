(** C144: the callback id of a memo. *)
From Verif.Base Require Import Prelude Hex.
From Verif.Model Require Import IbcHooks MemoJson.
From Verif.Props Require Import IbcHooksProps.
From stdpp Require Import sorting.
Open Scope N_scope.

(** ** Numbers through float64 *)
Lemma size_small n : n < 2 ^ 53 → N.size n - 53 = 0.
Proof.
  intros H. destruct (decide (n = 0)) as [->|Hn]; [done|]. rewrite N.size_log2 by done.
  assert (N.log2 n < 53) by (apply N.log2_lt_pow2; lia). lia.
Qed.
Lemma nearest_round n : let k := N.size n - 53 in
  nearest n = n / 2 ^ k * 2 ^ k ∨ nearest n = (n / 2 ^ k + 1) * 2 ^ k.
Proof. cbv zeta. unfold nearest. destruct (_ || _); [by left|by right]. Qed.
Lemma nearest_divides n : n mod 2 ^ (N.size n - 53) = 0 → nearest n = n.
Proof.
  intros H. unfold nearest. set (k := N.size n - 53) in *. assert (2 ^ k ≠ 0) by (apply N.pow_nonzero; done). rewrite H.
  assert ((2 * 0 <? 2 ^ k) = true) as -> by (apply N.ltb_lt; lia). cbn [orb].
  pose proof (N.div_mod n (2 ^ k) ltac:(done)). lia.
Qed.
Lemma nearest_small n : n < 2 ^ 53 → nearest n = n.
Proof. intros H. apply nearest_divides. rewrite size_small by done. change (2 ^ 0) with 1. apply N.mod_1_r. Qed.
Lemma nearest_exact q k : q < 2 ^ 53 → nearest (q * 2 ^ k) = q * 2 ^ k.
Proof.
  intros Hq. destruct (decide (q = 0)) as [->|H0]; [done|]. apply nearest_divides.
  assert (Hk : 2 ^ k ≠ 0) by (apply N.pow_nonzero; done).
  assert (N.size (q * 2 ^ k) - 53 ≤ k) as Hs.
  { rewrite N.size_log2 by nia. assert (N.log2 (q * 2 ^ k) < 53 + k); [|lia]. apply N.log2_lt_pow2; [nia|]. rewrite N.pow_add_r. nia. }
  replace k with (N.size (q * 2 ^ k) - 53 + (k - (N.size (q * 2 ^ k) - 53))) at 1 by lia.
  rewrite N.pow_add_r. rewrite (N.mul_comm (2 ^ _) (2 ^ _)), N.mul_assoc. apply N.mod_mul, N.pow_nonzero. done.
Qed.
Lemma big_parts n : 2 ^ 53 ≤ n → let k := N.size n - 53 in 1 ≤ k ∧ 2 ^ 52 ≤ n / 2 ^ k ∧ n / 2 ^ k < 2 ^ 53.
Proof.
  intros H. cbv zeta. assert (Hn : n ≠ 0) by (intros ->; done). rewrite N.size_log2 by done.
  assert (53 ≤ N.log2 n) by (apply N.log2_le_pow2; lia). destruct (N.log2_spec n ltac:(lia)) as [H1 H2].
  split; [lia|]. set (k := N.succ (N.log2 n) - 53). assert (N.log2 n = 52 + k) as E by lia. rewrite E in *.
  assert (2 ^ k ≠ 0) by (apply N.pow_nonzero; done). rewrite N.pow_succ_r', N.pow_add_r in H2. rewrite N.pow_add_r in H1. split.
  - apply N.div_le_lower_bound; [done|]. lia.
  - apply N.div_lt_upper_bound; [done|]. change (2 ^ 53) with (2 * 2 ^ 52). lia.
Qed.
Lemma nearest_big n : 2 ^ 53 ≤ n → 2 ^ 53 ≤ nearest n ∧ N.even (nearest n) = true.
Proof.
  intros H. destruct (big_parts n H) as (Hk & Hq & _). destruct (nearest_round n) as [E|E]; cbv zeta in E; rewrite E;
    set (k := N.size n - 53) in *; set (q := n / 2 ^ k) in *.
  all: assert (2 ^ k = 2 * 2 ^ (k - 1)) as E2 by (rewrite <- N.pow_succ_r'; f_equal; lia).
  all: assert (1 ≤ 2 ^ (k - 1)) by (assert (2 ^ (k - 1) ≠ 0) by (apply N.pow_nonzero; done); lia).
  all: split; [change (2 ^ 53) with (2 * 2 ^ 52); rewrite E2; nia|].
  all: rewrite E2, N.even_mul, N.even_mul; change (N.even 2) with true; by rewrite orb_true_r.
Qed.
Lemma nearest_idem n : nearest (nearest n) = nearest n.
Proof.
  destruct (decide (n < 2 ^ 53)) as [H|H]; [by rewrite !(nearest_small n H)|]. apply N.nlt_ge in H.
  destruct (big_parts n H) as (Hk & Hq & Hq2). destruct (nearest_round n) as [E|E]; cbv zeta in E; rewrite E.
  - by apply nearest_exact.
  - destruct (decide (n / 2 ^ (N.size n - 53) + 1 < 2 ^ 53)); [by apply nearest_exact|].
    assert (n / 2 ^ (N.size n - 53) + 1 = 2 ^ 52 * 2) as -> by (change (2 ^ 52 * 2) with (2 ^ 53); lia).
    rewrite <- N.mul_assoc, <- N.pow_succ_r'. apply nearest_exact. done.
Qed.
Lemma shorter_sound f e m : shorter f e = Some m → nearest m = f.
Proof.
  unfold shorter. cbv zeta. set (lo := f / 10 ^ N.of_nat e * 10 ^ N.of_nat e).
  destruct (N.eqb_spec (nearest lo) f), (N.eqb_spec (nearest (lo + 10 ^ N.of_nat e)) f); intros [= <-]; try done. by destruct (_ <=? _).
Qed.
Lemma shortest_sound f e : nearest f = f → nearest (shortest_from f e) = f.
Proof.
  intros Hf. induction e as [|e IH]; cbn [shortest_from]; (destruct (shorter f _) eqn:E; [by eapply shorter_sound|]); done.
Qed.
Lemma shortest_even f e : nearest f = f → N.even f = true → N.even (shortest_from f e) = true.
Proof.
  intros Hf He. induction e as [|e IH]; cbn [shortest_from].
  - unfold shorter. cbv zeta. change (10 ^ N.of_nat 0) with 1. rewrite N.div_1_r, N.mul_1_r, Hf, N.eqb_refl, N.sub_diag.
    destruct (_ =? f); [|done]. by rewrite (proj2 (N.leb_le _ _)) by lia.
  - destruct (shorter f (S e)) as [m|] eqn:E; [|done]. unfold shorter in E. cbv zeta in E.
    assert (H10 : N.even (10 ^ N.of_nat (S e)) = true).
    { rewrite Nat2N.inj_succ, N.pow_succ_r', N.even_mul. done. }
    assert (Hlo : N.even (f / 10 ^ N.of_nat (S e) * 10 ^ N.of_nat (S e)) = true) by (by rewrite N.even_mul, H10, orb_true_r).
    set (lo := f / 10 ^ N.of_nat (S e) * 10 ^ N.of_nat (S e)) in *.
    assert (Hhi : N.even (lo + 10 ^ N.of_nat (S e)) = true) by (by rewrite N.even_add, Hlo, H10).
    destruct (_ =? f), (_ =? f); try done; injection E as <-; try done. by destruct (_ <=? _).
Qed.
(** C144. Every number up to 2^53 arrives as it was written. *)
Theorem C144_exact n : n ≤ 2 ^ 53 → number_back n = Some n.
Proof.
  intros Hle. destruct (decide (n = 2 ^ 53)) as [->|Hne]; [vm_compute; reflexivity|]. assert (H : n < 2 ^ 53) by lia.
  unfold number_back, read_float. rewrite (nearest_small n H).
  rewrite (proj2 (N.ltb_lt n (2 ^ 1024))) by (eapply N.lt_trans; [exact H|vm_compute; reflexivity]). cbn [mbind option_bind].
  unfold uint64_of_float. rewrite (proj2 (N.ltb_lt n (10 ^ 21))) by (eapply N.lt_trans; [exact H|vm_compute; reflexivity]).
  assert (shortest n = n) as ->.
  { pose proof (shortest_sound n 20 (nearest_small n H)) as E. unfold shortest. set (m := shortest_from n 20) in *.
    destruct (decide (m < 2 ^ 53)) as [Hm|Hm]; [by rewrite nearest_small in E|]. apply N.nlt_ge in Hm. destruct (nearest_big m Hm). lia. }
  by rewrite (proj2 (N.ltb_lt n (2 ^ 64))) by (eapply N.lt_trans; [exact H|vm_compute; reflexivity]).
Qed.
(** What arrives, if anything does, is the same float64. *)
Theorem C144_same_float n m : number_back n = Some m → nearest m = nearest n ∧ m < 2 ^ 64.
Proof.
  unfold number_back, read_float. destruct (_ <? _); [|done]. cbn [mbind option_bind]. unfold uint64_of_float.
  destruct (_ <? _); [|done]. destruct (N.ltb_spec (shortest (nearest n)) (2 ^ 64)); [|done]. intros [= <-].
  split; [|done]. apply shortest_sound, nearest_idem.
Qed.
(** From 2^53 on no odd number arrives as it was written: it arrives as another or not at all. *)
Theorem C144_odd_refuted n : 2 ^ 53 ≤ n → N.odd n = true → number_back n ≠ Some n.
Proof.
  intros H Ho. unfold number_back, read_float. destruct (_ <? _); [|done]. cbn [mbind option_bind]. unfold uint64_of_float.
  destruct (_ <? _); [|done]. destruct (_ <? _); [|done]. intros [= E].
  pose proof (shortest_even (nearest n) 20 (nearest_idem n) (proj2 (nearest_big n H))) as He. unfold shortest in E.
  rewrite E in He. unfold N.odd in Ho. by rewrite He in Ho.
Qed.
(** Neighbours arrive as the same number. *)
Theorem C144_confused_refuted n : 2 ^ 53 ≤ n < 2 ^ 54 → n mod 4 = 0 → number_back (n + 1) = number_back n.
Proof.
  intros [H1 H2] H4. pose proof (N.div_mod n 4 ltac:(done)) as Hd. rewrite H4, N.add_0_r in Hd. set (j := n / 4) in *.
  assert (Hs : ∀ x, x = n ∨ x = n + 1 → N.size x - 53 = 1).
  { intros x Hx. rewrite N.size_log2 by lia. rewrite (N.log2_unique x 53); [done|lia|]. change (2 ^ N.succ 53) with (2 ^ 54).
    destruct Hx as [->| ->]; [done|]. split; [lia|]. rewrite Hd in H2 |- *. change (2 ^ 54) with (4 * 2 ^ 52) in *. lia. }
  assert (E1 : nearest (n + 1) = n).
  { unfold nearest. rewrite (Hs (n + 1)) by (by right). change (2 ^ 1) with 2. rewrite Hd.
    assert ((4 * j + 1) / 2 = 2 * j) as E by (symmetry; apply (N.div_unique _ _ _ 1); lia).
    assert ((4 * j + 1) mod 2 = 1) as -> by (symmetry; apply (N.mod_unique _ _ (2 * j)); lia).
    rewrite E. change (2 * 1 <? 2) with false. change (2 * 1 =? 2) with true. rewrite N.even_mul. cbn [orb andb N.even]. lia. }
  assert (E2 : nearest n = n).
  { apply nearest_divides. rewrite Hs by (by left). change (2 ^ 1) with 2. rewrite Hd. replace (4 * j) with (2 * j * 2) by lia. by apply N.mod_mul. }
  unfold number_back, read_float. by rewrite E1, E2.
Qed.

(** ** The memo *)
(** [v] is the last value in [l] under the key [k]. *)
Definition last_under (k : text) (l : list (text * gjson)) (v : gjson) : Prop :=
  ∃ l1 l2, l = l1 ++ (k, v) :: l2 ∧ k ∉ l2.*1.
(** Only one key of [l] reads as [name] (written in one way), and its last value is [v]. *)
Definition only (name : text) (l : list (text * gjson)) (v : gjson) : Prop :=
  ∃ k, fold_key k = name ∧ last_under k l v ∧ ∀ k', k' ∈ l.*1 → fold_key k' = name → k' = k.
(** No key of [l] reads as [name]. *)
Definition absent (name : text) (l : list (text * gjson)) : Prop := ∀ k, k ∈ l.*1 → fold_key k ≠ name.

Lemma last_of_last k l v : last_under k l v → last_of k l = Some v.
Proof.
  intros (l1 & l2 & -> & Hn). unfold last_of. rewrite filter_app, filter_cons_True by done.
  assert (filter (λ kv : text * gjson, fst kv = k) l2 = []) as ->; [|by rewrite last_snoc].
  induction l2 as [|[k' v'] l2 IH]; [done|]. rewrite fmap_cons, not_elem_of_cons in Hn. destruct Hn as [Hk Hn].
  rewrite filter_cons_False; [by apply IH|]. cbn. intros E. by apply Hk.
Qed.
Lemma remove_dups_same (k : text) l : k ∈ l → (∀ k', k' ∈ l → k' = k) → remove_dups l = [k].
Proof.
  intros Hk Ha. assert (∀ m, NoDup m → k ∈ m → (∀ k', k' ∈ m → k' = k) → m = [k]) as H.
  { intros m Hnd Hin Hall. destruct m as [|x m]; [by apply elem_of_nil in Hin|]. assert (x = k) as -> by (apply Hall; left).
    destruct m as [|y m]; [done|]. assert (y = k) as -> by (apply Hall; right; left). apply NoDup_cons in Hnd as [Hx _].
    exfalso. apply Hx. left. }
  apply H; [apply NoDup_remove_dups|by apply elem_of_remove_dups|]. intros k' Hk'. apply Ha. by apply elem_of_remove_dups.
Qed.
Lemma values_only name l v : only name l v → values_of name l = [v].
Proof.
  intros (k & Hk & Hl & Ha). unfold values_of.
  rewrite (remove_dups_same k).
  - change (omap (λ k0, last_of k0 l) (merge_sort (λ a b, Is_true (text_le a b)) [k])) with (omap (λ k0, last_of k0 l) [k]).
    cbn [omap list_omap]. by rewrite (last_of_last _ _ _ Hl).
  - destruct Hl as (l1 & l2 & -> & _). apply elem_of_list_fmap. exists (k, v). split; [done|]. apply elem_of_list_filter. split; [done|].
    apply elem_of_app. right. left.
  - intros k' Hk'. apply elem_of_list_fmap in Hk' as ([k1 v1] & -> & Hin). apply elem_of_list_filter in Hin as [Hf Hin].
    apply Ha; [|done]. apply elem_of_list_fmap. by exists (k1, v1).
Qed.
Lemma values_absent name l : absent name l → values_of name l = [].
Proof.
  intros Ha. unfold values_of. assert (filter (λ kv : text * gjson, fold_key (fst kv) = name) l = []) as ->; [|done].
  destruct (filter _ l) as [|[k v] m] eqn:E; [done|]. exfalso.
  assert ((k, v) ∈ filter (λ kv : text * gjson, fold_key (fst kv) = name) l) as Hin by (rewrite E; left).
  apply elem_of_list_filter in Hin as [Hf Hin]. apply (Ha k); [|done]. apply elem_of_list_fmap. by exists (k, v).
Qed.
Section memo.
Variable json : text → option gjson.
Variable read_message : list gjson → option hmsg * bool.
(** The memo asks for the callback [n] of the contract [a] (and its message, if any, is in order). *)
Definition memo_asks (memo : text) (n : N) (a : text) : Prop :=
  ∃ l l2 l3, memo ≠ [] ∧ json memo = Some (GObj l) ∧ last_under (txt "evm") l (GObj l2) ∧
    only (txt "async_callback") l2 (GObj l3) ∧ only (txt "id") l3 (GNum n) ∧ only (txt "contract_address") l3 (GStr a) ∧
    snd (read_message (values_of (txt "message") l2)) = false.
(** The memo asks for no callback: it is no object, has no "evm", or nothing (or null) stands there
    or under its async_callback. *)
Definition memo_silent (memo : text) : Prop :=
  memo = [] ∨ (∀ l, json memo ≠ Some (GObj l)) ∨
  ∃ l, json memo = Some (GObj l) ∧
    (txt "evm" ∉ l.*1 ∨ last_under (txt "evm") l GNull ∨
     ∃ l2, last_under (txt "evm") l (GObj l2) ∧ (absent (txt "async_callback") l2 ∨ only (txt "async_callback") l2 GNull)).
(** What stands under "evm" or its async_callback cannot be read: no object, or one whose
    contract_address is no string or whose id is no number. *)
Definition misshapen_callback (v : gjson) : Prop :=
  match v with
  | GNull => False
  | GObj l => ∃ v', only (txt "contract_address") l v' ∧ (match v' with GNull | GStr _ => False | _ => True end) ∨
                    only (txt "id") l v' ∧ (match v' with GNull | GNum _ => False | _ => True end)
  | _ => True
  end.
Definition memo_misshapen (memo : text) : Prop :=
  ∃ l v, json memo = Some (GObj l) ∧ last_under (txt "evm") l v ∧
    match v with
    | GNull => False
    | GObj l2 => ∃ v2, only (txt "async_callback") l2 v2 ∧ misshapen_callback v2
    | _ => True
    end.
(** All its numbers are in the range of a float64. *)
Definition floats_in_range (memo : text) : Prop := ∃ v, json memo = Some v ∧ floats_ok v = true.
Notation the_memo := (read_memo json read_message).

Lemma memo_reads memo n a : memo_asks memo n a →
  the_memo memo = unrouted ∨
  hk_routed (the_memo memo) = true ∧
  match number_back n with
  | Some i => hk_callback (the_memo memo) = Some (HCallback i a) ∧ hk_err (the_memo memo) = false
  | None => hk_err (the_memo memo) = true
  end.
Proof.
  intros (l & l2 & l3 & Hm & Hj & Hl & H2 & H3 & H4 & Hmsg). apply last_of_last in Hl. unfold read_memo. destruct memo as [|c memo]; [done|]. rewrite Hj, Hl.
  destruct (floats_ok (GObj l)); [|by left]. right. unfold read_hook.
  rewrite (values_only _ _ _ H2). cbn [read_callback default hc_id hc_contract].
  rewrite (values_only _ _ _ H3), (values_only _ _ _ H4). cbn [read_id read_string].
  destruct (read_message _) as [m e]. cbn [snd] in Hmsg. subst e. destruct (number_back n) as [i|]; done.
Qed.
Lemma memo_routed memo n a : memo_asks memo n a → floats_in_range memo → hk_routed (the_memo memo) = true.
Proof.
  intros Ha (v & Hv & Hf). destruct (memo_reads memo n a Ha) as [E|[E _]]; [|done]. exfalso.
  destruct Ha as (l & l2 & l3 & Hm & Hj & Hl & _). apply last_of_last in Hl. unfold read_memo in E. destruct memo as [|c memo]; [done|]. rewrite Hj in E.
  rewrite Hv in Hj. injection Hj as ->. rewrite Hf, Hl in E. unfold read_hook in E. destruct (read_callback _ _), (read_message _). done.
Qed.
Lemma last_of_none k l : k ∉ l.*1 → last_of k l = None.
Proof.
  intros Hn. unfold last_of. assert (filter (λ kv : text * gjson, fst kv = k) l = []) as ->; [|done].
  induction l as [|[k' v'] l IH]; [done|]. rewrite fmap_cons, not_elem_of_cons in Hn. destruct Hn as [Hk Hn].
  rewrite filter_cons_False; [by apply IH|]. cbn. intros E. by apply Hk.
Qed.
Lemma memo_silent_reads memo : memo_silent memo → hk_routed (the_memo memo) = false ∨ hk_callback (the_memo memo) = None.
Proof.
  intros H. unfold read_memo. destruct memo as [|c memo]; [by left|]. destruct H as [H|[H|(l & Hj & H)]]; [done| |].
  - destruct (json _) as [[]|]; try (by left). by destruct (H l).
  - rewrite Hj. destruct (floats_ok _); [|by left]. destruct H as [H|[H|(l2 & H & H2)]].
    + rewrite last_of_none by done. by left.
    + rewrite (last_of_last _ _ _ H). by right.
    + rewrite (last_of_last _ _ _ H). unfold read_hook.
      assert (read_callback (values_of (txt "async_callback") l2) None = (None, false)) as ->.
      { destruct H2 as [H2|H2]; [by rewrite values_absent|by rewrite (values_only _ _ _ H2)]. }
      destruct (read_message _). by right.
Qed.
Lemma memo_misshapen_reads memo : memo_misshapen memo → hk_routed (the_memo memo) = false ∨ hk_err (the_memo memo) = true.
Proof.
  intros (l & v & Hj & Hl & H). apply last_of_last in Hl. unfold read_memo. destruct memo as [|c memo]; [by left|]. rewrite Hj, Hl.
  destruct (floats_ok _); [|by left]. right. destruct v as [|?|?|?|?|l2]; try done. destruct H as (v2 & H2 & H). unfold read_hook.
  rewrite (values_only _ _ _ H2). destruct (read_message _) as [m e].
  assert (snd (read_callback [v2] None) = true) as E; [|by destruct (read_callback [v2] None); cbn in *; subst].
  destruct v2 as [|?|?|?|?|l3]; try done. destruct H as (v' & [[H3 Hv]|[H3 Hv]]); cbn [read_callback]; rewrite (values_only _ _ _ H3).
  - destruct (read_id _ _) as [i e1]. destruct v'; try done; cbn; by rewrite ?orb_true_r.
  - destruct (read_string _ _) as [i e1]. destruct v'; done.
Qed.

Section hooks.
Context {S : Type} (C : hchain S).
Hypothesis memo_is : ch_memo C = the_memo.

Lemma asks_number w1 p d n a input m : ch_decode_ack C p = Some d → memo_asks (hd_memo d) n a →
  asks_callback C w1 p input m → ∃ i, number_back n = Some i ∧ m = HMsg (hd_sender d) a (input i).
Proof.
  intros Hd Ha (d' & cb & x & Hd' & Hr & Hc & He & _ & _ & ->). rewrite Hd in Hd'. injection Hd' as <-. rewrite memo_is in Hr, Hc, He.
  destruct (memo_reads _ _ _ Ha) as [E|[_ E]]; [by rewrite E in Hr|].
  destruct (number_back n) as [i|]; [|congruence]. destruct E as [E _]. rewrite E in Hc. injection Hc as <-. by exists i.
Qed.
(** C144. The contract is called back with the id that the memo names, for ids up to 2^53: after an
    acknowledgement and after a timeout, whatever is called is this, and it is called if the contract
    may be. *)
Theorem C144_called_back w p ack d n a w1 :
  ch_decode_ack C p = Some d → memo_asks (hd_memo d) n a → n ≤ 2 ^ 53 →
  let answer := HMsg (hd_sender d) a (IAck n (negb (ch_ack_error C ack))) in
  let late := HMsg (hd_sender d) a (ITimeout n) in
  (∀ m, EvCall m ∈ snd (ack_override C w p ack) → m = answer) ∧
  (∀ m, EvCall m ∈ snd (timeout_override C w p) → m = late) ∧
  (∀ x, floats_in_range (hd_memo d) → contract_address C a = Some x → ch_allowed C (hw_store w1) x = Some true →
     (ch_ack C w p ack = HRet true w1 → snd (ack_override C w p ack) = [EvApp p; EvCall answer]) ∧
     (ch_timeout C w p = HRet true w1 → snd (timeout_override C w p) = [EvApp p; EvCall late])).
Proof.
  intros Hd Ha Hn answer late. pose proof (C144_exact n Hn) as Hb. split; [|split].
  - intros m Hm. apply C48_calls in Hm as (w2 & _ & Hm & _). destruct (asks_number _ _ _ _ _ _ _ Hd Ha Hm) as (i & Ei & ->). rewrite Hb in Ei. by injection Ei as <-.
  - intros m Hm. apply C48_calls_timeout in Hm as (w2 & _ & Hm & _). destruct (asks_number _ _ _ _ _ _ _ Hd Ha Hm) as (i & Ei & ->). rewrite Hb in Ei. by injection Ei as <-.
  - intros x Hfl Hx Hal. pose proof (memo_routed _ _ _ Ha Hfl) as Hro. destruct (memo_reads _ _ _ Ha) as [E|[_ E]]; [by rewrite E in Hro|].
    rewrite Hb in E. destruct E as [Ec Ee].
    assert (Hcb : ∀ input, snd (callback C w1 p d input) = [EvCall (HMsg (hd_sender d) a (input n))]).
    { intros input. unfold callback. rewrite memo_is, Hro, Ec, Ee. unfold check_acl. cbn [hc_contract hc_id]. rewrite Hx. cbn [mbind option_bind]. rewrite Hal.
      destruct (ch_call C w1 _) as [[] ?|]; done. }
    split; intros Hok.
    + unfold ack_override. rewrite Hok, Hd. specialize (Hcb (λ id, IAck id (negb (ch_ack_error C ack)))).
      destruct (callback C w1 p d _) as [o t]. cbn [snd] in *. by rewrite Hcb.
    + unfold timeout_override. rewrite Hok, Hd. specialize (Hcb ITimeout). destruct (callback C w1 p d _) as [o t]. cbn [snd] in *. by rewrite Hcb.
Qed.
(** A memo that asks for no callback gets none. *)
Theorem C144_not_asked w p ack d : ch_decode_ack C p = Some d → memo_silent (hd_memo d) →
  (∀ m, EvCall m ∉ snd (ack_override C w p ack)) ∧ (∀ m, EvCall m ∉ snd (timeout_override C w p)).
Proof.
  intros Hd Hs. apply memo_silent_reads in Hs. split; intros m Hm.
  - apply C48_calls in Hm as (w2 & _ & (d' & cb & x & Hd' & Hr & Hc & _) & _). rewrite Hd in Hd'. injection Hd' as <-. rewrite memo_is in Hr, Hc.
    destruct Hs; congruence.
  - apply C48_calls_timeout in Hm as (w2 & _ & (d' & cb & x & Hd' & Hr & Hc & _) & _). rewrite Hd in Hd'. injection Hd' as <-. rewrite memo_is in Hr, Hc.
    destruct Hs; congruence.
Qed.
(** Nor does one that cannot be read. *)
Theorem C144_misshapen w p ack d : ch_decode_ack C p = Some d → memo_misshapen (hd_memo d) →
  (∀ m, EvCall m ∉ snd (ack_override C w p ack)) ∧ (∀ m, EvCall m ∉ snd (timeout_override C w p)).
Proof.
  intros Hd Hs. apply memo_misshapen_reads in Hs. split; intros m Hm.
  - apply C48_calls in Hm as (w2 & _ & (d' & cb & x & Hd' & Hr & _ & He & _) & _). rewrite Hd in Hd'. injection Hd' as <-. rewrite memo_is in Hr, He.
    destruct Hs; congruence.
  - apply C48_calls_timeout in Hm as (w2 & _ & (d' & cb & x & Hd' & Hr & _ & He & _) & _). rewrite Hd in Hd'. injection Hd' as <-. rewrite memo_is in Hr, He.
    destruct Hs; congruence.
Qed.
(** Not so beyond: an odd id from 2^53 on is never the one the contract is called with. *)
Theorem C144_wrong_id_refuted w p ack d n a m ok :
  ch_decode_ack C p = Some d → memo_asks (hd_memo d) n a → 2 ^ 53 ≤ n → N.odd n = true →
  (EvCall m ∈ snd (ack_override C w p ack) → hm_input m ≠ IAck n ok) ∧
  (EvCall m ∈ snd (timeout_override C w p) → hm_input m ≠ ITimeout n).
Proof.
  intros Hd Ha Hn Ho. pose proof (C144_odd_refuted n Hn Ho) as Hb. split; intros Hm.
  - apply C48_calls in Hm as (w2 & _ & Hm & _). destruct (asks_number _ _ _ _ _ _ _ Hd Ha Hm) as (i & Ei & ->). cbn. congruence.
  - apply C48_calls_timeout in Hm as (w2 & _ & Hm & _). destruct (asks_number _ _ _ _ _ _ _ Hd Ha Hm) as (i & Ei & ->). cbn. congruence.
Qed.
End hooks.
End memo.

(** The chain of C48_example with such a memo: {"evm": {"message": null, "async_callback": {"ID": n,
    "contract_address": ...}}}. The id 4 arrives, 2^53 + 1 arrives as 2^53, 2^64 - 1 not at all. *)
Definition mj_tree (n : N) : gjson :=
  GObj [(txt "note", GArr [GNum 7; GBool true]);
        (txt "evm", GObj [(txt "message", GNull); (txt "async_callback", GObj [(txt "ID", GNum n); (txt "contract_address", GStr x_hook_text)])])].
Definition mj_chain (n : N) : hchain (list hmsg) :=
  let c := x_chain x_hook_text (Some (AckResult [1])) (λ _, 10) x_call_ok in
  HChain _ (ch_recv c) (ch_ack c) (ch_timeout c) (ch_call c) (ch_allowed c) (ch_token c) (ch_class c) (ch_bech32 c)
    (ch_decode_recv c) (ch_decode_ack c) (ch_encode c) (read_memo (λ _, Some (mj_tree n)) (λ _, (None, false)))
    (ch_amount c) (ch_token_id c) (ch_ibc_denom c) (ch_ibc_class c) (ch_address_hash c) (ch_ack_error c).
Lemma mj_two name (k1 k2 : text) (v1 v2 : gjson) : fold_key k1 ≠ name → ∀ k', k' ∈ [(k1, v1); (k2, v2)].*1 → fold_key k' = name → k' = k2.
Proof. intros Hk k' H He. cbn in H. apply elem_of_cons in H as [->|H]; [done|]. by apply elem_of_list_singleton in H. Qed.
Lemma mj_two' name (k1 k2 : text) (v1 v2 : gjson) : fold_key k2 ≠ name → ∀ k', k' ∈ [(k1, v1); (k2, v2)].*1 → fold_key k' = name → k' = k1.
Proof. intros Hk k' H He. cbn in H. apply elem_of_cons in H as [->|H]; [done|]. apply elem_of_list_singleton in H as ->. done. Qed.
Example C144_example :
  map (λ n, omap (λ e, match e with EvCall m => Some (hm_input m) | _ => None end) (snd (ack_override (mj_chain n) x_world x_packet [1])))
      [4; 2 ^ 53; 2 ^ 53 + 1; 2 ^ 60; 2 ^ 64 - 1]
    = [[IAck 4 true]; [IAck (2 ^ 53) true]; [IAck (2 ^ 53) true]; [IAck 1152921504606847000 true]; []] ∧
  (∀ n, memo_asks (λ _, Some (mj_tree n)) (λ _, (None, false)) (txt "memo") n x_hook_text) ∧
  floats_in_range (λ _, Some (mj_tree 4)) (txt "memo").
Proof.
  split; [vm_compute; reflexivity|]. split.
  - intros n. eexists _, _, _. split; [done|]. split; [reflexivity|]. split; [by eexists [_], []; split; [reflexivity|apply not_elem_of_nil]|].
    assert (∀ k (v0 : text * gjson) v, last_under k [v0; (k, v)] v) as L2 by (intros k v0 v; exists [v0], []; split; [done|apply not_elem_of_nil]).
    split; [exists (txt "async_callback"); split; [done|]; split; [apply L2|by apply mj_two]|].
    split; [exists (txt "ID"); split; [done|]; split; [|by apply mj_two']|].
    { eexists [], [_]. split; [reflexivity|]. cbn. rewrite elem_of_list_singleton. done. }
    split; [exists (txt "contract_address"); split; [done|]; split; [apply L2|by apply mj_two]|]. done.
  - eexists. split; [reflexivity|]. vm_compute. reflexivity.
Qed.
(** A key given twice: the last counts. An async_callback that is null: none. *)
Example C144_twice :
  read_memo (λ _, Some (GObj [(txt "evm", GBool true); (txt "evm", GObj [(txt "async_callback", GObj [(txt "id", GNum 1); (txt "id", GNum 2); (txt "contract_address", GStr x_hook_text)])])]))
    (λ _, (None, false)) (txt "memo") = HMemo true None (Some (HCallback 2 x_hook_text)) false ∧
  memo_silent (λ _, Some (GObj [(txt "evm", GObj [(txt "async_callback", GNull)])])) (txt "memo").
Proof.
  split; [vm_compute; reflexivity|]. right. right. eexists. split; [reflexivity|]. right. right. eexists.
  split; [by eexists [], []; split; [reflexivity|apply not_elem_of_nil]|]. right. exists (txt "async_callback"). split; [done|].
  split; [by eexists [], []; split; [reflexivity|apply not_elem_of_nil]|]. intros k' Hk'. cbn in Hk'. by apply elem_of_list_singleton in Hk'.
Qed.
(** An address that is a number. *)
Example C144_misshapen_example :
  memo_misshapen (λ _, Some (GObj [(txt "evm", GObj [(txt "async_callback", GObj [(txt "id", GNum 1); (txt "contract_address", GNum 2)])])])) (txt "memo").
Proof.
  eexists _, _. split; [reflexivity|]. split; [exists [], []; split; [reflexivity|by apply (bool_decide_unpack _); vm_compute]|].
  eexists. split.
  - exists (txt "async_callback"). split; [by vm_compute|]. split; [exists [], []; split; [reflexivity|by apply (bool_decide_unpack _); vm_compute]|].
    intros k' Hk _. cbn in Hk. by apply elem_of_list_singleton in Hk.
  - exists (GNum 2). left. split; [|exact I]. exists (txt "contract_address"). split; [by vm_compute|].
    split; [exists [(txt "id", GNum 1)], []; split; [reflexivity|by apply (bool_decide_unpack _); vm_compute]|].
    intros k' Hk Hf. cbn [fmap list_fmap fst] in Hk. apply elem_of_cons in Hk as [->|Hk]; [by vm_compute in Hf|]. by apply elem_of_list_singleton in Hk.
Qed.
