(** Keeper functions on coins, beyond their loops. *)
From Verif.Base Require Import Prelude Hex.
From Verif.Model Require Import Token Bank.
From Verif.Spec Require Import TokenSpec.
From Verif.Proofs Require Import HexP TokenP BankP TokenMore.
Open Scope Z_scope.

Lemma ok_pair {A} (r : bool * A) : fst r = true → r = (true, snd r).
Proof. destruct r. simpl. by intros ->. Qed.

Lemma convert_addr m n addr s a m' n' : convert_to_evm m n addr s = Some (a, m', n') → a = bytes_to_address addr.
Proof.
  unfold convert_to_evm. destruct (Nat.eqb_spec (length addr) 20) as [Hl|].
  - intros [= <- _ _]. unfold bytes_to_address. by rewrite to_fixed_id.
  - repeat case_match; intros; simplify_eq; done.
Qed.
Lemma convert_20 m n addr s : length addr = 20%nat → convert_to_evm m n addr s = Some (addr, m, n).
Proof. intros Hl. unfold convert_to_evm. by rewrite Hl. Qed.
Lemma upd_accts_same w : upd_accts w (w_accts w) (w_nextnum w) = w.
Proof. by destruct w. Qed.

Lemma amount_in_le w c l x : (∀ y, y ∈ l → amount_ok (c_amt y)) → x ∈ l →
  denom_to_contract w (c_denom x) = Some c → c_amt x <= amount_in w c l.
Proof.
  intros Hok Hx Hd. induction l as [|y l IH]; [by apply elem_of_nil in Hx|].
  assert (0 <= amount_in w c l) by (apply amount_nonneg; intros; apply Hok; by right).
  destruct (Hok y (elem_of_list_here _ _)) as [? _]. simpl.
  apply elem_of_cons in Hx as [->|Hx].
  - rewrite bool_decide_eq_true_2 by done. lia.
  - assert (c_amt x <= amount_in w c l) by (apply IH; [intros; apply Hok; by right|done]). case_bool_decide; lia.
Qed.

(** The send loop goes through when everything is covered. *)
Lemma send_loop_complete E f from to l : chain_calls E f → from ≠ to → ∀ w, env_ok E → Inv E w → coins_ok w l →
  (∀ c, amount_in w c l <= balance w c from) → fst (send_loop f w from to l) = true.
Proof.
  intros Hf Hft. induction l as [|x l IH]; intros w HE Hi Hok Hle; [done|]. simpl.
  destruct (Hok x (elem_of_list_here _ _)) as (Hv & c0 & t & Hd & Ht). rewrite Hd.
  rewrite (chain_calls_token E f w c0 _ t Hf Ht). rewrite pack_id by done.
  assert (Hnn : ∀ y, y ∈ l → amount_ok (c_amt y)) by (intros y Hy; apply (Hok y); by right).
  pose proof (sudo_call E w c0 t (OSudoTransfer from to (c_amt x)) Hi Ht Hv I) as Hsc.
  assert (covered chain_addr (OSudoTransfer from to (c_amt x)) t) as Hcov.
  { simpl. specialize (Hle c0). simpl in Hle. rewrite Hd, bool_decide_eq_true_2 in Hle by done.
    pose proof (amount_nonneg w c0 l Hnn). unfold balance in Hle. unfold is_token in Ht. rewrite Ht in Hle. lia. }
  apply Hsc in Hcov. destruct (call_tok E w c0 chain_addr (OSudoTransfer from to (c_amt x))) as [ok w1] eqn:Hc.
  simpl in Hcov. subst ok.
  pose proof (call_effect E w c0 chain_addr (OSudoTransfer from to (c_amt x)) w1 Hi Hv Hc (ex_intro _ t Ht)) as (Eb & Es & Ek).
  pose proof (call_frame E w c0 chain_addr (OSudoTransfer from to (c_amt x))) as Hfr. rewrite Hc in Hfr.
  cbv zeta in Hfr. simpl in Hfr. destruct Hfr as (F1 & F2 & F3 & _).
  assert (same_tables w w1) as Hst by (split_and!; done).
  apply IH; [done| | |].
  - replace w1 with (snd (call_tok E w c0 chain_addr (OSudoTransfer from to (c_amt x)))) by by rewrite Hc.
    by apply inv_call.
  - intros y Hy. destruct (Hok y (elem_of_list_further _ _ _ Hy)) as (Hvy & cy & ty & Hdy & Hty).
    split; [done|]. exists cy. pose proof (Ek cy) as Hky.
    assert (code_kind w cy = Some (Some (t_kind ty))) as Hk0 by (apply code_kind_token; eauto).
    rewrite Hk0 in Hky. apply code_kind_token in Hky as (ty' & Hty' & _).
    exists ty'. split; [|done]. by rewrite (same_tables_d2c w w1).
  - intros c. rewrite (same_tables_amount w w1) by done. rewrite Eb. specialize (Hle c). simpl in Hle. rewrite Hd in Hle.
    simpl. unfold if_eq. rewrite (bool_decide_eq_false_2 (from = to)) by done.
    rewrite (bool_decide_eq_true_2 (from = from)) by done. repeat case_bool_decide; simplify_eq; lia.
Qed.

Lemma coins_ok_accts w m n l : coins_ok w l → coins_ok (upd_accts w m n) l.
Proof. done. Qed.

Lemma k_send_exact E f w from to l w' : chain_calls E f → reachable E w → coins_ok w l →
  k_send_coins f w from to l = (true, w') →
  let ef := bytes_to_address from in let et := bytes_to_address to in
  (∀ c a, balance w' c a = balance w c a + (if_eq a et (amount_in w c l) - if_eq a ef (amount_in w c l))) ∧
  (∀ c, supply w' c = supply w c) ∧ same_tables w w' ∧ (∀ c, code_kind w' c = code_kind w c) ∧
  (∀ c, ef ≠ et → amount_in w c l <= balance w c ef).
Proof.
  intros Hf Hr Hok. unfold k_send_coins.
  destruct (convert_to_evm _ _ from true) as [[[ef m1] n1]|] eqn:H1; [|done].
  cbv zeta. destruct (convert_to_evm _ _ to false) as [[[et m2] n2]|] eqn:H2; [|done].
  apply convert_addr in H1 as ->. apply convert_addr in H2 as ->. intros Hs.
  pose proof (inv_accts E _ m2 n2 (inv_accts E _ m1 n1 (inv_reachable E w Hr))) as Hi.
  destruct (send_loop_exact E f _ _ l Hf _ w' (proj1 Hr) Hi (coins_ok_accts _ _ _ _ (coins_ok_accts _ _ _ _ Hok)) Hs) as (A & B & C & D & F).
  assert (∀ c, amount_in (upd_accts (upd_accts w m1 n1) m2 n2) c l = amount_in w c l) as Ea
    by (intros c; by apply same_tables_amount).
  setoid_rewrite Ea in A. setoid_rewrite Ea in F.
  split; [exact A|]. split; [exact B|]. split; [exact C|]. split; [exact D|exact F].
Qed.

Lemma create_acct_code w a : w_code (create_acct w a) = w_code w ∧ same_tables w (create_acct w a) ∧ w_policy (create_acct w a) = w_policy w.
Proof. unfold create_acct. case_match; split_and!; done. Qed.

Lemma b_send_exact E B w from to to' l w' : chain_calls E (be_call B) → reachable E w → coins_ok w l →
  restr_apply (be_restr B) w from to l = Some to' →
  b_send_coins B w from to l = (true, w') →
  let ef := bytes_to_address from in let et := bytes_to_address to' in
  (∀ c a, balance w' c a = balance w c a + (if_eq a et (amount_in w c l) - if_eq a ef (amount_in w c l))) ∧
  (∀ c, supply w' c = supply w c) ∧ same_tables w w' ∧ (∀ c, code_kind w' c = code_kind w c) ∧
  (∀ c, ef ≠ et → amount_in w c l <= balance w c ef).
Proof.
  intros Hf Hr Hok Hre. unfold b_send_coins. rewrite Hre.
  destruct (k_send_coins _ _ _ _ _) as [ok w1] eqn:Hk. destruct ok; [|done]. intros [= <-].
  destruct (k_send_exact E _ _ _ _ _ _ Hf Hr Hok Hk) as (A & B0 & C & D & F).
  pose proof (create_acct_code w1 to') as (Ec & Et & _). destruct (same_code_balance _ _ Ec) as (G1 & G2 & G3).
  split; [intros c a; by rewrite G1, A|]. split; [intros c; by rewrite G2, B0|].
  split; [by eapply same_tables_trans|]. split; [intros c; by rewrite G3, D|done].
Qed.

(** ** Send restrictions *)

Definition run_restrictions (l : list restriction) (w : world) (from to : bytes) (amt : list coin) : option bytes :=
  foldl (fun acc r => to' ← acc; r w from to' amt) (Some to) l.
Lemma run_none l w from amt : foldl (fun acc (r : restriction) => to' ← acc; r w from to' amt) None l = None.
Proof. induction l; [done|]. simpl. done. Qed.
Lemma run_cons r l w from to amt :
  run_restrictions (r :: l) w from to amt = to' ← r w from to amt; run_restrictions l w from to' amt.
Proof. unfold run_restrictions. simpl. destruct (r w from to amt); simpl; [done|]. apply run_none. Qed.
Lemma run_app l1 l2 w from to amt :
  run_restrictions (l1 ++ l2) w from to amt = to' ← run_restrictions l1 w from to amt; run_restrictions l2 w from to' amt.
Proof.
  revert to. induction l1 as [|r l1 IH]; intros to; [done|].
  change ((r :: l1) ++ l2) with (r :: (l1 ++ l2)). rewrite !run_cons.
  destruct (r w from to amt); simpl; [apply IH|done].
Qed.
Lemma restr_then_run a b w from to amt :
  restr_apply (restr_then a b) w from to amt =
  to' ← restr_apply a w from to amt; restr_apply b w from to' amt.
Proof.
  unfold restr_then, compose_restrictions. destruct a as [a|], b as [b|]; simpl; try done.
  - by destruct (a w from to amt).
Qed.

(** ** Minting and burning go through when covered *)

Lemma known_denom_token E w d c : Inv E w → is_erc20_denom d = false → w_addr_of w !! d = Some c →
  ∃ t, is_token w c t ∧ t_kind t = KERC20.
Proof. intros Hi He Ha. apply (iv_bij E w Hi) in Ha. by destruct (iv_den E w Hi _ _ Ha) as (_ & _ & _ & ?). Qed.

Lemma mint_loop_complete E f a l : chain_calls E f → ∀ w, env_ok E → Inv E w →
  (∀ x, x ∈ l → amount_ok (c_amt x) ∧ is_erc20_denom (c_denom x) = false ∧ is_Some (w_addr_of w !! c_denom x)) →
  (∀ c, supply w c + amount_in w c l < two256) → fst (mint_loop E f w a l) = true.
Proof.
  intros Hf. induction l as [|x l IH]; intros w HE Hi Hok Hle; [done|]. simpl.
  destruct (Hok x (elem_of_list_here _ _)) as (Hv & He & [c0 Ha]). rewrite He, Ha.
  rewrite plain_denom by done. rewrite Ha.
  destruct (known_denom_token E w _ _ Hi He Ha) as (t & Ht & Hk).
  rewrite (chain_calls_token E f w c0 _ t Hf Ht). rewrite pack_id by done.
  assert (Hnn : ∀ y, y ∈ l → amount_ok (c_amt y)) by (intros y Hy; apply (Hok y); by right).
  pose proof (sudo_call E w c0 t (OSudoMint a (c_amt x)) Hi Ht Hv Hk) as Hsc.
  assert (covered chain_addr (OSudoMint a (c_amt x)) t) as Hcov.
  { simpl. specialize (Hle c0). simpl in Hle. rewrite plain_denom, Ha, bool_decide_eq_true_2 in Hle by done.
    pose proof (amount_nonneg w c0 l Hnn). unfold supply in Hle. unfold is_token in Ht. rewrite Ht in Hle. lia. }
  apply Hsc in Hcov. destruct (call_tok E w c0 chain_addr (OSudoMint a (c_amt x))) as [ok w1] eqn:Hc.
  simpl in Hcov. subst ok.
  pose proof (call_effect E w c0 chain_addr (OSudoMint a (c_amt x)) w1 Hi Hv Hc (ex_intro _ t Ht)) as (Eb & Es & Ek).
  pose proof (call_frame E w c0 chain_addr (OSudoMint a (c_amt x))) as Hfr. rewrite Hc in Hfr.
  cbv zeta in Hfr. simpl in Hfr. destruct Hfr as (F1 & F2 & F3 & _).
  assert (same_tables w w1) as Hst by (split_and!; done).
  apply IH; [done| | |].
  - replace w1 with (snd (call_tok E w c0 chain_addr (OSudoMint a (c_amt x)))) by by rewrite Hc.
    by apply inv_call.
  - intros y Hy. rewrite F2. apply Hok. by right.
  - intros c. rewrite (same_tables_amount w w1) by done. rewrite Es. specialize (Hle c). simpl in Hle.
    rewrite plain_denom, Ha in Hle by done. simpl. repeat case_bool_decide; simplify_eq; lia.
Qed.

Lemma burn_loop_complete E f fund a l : chain_calls E f → ∀ w, env_ok E → Inv E w →
  (∀ x, x ∈ l → amount_ok (c_amt x) ∧ is_erc20_denom (c_denom x) = false ∧ is_Some (w_addr_of w !! c_denom x)) →
  (∀ c, amount_in w c l <= balance w c a) → fst (burn_loop f fund w a l) = true.
Proof.
  intros Hf. induction l as [|x l IH]; intros w HE Hi Hok Hle; [done|]. simpl.
  destruct (Hok x (elem_of_list_here _ _)) as (Hv & He & [c0 Ha]). rewrite He.
  rewrite plain_denom by done. rewrite Ha.
  destruct (known_denom_token E w _ _ Hi He Ha) as (t & Ht & Hk).
  rewrite (chain_calls_token E f w c0 _ t Hf Ht). rewrite pack_id by done.
  assert (Hnn : ∀ y, y ∈ l → amount_ok (c_amt y)) by (intros y Hy; apply (Hok y); by right).
  pose proof (sudo_call E w c0 t (OSudoBurn a (c_amt x)) Hi Ht Hv Hk) as Hsc.
  assert (covered chain_addr (OSudoBurn a (c_amt x)) t) as Hcov.
  { simpl. specialize (Hle c0). simpl in Hle. rewrite plain_denom, Ha, bool_decide_eq_true_2 in Hle by done.
    pose proof (amount_nonneg w c0 l Hnn). unfold balance in Hle. unfold is_token in Ht. rewrite Ht in Hle. lia. }
  apply Hsc in Hcov. destruct (call_tok E w c0 chain_addr (OSudoBurn a (c_amt x))) as [ok w1] eqn:Hc.
  simpl in Hcov. subst ok.
  pose proof (call_effect E w c0 chain_addr (OSudoBurn a (c_amt x)) w1 Hi Hv Hc (ex_intro _ t Ht)) as (Eb & Es & Ek).
  pose proof (call_frame E w c0 chain_addr (OSudoBurn a (c_amt x))) as Hfr. rewrite Hc in Hfr.
  cbv zeta in Hfr. simpl in Hfr. destruct Hfr as (F1 & F2 & F3 & _).
  assert (same_tables w w1) as Hst by (split_and!; done).
  apply IH; [done| | |].
  - replace w1 with (snd (call_tok E w c0 chain_addr (OSudoBurn a (c_amt x)))) by by rewrite Hc.
    by apply inv_call.
  - intros y Hy. rewrite F2. apply Hok. by right.
  - intros c. rewrite (same_tables_amount w w1) by done. rewrite Eb. specialize (Hle c). simpl in Hle.
    rewrite plain_denom, Ha in Hle by done. simpl. unfold if_eq. repeat case_bool_decide; simplify_eq; lia.
Qed.

(** ** Send-enabled entries *)

Lemma set_all_lookup (l : list (text * bool)) (m : gmap text bool) d :
  NoDup (l.*1) →
  foldl (fun m e => <[fst e := snd e]> m) m l !! d =
  match list_to_map (M := gmap text bool) l !! d with Some b => Some b | None => m !! d end.
Proof.
  revert m. induction l as [|[k b] l IH]; intros m Hnd; simpl.
  - by rewrite lookup_empty.
  - apply NoDup_cons in Hnd as [Hk Hnd]. rewrite IH by done.
    destruct (decide (k = d)) as [->|Hne].
    + rewrite lookup_insert. simpl in Hk. rewrite not_elem_of_list_to_map_1 by done. by rewrite lookup_insert.
    + rewrite (lookup_insert_ne (list_to_map l)) by done. by rewrite lookup_insert_ne by done.
Qed.
Lemma delete_all_lookup (l : list text) (m : gmap text bool) d :
  foldl (fun m d => delete d m) m l !! d = if decide (d ∈ l) then None else m !! d.
Proof.
  revert m. induction l as [|k l IH]; intros m; cbn [foldl]; [by rewrite decide_False by apply not_elem_of_nil|].
  rewrite IH. destruct (decide (d ∈ l)).
  - by rewrite decide_True by (by right).
  - destruct (decide (k = d)) as [->|Hne].
    + rewrite decide_True by by left. apply lookup_delete.
    + rewrite decide_False by (intros [|]%elem_of_cons; congruence). by rewrite lookup_delete_ne.
Qed.
Lemma no_dup_denoms_spec seen l : no_dup_denoms seen l = true →
  NoDup (l.*1) ∧ (∀ d, d ∈ l.*1 → d ∉ seen ∧ valid_denom d = true).
Proof.
  revert seen. induction l as [|[d b] l IH]; intros seen; simpl.
  - intros _. split; [constructor|]. intros d Hd. by apply elem_of_nil in Hd.
  - intros H. apply andb_prop in H as [H H3]. apply andb_prop in H as [H1 H2].
    apply IH in H3 as [Hnd Hin]. apply negb_true_iff, bool_decide_eq_false in H1.
    split.
    + apply NoDup_cons. split; [|done]. intros Hd. apply Hin in Hd as [Hd _]. apply Hd. by left.
    + intros d' [->|Hd']%elem_of_cons; [done|]. apply Hin in Hd' as [Hd' ?]. split; [|done]. intros ?. apply Hd'. by right.
Qed.
Lemma no_dup_denoms_complete seen l : NoDup (l.*1) → (∀ d, d ∈ l.*1 → d ∉ seen ∧ valid_denom d = true) →
  no_dup_denoms seen l = true.
Proof.
  revert seen. induction l as [|[d b] l IH]; intros seen Hnd Hin; simpl; [done|].
  apply NoDup_cons in Hnd as [Hd Hnd]. simpl in Hin.
  destruct (Hin d (elem_of_list_here _ _)) as [H1 H2].
  rewrite bool_decide_eq_false_2 by done. rewrite H2. simpl. apply IH; [done|].
  intros d' Hd'. destruct (Hin d' (elem_of_list_further _ _ _ Hd')) as [H3 H4]. split; [|done].
  intros [->|]%elem_of_cons; done.
Qed.
