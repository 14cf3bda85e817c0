(** Exact effects of token calls and of the keeper's coin operations. *)
From Verif.Base Require Import Prelude Hex.
From Verif.Model Require Import Token Bank.
From Verif.Spec Require Import TokenSpec.
From Verif.Proofs Require Import HexP TokenP.
Open Scope Z_scope.

Lemma body_effect s o t t' a : tok_ok t → op_ok o → body s o t = Some t' →
  bal t' a = bal t a + credit s o a ∧ t_supply t' = t_supply t + issue o.
Proof.
  intros Hok Ho Hb. destruct o; simpl in *; unfold amount_ok in *;
    rewrite ?tok_transfer_spec, ?tok_mint_spec, ?tok_burn_spec in Hb by done;
    try (destruct (decide _) as [Hd|]; [|done]); injection Hb as <-;
    rewrite ?bal_set_supply, ?bal_set_bal, ?bal_set_allow, ?bal_set_owner; simpl;
    unfold if_eq; split; try lia;
    repeat case_bool_decide; subst; try done; try lia.
Qed.

(** When the movement itself succeeds. *)
Definition covered (s : bytes) (o : op) (t : token) : Prop :=
  match o with
  | OTransfer _ v | OBurn v => v <= bal t s
  | OTransferFrom from _ v | OSudoTransfer from _ v | OBurnFrom from v | OSudoBurn from v => v <= bal t from
  | OMint _ v | OSudoMint _ v => t_supply t + v < two256
  | _ => True
  end.
Lemma body_covered s o t : tok_ok t → op_ok o → (∃ t', body s o t = Some t') ↔ covered s o t.
Proof.
  intros Hok Ho. destruct o; simpl in *;
    rewrite ?tok_transfer_spec, ?tok_mint_spec, ?tok_burn_spec by done;
    try (destruct (decide _) as [Hd|Hd]; split; [done|eauto|by intros [? ?]|by intros ?]);
    try (split; [done|eauto]).
Qed.

Lemma call_token E w self s o t : is_token w self t →
  call_tok E w self s o =
   match guards E w s o t with
   | None => (false, w)
   | Some t1 =>
       let w1 := match op_recipient o with Some r => store_modifier w self r | None => w end in
       match body s o t1 with
       | Some t2 => (true, upd_code w1 (insert self (CTok t2)))
       | None => (false, w1)
       end
   end.
Proof. unfold is_token, call_tok. by intros ->. Qed.

Lemma call_effect E w self s o w' : Inv E w → op_ok o → call_tok E w self s o = (true, w') →
  (∃ t, is_token w self t) →
  (∀ c a, balance w' c a = balance w c a + (if bool_decide (c = self) then credit s o a else 0)) ∧
  (∀ c, supply w' c = supply w c + (if bool_decide (c = self) then issue o else 0)) ∧
  (∀ c, code_kind w' c = code_kind w c).
Proof.
  intros Hi Ho Hc [t Ht]. rewrite (call_token _ _ _ _ _ _ Ht) in Hc.
  destruct (guards E w s o t) as [t1|] eqn:Hg; [|done]. cbv zeta in Hc.
  set (w1 := match op_recipient o with Some r => store_modifier w self r | None => w end) in Hc.
  assert (w_code w1 = w_code w) as Ec by (unfold w1; destruct (op_recipient o); [apply store_modifier_code|done]).
  destruct (body s o t1) as [t2|] eqn:Hb; [|done]. injection Hc as <-.
  pose proof (iv_tok E w Hi self t Ht) as Htok.
  pose proof (guards_ok _ _ _ _ _ _ Htok Ho Hg) as Htok1.
  pose proof (guards_bal _ _ _ _ _ _ Hg) as (Eb & Es & Ek & Eo).
  unfold is_token in Ht.
  split_and!; intros c; unfold balance, supply, code_kind; simpl; rewrite Ec.
  - intros a. case_bool_decide as Hcs.
    + subst c. rewrite lookup_insert, Ht.
      destruct (body_effect _ _ _ _ a Htok1 Ho Hb) as [-> _].
      unfold bal. by rewrite Eb.
    + rewrite lookup_insert_ne by done. lia.
  - case_bool_decide as Hcs.
    + subst c. rewrite lookup_insert, Ht.
      destruct (body_effect _ _ _ _ s Htok1 Ho Hb) as [_ ->]. by rewrite Es.
    + rewrite lookup_insert_ne by done. lia.
  - destruct (decide (c = self)) as [->|].
    + rewrite lookup_insert, Ht, (body_kind _ _ _ _ Hb). by rewrite Ek.
    + by rewrite lookup_insert_ne by done.
Qed.

(** Every call keeps the denomination tables, the registry of contracts, the
    policy and the factory's nonce; a failed call keeps all contract storage. *)
Lemma call_frame E w self s o :
  let w' := snd (call_tok E w self s o) in
  w_denom_of w' = w_denom_of w ∧ w_addr_of w' = w_addr_of w ∧ w_reg w' = w_reg w ∧
  w_policy w' = w_policy w ∧ w_fnonce w' = w_fnonce w ∧ w_stores w ⊆ w_stores w'.
Proof.
  unfold call_tok. destruct (w_code w !! self) as [[t|]|]; try done.
  destruct (guards _ _ _ _ _); [|done].
  destruct (op_recipient o) as [r|]; [|destruct (body _ _ _); done].
  pose proof (store_modifier_code w r self) as (? & ? & ? & ? & ? & ? & ?).
  destruct (body _ _ _); simpl; done.
Qed.
Lemma call_false E w self s o w' : call_tok E w self s o = (false, w') → w_code w' = w_code w.
Proof.
  unfold call_tok. destruct (w_code w !! self) as [[t|]|]; try done.
  destruct (guards _ _ _ _ _); [|by intros [= <-]].
  destruct (op_recipient o) as [r|]; destruct (body _ _ _); try done; intros [= <-]; [|done].
  apply store_modifier_code.
Qed.

Lemma same_code_balance w w' : w_code w' = w_code w →
  (∀ c a, balance w' c a = balance w c a) ∧ (∀ c, supply w' c = supply w c) ∧ (∀ c, code_kind w' c = code_kind w c).
Proof. unfold balance, supply, code_kind. intros ->. done. Qed.

Lemma code_kind_token w c k : code_kind w c = Some (Some k) ↔ ∃ t, is_token w c t ∧ t_kind t = k.
Proof.
  unfold code_kind, is_token. destruct (w_code w !! c) as [[t|]|]; split; intros H; naive_solver.
Qed.

Lemma sudo_guard E w o t : (∀ r, o ≠ OTransferOwnership r) →
  match o with OSudoTransfer _ _ _ => True | OSudoMint _ _ | OSudoBurn _ _ => t_kind t = KERC20 | _ => False end →
  guards E w chain_addr o t = Some t.
Proof. destruct o; try done; unfold guards; intros _ H; rewrite ?H; by rewrite bool_decide_eq_true_2. Qed.

(** A chain call on a provided token that succeeds only when covered. *)
Lemma sudo_call E w c t o : Inv E w → is_token w c t → op_ok o → 
  match o with OSudoTransfer _ _ _ => True | OSudoMint _ _ | OSudoBurn _ _ => t_kind t = KERC20 | _ => False end →
  fst (call_tok E w c chain_addr o) = true ↔ covered chain_addr o t.
Proof.
  intros Hi Ht Ho Hk. rewrite (call_token _ _ _ _ _ _ Ht).
  rewrite sudo_guard by (done || by destruct o). cbv zeta.
  rewrite <- (body_covered chain_addr o t (iv_tok E w Hi c t Ht) Ho).
  destruct (body _ _ _); simpl; split; eauto; try done. by intros [? ?].
Qed.

(** ** Keeper functions stay within the steps of the chain *)

Lemma pack_ok v : amount_ok (pack256 v).
Proof. unfold pack256, amount_ok. apply Z.mod_pos_bound. unfold two256. lia. Qed.
Lemma pack_id v : amount_ok v → pack256 v = v.
Proof. intros [H1 H2]. unfold pack256. by apply Z.mod_small. Qed.

Lemma chain_calls_step E f w c o : chain_calls E f → op_ok o → rtc (step E) w (snd (f w c o)).
Proof.
  intros Hf Ho. specialize (Hf w c o). destruct (w_code w !! c) as [[t|]|] eqn:Hc.
  - rewrite Hf. apply rtc_once. right. by apply chain_call.
  - apply rtc_once. right. by eapply chain_custom.
  - rewrite Hf. apply rtc_once. right. by apply chain_call.
Qed.
Lemma chain_calls_token E f w c o t : chain_calls E f → is_token w c t → f w c o = call_tok E w c chain_addr o.
Proof. intros Hf Ht. specialize (Hf w c o). unfold is_token in Ht. by rewrite Ht in Hf. Qed.

Lemma convert_step E w addr sg a m n :
  convert_to_evm (w_accts w) (w_nextnum w) addr sg = Some (a, m, n) → rtc (step E) w (upd_accts w m n).
Proof. intros. apply rtc_once. right. by eapply chain_convert. Qed.

Lemma send_loop_steps E f from to l : chain_calls E f → ∀ w, rtc (step E) w (snd (send_loop f w from to l)).
Proof.
  intros Hf. induction l as [|x l IH]; intros w; simpl; [apply rtc_refl|].
  destruct (denom_to_contract w (c_denom x)) as [c|]; [|apply rtc_refl].
  pose proof (chain_calls_step E f w c (OSudoTransfer from to (pack256 (c_amt x))) Hf (pack_ok _)) as Hs.
  destruct (f w c _) as [ok w1]. simpl in Hs. destruct ok; [|done]. by etrans.
Qed.
Lemma send_coins_steps E f w from to l : chain_calls E f → rtc (step E) w (snd (k_send_coins f w from to l)).
Proof.
  intros Hf. unfold k_send_coins.
  destruct (convert_to_evm _ _ from true) as [[[ef m1] n1]|] eqn:H1; [|apply rtc_refl].
  apply (convert_step E) in H1. cbv zeta.
  destruct (convert_to_evm _ _ to false) as [[[et m2] n2]|] eqn:H2; [|done].
  apply (convert_step E) in H2. etrans; [done|]. etrans; [done|]. by apply send_loop_steps.
Qed.
Lemma mint_loop_steps E f a l : chain_calls E f → ∀ w, rtc (step E) w (snd (mint_loop E f w a l)).
Proof.
  intros Hf. induction l as [|x l IH]; intros w; simpl; [apply rtc_refl|].
  destruct (is_erc20_denom (c_denom x)) eqn:He; [apply rtc_refl|].
  assert (rtc (step E) w (snd match w_addr_of w !! c_denom x with
            | Some _ => (true, w) | None => create_erc20 E w (c_denom x) end)) as H0.
  { destruct (w_addr_of w !! c_denom x) eqn:Ha; [apply rtc_refl|].
    apply rtc_once. right. by apply chain_create. }
  destruct (match w_addr_of w !! c_denom x with
            | Some _ => (true, w) | None => create_erc20 E w (c_denom x) end) as [ok0 w0].
  simpl in H0. destruct ok0; [|done].
  destruct (denom_to_contract w0 (c_denom x)) as [c|]; [|done].
  pose proof (chain_calls_step E f w0 c (OSudoMint a (pack256 (c_amt x))) Hf (pack_ok _)) as Hs.
  destruct (f w0 c _) as [ok w1]. simpl in Hs. destruct ok; (etrans; [done|]); [|done]. by etrans.
Qed.
Lemma mint_coins_steps E f w addr l : chain_calls E f → rtc (step E) w (snd (k_mint_coins E f w addr l)).
Proof.
  intros Hf. unfold k_mint_coins.
  destruct (convert_to_evm _ _ addr false) as [[[a m] n]|] eqn:H1; [|apply rtc_refl].
  apply (convert_step E) in H1. etrans; [done|]. by apply mint_loop_steps.
Qed.
Lemma burn_loop_steps E f fund a l : chain_calls E f → (∀ w, rtc (step E) w (snd (fund w))) →
  ∀ w, rtc (step E) w (snd (burn_loop f fund w a l)).
Proof.
  intros Hf Hfund. induction l as [|x l IH]; intros w; simpl; [apply rtc_refl|].
  destruct (is_erc20_denom (c_denom x)) eqn:He.
  - pose proof (Hfund w) as H0. destruct (fund w) as [ok w1]. simpl in H0. destruct ok; [|done]. by etrans.
  - destruct (denom_to_contract w (c_denom x)) as [c|]; [|apply rtc_refl].
    pose proof (chain_calls_step E f w c (OSudoBurn a (pack256 (c_amt x))) Hf (pack_ok _)) as Hs.
    destruct (f w c _) as [ok w1]. simpl in Hs. destruct ok; [|done]. by etrans.
Qed.
Lemma b_send_steps E B w from to l : chain_calls E (be_call B) → rtc (step E) w (snd (b_send_coins B w from to l)).
Proof.
  intros Hf. unfold b_send_coins. destruct (restr_apply _ _ _ _ _) as [to'|]; [|apply rtc_refl].
  pose proof (send_coins_steps E (be_call B) w from to' l Hf) as Hs.
  destruct (k_send_coins _ _ _ _ _) as [ok w1]. simpl in Hs. destruct ok; [|done]. simpl.
  etrans; [done|]. apply rtc_once. right. apply chain_account.
Qed.
Lemma b_send_to_module_steps E B w from m l : chain_calls E (be_call B) → rtc (step E) w (snd (b_send_to_module B w from m l)).
Proof. intros. unfold b_send_to_module. repeat case_match; try apply rtc_refl. by apply b_send_steps. Qed.
Lemma burn_coins_steps E B w addr l : chain_calls E (be_call B) → rtc (step E) w (snd (k_burn_coins B w addr l)).
Proof.
  intros Hf. unfold k_burn_coins.
  destruct (convert_to_evm _ _ addr false) as [[[a m] n]|] eqn:H1; [|apply rtc_refl].
  apply (convert_step E) in H1. etrans; [done|]. apply burn_loop_steps; [done|].
  intros w'. by apply b_send_to_module_steps.
Qed.
Lemma b_mint_steps B w m l : chain_calls (be_env B) (be_call B) → rtc (step (be_env B)) w (snd (b_mint_coins B w m l)).
Proof. intros. unfold b_mint_coins. repeat case_match; try apply rtc_refl. by apply mint_coins_steps. Qed.
Lemma b_burn_steps B w m l : chain_calls (be_env B) (be_call B) → rtc (step (be_env B)) w (snd (b_burn_coins B w m l)).
Proof. intros. unfold b_burn_coins. repeat case_match; try apply rtc_refl. by apply burn_coins_steps. Qed.
Lemma msg_send_steps B p w from to l : chain_calls (be_env B) (be_call B) →
  rtc (step (be_env B)) w (snd (msg_send B p w from to l)).
Proof. intros. unfold msg_send. repeat case_match; try apply rtc_refl. by apply b_send_steps. Qed.

Lemma inv_steps E w w' : env_ok E → Inv E w → rtc (step E) w w' → Inv E w'.
Proof. intros HE Hi H. induction H; eauto using inv_step. Qed.
Lemma reachable_steps E w w' : reachable E w → rtc (step E) w w' → reachable E w'.
Proof. intros (HE & w0 & H0 & H) H'. split; [done|]. exists w0. split; [done|]. by etrans. Qed.

(** ** Exact effect of the send loop *)

Definition same_tables (w w' : world) : Prop :=
  w_denom_of w' = w_denom_of w ∧ w_addr_of w' = w_addr_of w ∧ w_reg w' = w_reg w.
Lemma same_tables_d2c w w' d : same_tables w w' → denom_to_contract w' d = denom_to_contract w d.
Proof. intros (H1 & H2 & H3). unfold denom_to_contract. by rewrite H2. Qed.
Lemma same_tables_amount w w' c l : same_tables w w' → amount_in w' c l = amount_in w c l.
Proof. intros H. induction l as [|x l IH]; simpl; [done|]. by rewrite IH, (same_tables_d2c w w'). Qed.
Lemma same_tables_trans a b c : same_tables a b → same_tables b c → same_tables a c.
Proof. intros (?&?&?) (?&?&?). split_and!; congruence. Qed.

Lemma amount_nonneg w c l : (∀ x, x ∈ l → amount_ok (c_amt x)) → 0 <= amount_in w c l.
Proof.
  induction l as [|x l IH]; intros H; simpl; [lia|].
  assert (0 <= amount_in w c l) by (apply IH; intros; apply H; by right).
  destruct (H x (elem_of_list_here _ _)) as [? _]. case_bool_decide; lia.
Qed.

Lemma send_loop_exact E f from to l : chain_calls E f → ∀ w w', env_ok E → Inv E w → coins_ok w l →
  send_loop f w from to l = (true, w') →
  (∀ c a, balance w' c a = balance w c a + (if_eq a to (amount_in w c l) - if_eq a from (amount_in w c l))) ∧
  (∀ c, supply w' c = supply w c) ∧ same_tables w w' ∧ (∀ c, code_kind w' c = code_kind w c) ∧
  (∀ c, from ≠ to → amount_in w c l <= balance w c from).
Proof.
  intros Hf. induction l as [|x l IH]; intros w w' HE Hi Hok Hs.
  - simpl in Hs. injection Hs as <-. simpl. unfold if_eq. split_and!; intros; repeat case_bool_decide; try done; try lia.
    all: unfold balance; repeat case_match; try lia; eapply bal_range; by eapply iv_tok.
  - simpl in Hs.
    destruct (Hok x (elem_of_list_here _ _)) as (Hv & c0 & t & Hd & Ht). rewrite Hd in Hs.
    rewrite (chain_calls_token E f w c0 _ t Hf Ht) in Hs. rewrite pack_id in Hs by done.
    destruct (call_tok E w c0 chain_addr (OSudoTransfer from to (c_amt x))) as [ok w1] eqn:Hc.
    destruct ok; [|done].
    assert (Hcov : c_amt x <= bal t from).
    { pose proof (sudo_call E w c0 t (OSudoTransfer from to (c_amt x)) Hi Ht Hv I) as Hsc.
      rewrite Hc in Hsc. by apply Hsc. }
    pose proof (call_effect E w c0 chain_addr (OSudoTransfer from to (c_amt x)) w1 Hi Hv Hc (ex_intro _ t Ht)) as (Eb & Es & Ek).
    pose proof (call_frame E w c0 chain_addr (OSudoTransfer from to (c_amt x))) as Hfr. rewrite Hc in Hfr.
    cbv zeta in Hfr. simpl in Hfr. destruct Hfr as (F1 & F2 & F3 & _).
    assert (same_tables w w1) as Hst by (split_and!; done).
    assert (Inv E w1) as Hi1.
    { replace w1 with (snd (call_tok E w c0 chain_addr (OSudoTransfer from to (c_amt x)))) by by rewrite Hc.
      by apply inv_call. }
    assert (coins_ok w1 l) as Hok1.
    { intros y Hy. destruct (Hok y (elem_of_list_further _ _ _ Hy)) as (Hvy & cy & ty & Hdy & Hty).
      split; [done|]. exists cy. pose proof (Ek cy) as Hky.
      assert (code_kind w cy = Some (Some (t_kind ty))) as Hk0 by (apply code_kind_token; eauto).
      rewrite Hk0 in Hky. apply code_kind_token in Hky as (ty' & Hty' & _).
      exists ty'. split; [|done]. by rewrite (same_tables_d2c w w1). }
    destruct (IH w1 w' HE Hi1 Hok1 Hs) as (Eb' & Es' & Hst' & Ek' & Hle').
    assert (∀ c, amount_in w1 c l = amount_in w c l) as Ea by (intros; by apply same_tables_amount).
    simpl. rewrite Hd. split_and!.
    + intros c a. rewrite Eb', Eb, Ea. simpl. unfold if_eq. repeat case_bool_decide; subst; simplify_eq; lia.
    + intros c. rewrite Es', Es. simpl. case_bool_decide; lia.
    + by eapply same_tables_trans.
    + intros c. by rewrite Ek', Ek.
    + intros c Hft. specialize (Hle' c Hft). rewrite Eb, Ea in Hle'. revert Hle'. simpl. unfold if_eq.
      rewrite (bool_decide_eq_false_2 (from = to)) by done. rewrite (bool_decide_eq_true_2 (from = from)) by done.
      repeat case_bool_decide; subst; simplify_eq; try lia.
Qed.

(** ** Minting *)

Lemma factory_create_effect E w s c w' : factory_create E w s = Some (c, w') →
  (∀ c' a, balance w' c' a = balance w c' a) ∧ (∀ c', supply w' c' = supply w c') ∧
  w_denom_of w' = w_denom_of w ∧ w_addr_of w' = w_addr_of w ∧
  (∀ c', c' ≠ c → w_code w' !! c' = w_code w !! c') ∧ is_token w' c (new_token KERC20 s).
Proof.
  intros H. apply factory_create_eq in H as (-> & Hc & Hs & m & n & ->).
  unfold balance, supply, is_token; simpl. rewrite insert_insert.
  split_and!; try done.
  - intros c' a. destruct (decide (e_create E (w_fnonce w) = c')) as [<-|].
    + rewrite lookup_insert, Hc. done.
    + by rewrite lookup_insert_ne by done.
  - intros c'. destruct (decide (e_create E (w_fnonce w) = c')) as [<-|].
    + rewrite lookup_insert, Hc. done.
    + by rewrite lookup_insert_ne by done.
  - intros c' Hne. by rewrite lookup_insert_ne by done.
  - by rewrite lookup_insert.
Qed.

Lemma create_erc20_effect E w d w' : create_erc20 E w d = (true, w') →
  (∀ c' a, balance w' c' a = balance w c' a) ∧ (∀ c', supply w' c' = supply w c') ∧
  ∃ c, w_addr_of w' = <[d := c]> (w_addr_of w).
Proof.
  unfold create_erc20. destruct (factory_create E w chain_addr) as [[c w1]|] eqn:Hf; [|done].
  intros [= <-]. destruct (factory_create_effect _ _ _ _ _ Hf) as (H1 & H2 & H3 & H4 & _).
  unfold balance, supply in *. simpl. split_and!; try done. exists c. by rewrite H4.
Qed.

Lemma plain_denom w d : is_erc20_denom d = false → denom_to_contract w d = w_addr_of w !! d.
Proof. unfold is_erc20_denom, denom_to_contract. by destruct (cut_prefix denom_prefix d). Qed.

Lemma mint_loop_exact E f a l : chain_calls E f → env_ok E → ∀ w w', Inv E w →
  (∀ x, x ∈ l → amount_ok (c_amt x)) → mint_loop E f w a l = (true, w') →
  (∀ c y, balance w' c y = balance w c y + if_eq y a (amount_in w' c l)) ∧
  (∀ c, supply w' c = supply w c + amount_in w' c l) ∧
  (∀ d c, w_addr_of w !! d = Some c → w_addr_of w' !! d = Some c) ∧
  (∀ x, x ∈ l → is_erc20_denom (c_denom x) = false ∧ ∃ c, denom_to_contract w' (c_denom x) = Some c).
Proof.
  intros Hf HE. induction l as [|x l IH]; intros w w' Hi Hok Hs.
  - simpl in Hs. injection Hs as <-. simpl. unfold if_eq. split_and!; intros; repeat case_bool_decide; try done; try lia.
    all: set_solver.
  - simpl in Hs. destruct (is_erc20_denom (c_denom x)) eqn:He; [done|].
    destruct (match w_addr_of w !! c_denom x with
            | Some _ => (true, w) | None => create_erc20 E w (c_denom x) end) as [ok0 w0] eqn:H0.
    destruct ok0; [|done].
    assert (Inv E w0 ∧ (∀ c' y, balance w0 c' y = balance w c' y) ∧ (∀ c', supply w0 c' = supply w c') ∧
            (∀ d c, w_addr_of w !! d = Some c → w_addr_of w0 !! d = Some c)) as (Hi0 & Hb0 & Hs0 & Hm0).
    { destruct (w_addr_of w !! c_denom x) as [c1|] eqn:Ha; [by injection H0 as <-|].
      pose proof (inv_create E w (c_denom x) HE Hi Ha He) as Hic. rewrite H0 in Hic.
      split; [done|]. apply create_erc20_effect in H0 as (G1 & G2 & c1 & G3).
      split_and!; try done. intros d c Hd. rewrite G3. rewrite lookup_insert_ne; [done|]. congruence. }
    rewrite plain_denom in Hs by done.
    destruct (w_addr_of w0 !! c_denom x) as [c0|] eqn:Ha0; [|done].
    assert (Ha0' := Ha0). apply (iv_bij E w0 Hi0) in Ha0'.
    destruct (iv_den E w0 Hi0 _ _ Ha0') as (_ & _ & _ & t & Ht & Hk).
    assert (Hv : amount_ok (c_amt x)) by (apply Hok; by left).
    rewrite (chain_calls_token E f w0 c0 _ t Hf Ht) in Hs. rewrite pack_id in Hs by done.
    destruct (call_tok E w0 c0 chain_addr (OSudoMint a (c_amt x))) as [ok w1] eqn:Hc.
    destruct ok; [|done].
    pose proof (call_effect E w0 c0 chain_addr (OSudoMint a (c_amt x)) w1 Hi0 Hv Hc (ex_intro _ t Ht)) as (Eb & Es & Ek).
    pose proof (call_frame E w0 c0 chain_addr (OSudoMint a (c_amt x))) as Hfr. rewrite Hc in Hfr.
    cbv zeta in Hfr. simpl in Hfr. destruct Hfr as (F1 & F2 & F3 & _).
    assert (Inv E w1) as Hi1.
    { replace w1 with (snd (call_tok E w0 c0 chain_addr (OSudoMint a (c_amt x)))) by by rewrite Hc.
      by apply inv_call. }
    destruct (IH w1 w' Hi1 ltac:(intros; apply Hok; by right) Hs) as (Eb' & Es' & Hm' & Hp').
    assert (Hres : w_addr_of w' !! c_denom x = Some c0).
    { apply Hm'. by rewrite F2. }
    split_and!.
    + intros c y. rewrite Eb', Eb, Hb0. simpl. rewrite (plain_denom w' (c_denom x)) by done. rewrite Hres.
      unfold if_eq. repeat case_bool_decide; subst; simplify_eq; lia.
    + intros c. rewrite Es', Es, Hs0. simpl. rewrite (plain_denom w' (c_denom x)) by done. rewrite Hres.
      repeat case_bool_decide; subst; simplify_eq; lia.
    + intros d c Hd. apply Hm'. rewrite F2. by apply Hm0.
    + intros y. rewrite elem_of_cons. intros [->|Hy]; [|by apply Hp'].
      split; [done|]. exists c0. by rewrite plain_denom by done.
Qed.

(** ** Burning denominations the chain created *)

Lemma burn_loop_exact E f fund a l : chain_calls E f → env_ok E → ∀ w w', Inv E w →
  (∀ x, x ∈ l → amount_ok (c_amt x) ∧ is_erc20_denom (c_denom x) = false) →
  burn_loop f fund w a l = (true, w') →
  (∀ c y, balance w' c y = balance w c y - if_eq y a (amount_in w c l)) ∧
  (∀ c, supply w' c = supply w c - amount_in w c l) ∧ same_tables w w'.
Proof.
  intros Hf HE. induction l as [|x l IH]; intros w w' Hi Hok Hs.
  - simpl in Hs. injection Hs as <-. simpl. unfold if_eq. split_and!; intros; repeat case_bool_decide; try done; lia.
  - simpl in Hs. destruct (Hok x ltac:(by left)) as [Hv He]. rewrite He in Hs.
    rewrite plain_denom in Hs by done.
    destruct (w_addr_of w !! c_denom x) as [c0|] eqn:Ha0; [|done].
    assert (Ha0' := Ha0). apply (iv_bij E w Hi) in Ha0'.
    destruct (iv_den E w Hi _ _ Ha0') as (_ & _ & _ & t & Ht & Hk).
    rewrite (chain_calls_token E f w c0 _ t Hf Ht) in Hs. rewrite pack_id in Hs by done.
    destruct (call_tok E w c0 chain_addr (OSudoBurn a (c_amt x))) as [ok w1] eqn:Hc.
    destruct ok; [|done].
    pose proof (call_effect E w c0 chain_addr (OSudoBurn a (c_amt x)) w1 Hi Hv Hc (ex_intro _ t Ht)) as (Eb & Es & Ek).
    pose proof (call_frame E w c0 chain_addr (OSudoBurn a (c_amt x))) as Hfr. rewrite Hc in Hfr.
    cbv zeta in Hfr. simpl in Hfr. destruct Hfr as (F1 & F2 & F3 & _).
    assert (same_tables w w1) as Hst by (split_and!; done).
    assert (Inv E w1) as Hi1.
    { replace w1 with (snd (call_tok E w c0 chain_addr (OSudoBurn a (c_amt x)))) by by rewrite Hc.
      by apply inv_call. }
    destruct (IH w1 w' Hi1 ltac:(intros; apply Hok; by right) Hs) as (Eb' & Es' & Hst').
    assert (∀ c, amount_in w1 c l = amount_in w c l) as Ea by (intros; by apply same_tables_amount).
    simpl. rewrite (plain_denom w (c_denom x)) by done. rewrite Ha0. split_and!.
    + intros c y. rewrite Eb', Eb, Ea. simpl. unfold if_eq. repeat case_bool_decide; subst; simplify_eq; lia.
    + intros c. rewrite Es', Es, Ea. simpl. repeat case_bool_decide; subst; simplify_eq; lia.
    + by eapply same_tables_trans.
Qed.

(** ** Denominations *)

Lemma cut_prefix_app p t : cut_prefix p (p ++ t) = Some t.
Proof. induction p as [|x p IH]; simpl; [done|]. by rewrite N.eqb_refl. Qed.
Lemma cut_prefix_some p t r : cut_prefix p t = Some r → t = p ++ r.
Proof.
  revert t. induction p as [|x p IH]; intros t; simpl; [congruence|].
  destruct t as [|y t]; [done|]. destruct (N.eqb_spec x y); [|done]. subst. intros H. f_equal. by apply IH.
Qed.

Lemma contract_denom_resolves E ck w c : Inv E w → addr_ok c → denom_to_contract w (contract_to_denom ck w c) = Some c.
Proof.
  intros Hi [Hl Hb]. unfold contract_to_denom. destruct (w_denom_of w !! c) as [d|] eqn:Hd.
  - destruct (iv_den E w Hi c d Hd) as (He & _). rewrite plain_denom by done. by apply (iv_bij E w Hi).
  - unfold denom_to_contract. rewrite cut_prefix_app. change (drop 2 (address_hex ck c)) with (hex_enc (ck c) c).
    rewrite is_hex_address_plain, hex_to_address_plain by done. done.
Qed.
Lemma contract_denom_inj E ck w c1 c2 : Inv E w → addr_ok c1 → addr_ok c2 →
  contract_to_denom ck w c1 = contract_to_denom ck w c2 → c1 = c2.
Proof.
  intros Hi H1 H2 H. pose proof (contract_denom_resolves E ck w c1 Hi H1) as E1.
  pose proof (contract_denom_resolves E ck w c2 Hi H2) as E2. congruence.
Qed.
