(** C116: bring-up at genesis and the chain upgrade (Model/BringUp.v). *)
From Verif.Base Require Import Prelude Hex.
From Verif.Model Require Import Token Bank Params BringUp.
From Verif.Spec Require Import TokenSpec.
From Verif.Proofs Require Import HexP TokenP BankP TokenMore.
Open Scope Z_scope.

(** A contract can be created at [a]: no code, and no account or one nobody has used. *)
Definition free_addr (w : world) (a : bytes) : Prop :=
  w_code w !! a = None ∧ (∀ x, w_accts w !! a = Some x → is_empty_acct x = true).

Lemma deploy_free w c x : free_addr w c →
  ∃ w', deploy w c x = Some w' ∧ w_code w' = <[c := x]> (w_code w) ∧
    (∀ a, a ≠ c → w_accts w' !! a = w_accts w !! a) ∧
    w_fnonce w' = w_fnonce w ∧ w_reg w' = w_reg w ∧ w_stores w' = w_stores w ∧
    w_denom_of w' = w_denom_of w ∧ w_addr_of w' = w_addr_of w ∧ w_policy w' = w_policy w.
Proof.
  intros [Hc Ha]. unfold deploy, contract_acct. rewrite Hc. destruct (w_accts w !! c) as [y|] eqn:Hy.
  - rewrite (Ha y eq_refl). simpl. eexists. split; [reflexivity|]. simpl. split_and!; try done.
    intros a Hne. by rewrite lookup_insert_ne.
  - simpl. eexists. split; [reflexivity|]. simpl. split_and!; try done.
    intros a Hne. by rewrite lookup_insert_ne.
Qed.
Lemma deploy_only_free w c x w' : deploy w c x = Some w' → free_addr w c.
Proof.
  unfold deploy, contract_acct. destruct (w_code w !! c) eqn:Hc; [done|].
  destruct (w_accts w !! c) as [y|] eqn:Hy; cbn [mbind option_bind].
  - destruct (is_empty_acct y) eqn:He; [|done]. intros _. split; [done|]. intros z. rewrite Hy. by intros [= <-].
  - intros _. split; [done|]. intros z. by rewrite Hy.
Qed.

(** The state before genesis: no contracts and no tokens; accounts may be there. *)
Definition no_evm (w : world) : Prop :=
  w_code w = ∅ ∧ w_reg w = ∅ ∧ w_stores w = ∅ ∧ w_denom_of w = ∅ ∧ w_addr_of w = ∅.

Lemma factory_create_free E w : free_addr w (e_create E (w_fnonce w)) →
  ∃ w', factory_create E w chain_addr = Some (e_create E (w_fnonce w), w') ∧
    w_code w' = <[e_create E (w_fnonce w) := CTok (Token KERC20 ∅ ∅ 0 chain_addr)]> (w_code w) ∧
    (∀ a, a ≠ e_create E (w_fnonce w) → w_accts w' !! a = w_accts w !! a) ∧
    w_denom_of w' = w_denom_of w ∧ w_addr_of w' = w_addr_of w.
Proof.
  intros Hf. unfold factory_create. cbv zeta. set (c := e_create E (w_fnonce w)) in *.
  destruct (deploy_free (upd_fnonce w (w_fnonce w + 1)%N) c (CTok (new_token KERC20 (e_factory E)))) as
    (w1 & -> & Hc & Ha & _ & _ & _ & Hd & Hd' & _).
  { destruct Hf. by split. }
  cbn [mbind option_bind]. unfold register_from_factory. rewrite bool_decide_eq_true_2 by done.
  unfold call_tok. simpl. rewrite Hc, lookup_insert. simpl. rewrite bool_decide_eq_true_2 by done. simpl.
  eexists. split; [reflexivity|]. simpl. split_and!; try done. by rewrite Hc, insert_insert.
Qed.

(** ** C116 *)
(** Genesis with a plain fee denomination on addresses nobody has used succeeds, and the chain
    starts with: factory and wrapper at their addresses and recorded; the fee denomination naming
    the factory's first token, and that token named by it; nothing minted; the chain its owner;
    EVM runs possible; and the fee token one that governance could set as fee token again. *)
Theorem C116_bring_up E W answers s :
  env_ok E → no_evm (ch_w s) → is_erc20_denom (ep_fee_denom (ch_params s)) = false →
  free_addr (ch_w s) (e_factory E) → free_addr (ch_w s) (e_create E 1) → free_addr (ch_w s) W →
  addr_ok W → e_create E 1 ≠ e_factory E → W ≠ e_factory E → W ≠ e_create E 1 → e_create E 1 ≠ null_addr →
  let d := ep_fee_denom (ch_params s) in let c := e_create E 1 in
  ∃ s', initialize E W answers s = Some s' ∧
    reachable E (ch_w s') ∧ ch_params s' = ch_params s ∧
    ch_factory s' = Some (e_factory E) ∧ ch_wrapper s' = Some W ∧
    (∀ a, is_Some (w_code (ch_w s') !! a) ↔ a ∈ [e_factory E; c; W]) ∧
    denom_to_contract (ch_w s') d = Some c ∧ (∀ ck, contract_to_denom ck (ch_w s') c = d) ∧
    (∃ t, is_token (ch_w s') c t ∧ t_kind t = KERC20 ∧ t_owner t = chain_addr) ∧
    supply (ch_w s') c = 0 ∧ (∀ a, balance (ch_w s') c a = 0) ∧
    load_fee answers (ch_w s') d = true ∧
    test_fee_denom answers (fun w c o => call_tok E w c chain_addr o) (ch_w s') d = true.
Proof.
  intros HE (H1 & H2 & H3 & H4 & H5) Hd Hff Hfc HfW HW N1 N2 N3 N4 d c. fold d in Hd. fold c in Hfc, N1, N3, N4.
  assert (Hlf : ∀ w, w_addr_of w !! d = None → load_fee answers w d = true).
  { intros w Hw. unfold load_fee. rewrite plain_denom by done. by rewrite Hw, Hd. }
  unfold initialize, deploy_factory. fold d. rewrite Hlf by by rewrite H5.
  destruct (deploy_free (ch_w s) (e_factory E) CCustom Hff) as (w1 & -> & Hc1 & Ha1 & _ & Hr1 & Hs1 & Hd1 & He1 & _).
  cbn [mbind option_bind ch_w ch_params ch_factory ch_wrapper]. fold d. rewrite Hlf by (simpl; by rewrite He1, H5).
  assert (Hi : initial E (upd_fnonce w1 1)).
  { unfold initial. simpl. rewrite Hr1, Hs1, Hd1, He1. split_and!; try done.
    intros a t. unfold is_token. simpl. rewrite Hc1, H1. intros [[_ ?]|[_ ?]]%lookup_insert_Some; done. }
  destruct (factory_create_free E (upd_fnonce w1 1)) as (w2 & Hfcr & Hc2 & Ha2 & Hd2 & He2).
  { simpl. fold c. destruct Hfc as [G1 G2]. split; simpl.
    - rewrite Hc1, lookup_insert_ne by done. done.
    - rewrite Ha1 by done. done. }
  simpl in Hfcr, Hc2, Ha2, Hd2, He2. fold c in Hfcr, Hc2, Ha2.
  unfold create_erc20. rewrite Hfcr.
  set (w3 := upd_denoms w2 _ _).
  assert (Hc3 : w_code w3 = w_code w2) by done.
  unfold deploy_wrapper. cbn [mbind option_bind ch_w ch_params ch_factory ch_wrapper]. fold d.
  assert (Hdc : ∀ w', w_addr_of w' = w_addr_of w3 → denom_to_contract w' d = Some c).
  { intros w' Hw'. rewrite plain_denom by done. rewrite Hw'. unfold w3. simpl. by rewrite lookup_insert. }
  assert (Htk : w_code w3 !! c = Some (CTok (Token KERC20 ∅ ∅ 0 chain_addr))) by (rewrite Hc3, Hc2; by rewrite lookup_insert).
  assert (load_fee answers w3 d = true) as ->.
  { unfold load_fee. rewrite Hdc by done. unfold load_fee_ok. rewrite Htk. by rewrite orb_true_r. }
  destruct (deploy_free w3 W CCustom) as (w4 & Hdep & Hc4 & Ha4 & _ & Hr4 & Hs4 & Hd4 & He4 & _).
  { destruct HfW as [G1 G2]. split.
    - rewrite Hc3, Hc2, lookup_insert_ne by done. simpl. rewrite Hc1, lookup_insert_ne by done. done.
    - change (w_accts w3) with (w_accts w2). rewrite Ha2 by done. simpl. by rewrite Ha1 by done. }
  rewrite Hdep. cbn [mbind option_bind].
  assert (Htk4 : w_code w4 !! c = Some (CTok (Token KERC20 ∅ ∅ 0 chain_addr))) by (rewrite Hc4, lookup_insert_ne by done; done).
  eexists. split; [reflexivity|]. cbn [ch_w ch_params ch_factory ch_wrapper].
  assert (Hd4' : w_denom_of w4 !! c = Some d) by (rewrite Hd4; unfold w3; simpl; by rewrite lookup_insert).
  split_and!; try done.
  - split; [done|]. exists (upd_fnonce w1 1). split; [done|].
    eapply rtc_l; [right; apply (chain_create E _ d); [simpl; by rewrite He1, H5|done]|].
    unfold create_erc20. rewrite Hfcr. fold w3. eapply rtc_l; [|apply rtc_refl]. left. eapply ext_deploy_custom; [done|]. exact Hdep.
  - intros a. rewrite Hc4, Hc3, Hc2. simpl. rewrite Hc1, H1. rewrite !elem_of_cons, elem_of_nil.
    split.
    + intros [x Hx]. apply lookup_insert_Some in Hx as [[-> _]|[_ Hx]]; [auto|].
      apply lookup_insert_Some in Hx as [[-> _]|[_ Hx]]; [auto|].
      apply lookup_insert_Some in Hx as [[-> _]|[_ Hx]]; [auto|done].
    + destruct (decide (a = W)) as [->|]; [rewrite lookup_insert; by eexists|].
      rewrite lookup_insert_ne by done. destruct (decide (a = c)) as [->|]; [rewrite lookup_insert; by eexists|].
      rewrite lookup_insert_ne by done. intros [-> |[?|[?|?]]]; try done. rewrite lookup_insert. by eexists.
  - by apply Hdc.
  - intros ck. unfold contract_to_denom. by rewrite Hd4'.
  - by eexists.
  - unfold supply. by rewrite Htk4.
  - intros a. unfold balance. by rewrite Htk4.
  - unfold load_fee. rewrite Hdc by done. unfold load_fee_ok. rewrite Htk4. by rewrite orb_true_r.
  - unfold test_fee_denom. rewrite Hdc by done. unfold load_fee_ok. rewrite Htk4, orb_true_r. cbn [andb].
    unfold call_tok. rewrite Htk4. cbn [guards t_kind]. rewrite bool_decide_eq_true_2 by done. cbn [op_recipient body].
    destruct (store_modifier_code w4 chain_addr c) as [Hsm _].
    assert (tok_mint (Token KERC20 ∅ ∅ 0 chain_addr) chain_addr 1 = Some (Token KERC20 {[chain_addr := 1]} ∅ 1 chain_addr)) as -> by done.
    cbn [w_code upd_code]. rewrite lookup_insert. cbn [guards t_kind].
    cbn [op_recipient body]. unfold tok_burn, bal. simpl. rewrite lookup_singleton. done.
Qed.

(** A fee denomination of the form evm/... lets the chain start only if it names the zero
    address (a chain without fee token). *)
Theorem C116_evm_fee_denom E W answers s s' :
  no_evm (ch_w s) → is_erc20_denom (ep_fee_denom (ch_params s)) = true →
  initialize E W answers s = Some s' → denom_to_contract (ch_w s) (ep_fee_denom (ch_params s)) = Some null_addr.
Proof.
  intros (H1 & _) Hd. unfold initialize, deploy_factory, load_fee. rewrite Hd.
  destruct (denom_to_contract (ch_w s) (ep_fee_denom (ch_params s))) as [c|] eqn:Hc; [|done].
  unfold load_fee_ok. rewrite H1, lookup_empty, orb_false_r. by case_bool_decide; subst.
Qed.

(** The upgrade works exactly on chains that have a factory and whose wrapper address is free;
    it then sets the wrapper, the refund ratio (one half) and the number of block hashes kept (0: no
    pruning) and leaves the other parameters, and changes no token, balance, denomination
    or listed holder. *)
Theorem C116_upgrade E W answers s :
  addr_ok W → load_fee answers (ch_w s) (ep_fee_denom (ch_params s)) = true →
  (is_Some (upgrade W answers s) ↔ is_Some (ch_factory s) ∧ free_addr (ch_w s) W) ∧
  (∀ s', upgrade W answers s = Some s' →
     ch_wrapper s' = Some W ∧ ch_factory s' = ch_factory s ∧ ep_ratio (ch_params s') * 2 = dec_one ∧ ep_retain (ch_params s') = 0%N ∧
     ep_eips (ch_params s') = ep_eips (ch_params s) ∧ ep_publishers (ch_params s') = ep_publishers (ch_params s) ∧
     ep_allow_custom (ch_params s') = ep_allow_custom (ch_params s) ∧ ep_allowed (ch_params s') = ep_allowed (ch_params s) ∧
     ep_fee_denom (ch_params s') = ep_fee_denom (ch_params s) ∧
     (∀ c a, balance (ch_w s') c a = balance (ch_w s) c a) ∧ (∀ c, supply (ch_w s') c = supply (ch_w s) c) ∧
     (∀ d, denom_to_contract (ch_w s') d = denom_to_contract (ch_w s) d) ∧
     w_reg (ch_w s') = w_reg (ch_w s) ∧ w_stores (ch_w s') = w_stores (ch_w s) ∧
     (reachable E (ch_w s) → reachable E (ch_w s'))).
Proof.
  intros HW Hl. unfold upgrade, deploy_wrapper. cbn [ch_w ch_params ch_factory ch_wrapper].
  change (ep_fee_denom (upgrade_params (ch_params s))) with (ep_fee_denom (ch_params s)).
  destruct (ch_factory s) as [f|]; cbn [mbind option_bind]; cycle 1.
  { split; [|done]. split; [by intros [? ?]|]. intros [[? ?] _]. done. }
  rewrite Hl. split.
  - split.
    + intros [s' Hs]. split; [by eexists|]. destruct (deploy (ch_w s) W CCustom) eqn:Hd; [|done]. by eapply deploy_only_free.
    + intros [_ Hf]. destruct (deploy_free (ch_w s) W CCustom Hf) as (w' & -> & _). by eexists.
  - intros s' Hs. destruct (deploy (ch_w s) W CCustom) as [w'|] eqn:Hd; [|done]. cbn [mbind option_bind] in Hs.
    injection Hs as <-. cbn [ch_w ch_params ch_factory ch_wrapper].
    pose proof (deploy_only_free _ _ _ _ Hd) as Hf.
    destruct (deploy_free (ch_w s) W CCustom Hf) as (w1 & Hd' & Hc & _ & _ & Hr & Hst & Hdn & Hda & _).
    rewrite Hd in Hd'. injection Hd' as <-. destruct Hf as [Hf _].
    split_and!; try done.
    + intros c a. unfold balance. rewrite Hc. destruct (decide (c = W)) as [->|]; [by rewrite lookup_insert, Hf|by rewrite lookup_insert_ne].
    + intros c. unfold supply. rewrite Hc. destruct (decide (c = W)) as [->|]; [by rewrite lookup_insert, Hf|by rewrite lookup_insert_ne].
    + intros d. unfold denom_to_contract. by rewrite Hda.
    + intros (HE & w0 & Hi & Hst'). split; [done|]. exists w0. split; [done|].
      eapply rtc_r; [exact Hst'|]. left. by eapply ext_deploy_custom.
Qed.
(** So it stops a chain whose genesis has already brought the wrapper up, and it can run once. *)
Theorem C116_upgrade_once E W answers s s1 :
  env_ok E → no_evm (ch_w s) → initialize E W answers s = Some s1 → upgrade W answers s1 = None.
Proof.
  intros HE H0 Hi. unfold initialize in Hi. destruct (deploy_factory _ _ _) as [s0|]; [|done]. cbn [mbind option_bind] in Hi.
  destruct (load_fee _ _ _); [|done]. destruct (create_erc20 _ _ _) as [ok w2]. destruct ok; [|done].
  unfold deploy_wrapper in Hi. cbn [ch_w ch_params ch_factory ch_wrapper] in Hi. destruct (ch_factory s0) as [f|]; [|done]. cbn [mbind option_bind] in Hi.
  destruct (load_fee _ _ _); [|done]. destruct (deploy w2 W CCustom) as [w3|] eqn:Hd; [|done]. cbn [mbind option_bind] in Hi.
  injection Hi as <-. pose proof (deploy_only_free _ _ _ _ Hd) as Hf.
  destruct (deploy_free w2 W CCustom Hf) as (w1 & Hd' & Hc & _). rewrite Hd in Hd'. injection Hd' as <-.
  unfold upgrade, deploy_wrapper. cbn [ch_w ch_params ch_factory ch_wrapper mbind option_bind].
  destruct (load_fee _ _ _); [|done]. unfold deploy. by rewrite Hc, lookup_insert.
Qed.

(** ** Example *)
Definition x_pre : world :=
  World ∅ 0 ∅ ∅ {[ x_module := Acct 0 0 false KModule; x_collector := Acct 1 0 false KModule ]} 2 ∅ ∅ (Policy true []).
Definition x_wrap : bytes := replicate 20 5%N.
Definition x_chain : evm_chain := EvmChain x_pre (EvmParams [] [] true [] (txt "umin") 0 256) None None.
Example C116_example :
  env_ok x_env ∧ addr_ok x_wrap ∧ is_erc20_denom (txt "umin") = false ∧
  e_create x_env 1 ≠ e_factory x_env ∧ x_wrap ≠ e_factory x_env ∧ x_wrap ≠ e_create x_env 1 ∧ e_create x_env 1 ≠ null_addr ∧
  no_evm x_pre ∧ free_addr x_pre (e_factory x_env) ∧ free_addr x_pre (e_create x_env 1) ∧ free_addr x_pre x_wrap ∧
  match initialize x_env x_wrap (fun _ _ => false) x_chain with
  | Some s => denom_to_contract (ch_w s) (txt "umin") = Some (e_create x_env 1) ∧ upgrade x_wrap (fun _ _ => false) s = None
  | None => False
  end.
Proof.
  split; [exact x_env_ok|]. split; [split; [done|]; unfold x_wrap; apply Forall_replicate; lia|].
  split; [by vm_compute|]. do 4 (split; [by vm_compute|]).
  split; [done|]. split; [split; [done|]; intros x; vm_compute; done|]. split; [split; [done|]; intros x; vm_compute; done|].
  split; [split; [done|]; intros x; vm_compute; done|]. vm_compute. done.
Qed.
