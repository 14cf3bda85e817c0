(** C124, C125: what the application's module accounts may do (Model/AppWire.v). *)
From Verif.Base Require Import Prelude Hex.
From Verif.Model Require Import Token Bank BankQuery BankDelegate AppWire.
From Verif.Spec Require Import TokenSpec BankSpec.
From Verif.Proofs Require Import HexP TokenP BankP TokenMore BankMore WrapperInv.
From Verif.Props Require Import TokenProps BankProps BankDelegateProps.
Open Scope Z_scope.

(** A step in the life of the chain's tokens: anything anyone can do with contracts, or a request
    to the bank keeper (undone when it fails). *)
Inductive app_step (B : bank_env) (user : world → world → Prop) (allowed : bank_op → Prop) : world → world → Prop :=
| as_user w w' : user w w' → app_step B user allowed w w'
| as_bank w o : allowed o → app_step B user allowed w (run_tx w (do_bank B w o)).

Lemma lookup_modules addr m ma ps : app_modules addr !! m = Some (ma, ps) → ma = addr m ∧ (m, ps) ∈ macc_perms.
Proof.
  unfold app_modules. intros H. apply elem_of_list_to_map_2 in H. apply elem_of_list_fmap in H as ([n q] & [= -> -> ->] & H). done.
Qed.
Lemma module_known addr m ps : (m, ps) ∈ macc_perms → app_modules addr !! m = Some (addr m, ps).
Proof.
  intros H. unfold app_modules. apply elem_of_list_to_map_1.
  - assert (Hn : (map (fun e : text * list perm => (fst e, (addr (fst e), snd e))) macc_perms).*1 = macc_perms.*1) by reflexivity.
    rewrite Hn. apply (bool_decide_unpack _). vm_compute. exact I.
  - apply elem_of_list_fmap. by exists (m, ps).
Qed.

(** ** Who may mint, burn, stake *)
Definition minters : list text := txt <$> ["transfer"; "opchild"; "minter"]%string.
Definition burners : list text := txt <$> ["transfer"; "opchild"]%string.
Lemma perms_are m ps : (m, ps) ∈ macc_perms →
  (PMinter ∈ ps → m ∈ minters) ∧ (PBurner ∈ ps → m ∈ burners) ∧ PStaking ∉ ps.
Proof.
  assert (Hf : forallb (fun e : text * list perm =>
    implb (bool_decide (PMinter ∈ snd e)) (bool_decide (fst e ∈ minters)) && implb (bool_decide (PBurner ∈ snd e)) (bool_decide (fst e ∈ burners))
    && bool_decide (PStaking ∉ snd e)) macc_perms = true) by (vm_compute; reflexivity).
  rewrite forallb_forall in Hf. intros H. apply elem_of_list_In in H. specialize (Hf _ H). cbn [fst snd] in Hf.
  apply andb_prop in Hf as [Hf H3]. apply andb_prop in Hf as [H1 H2]. apply bool_decide_eq_true in H3.
  split; [|split; [|done]]; intros Hp.
  - rewrite (bool_decide_eq_true_2 _ Hp) in H1. by apply bool_decide_eq_true in H1.
  - rewrite (bool_decide_eq_true_2 _ Hp) in H2. by apply bool_decide_eq_true in H2.
Qed.

(** ** Reasoning about a request to the bank, call by call *)
Lemma b2a_20 (a : bytes) : length (bytes_to_address a) = 20%nat.
Proof. apply to_fixed_length. Qed.
Section generic.
Variables (B : bank_env) (G : world → world → Prop) (pay_ok : bytes → Prop) (mint_ok : text → Prop).
Hypothesis Grefl : ∀ w, G w w.
Hypothesis Gtrans : ∀ w1 w2 w3, G w1 w2 → G w2 w3 → G w1 w3.
Hypothesis Gacct : ∀ w m n, rtc (step (be_env B)) w (upd_accts w m n) → G w (upd_accts w m n).
Hypothesis Gsend : ∀ w c a b v, pay_ok a → amount_ok v → G w (snd (be_call B w c (OSudoTransfer a b v))).
Hypothesis Gburn : ∀ w c a v, pay_ok a → amount_ok v → G w (snd (be_call B w c (OSudoBurn a v))).
Hypothesis Gmint : ∀ w c a v d, mint_ok d → w_addr_of w !! d = Some c → is_erc20_denom d = false → amount_ok v → G w (snd (be_call B w c (OSudoMint a v))).
Hypothesis Gmake : ∀ w d, mint_ok d → w_addr_of w !! d = None → is_erc20_denom d = false → G w (snd (create_erc20 (be_env B) w d)).

Lemma g_create_acct w a : G w (create_acct w a).
Proof.
  pose proof (chain_account (be_env B) w a) as H. unfold create_acct in *. case_match; [apply Grefl|]. apply Gacct. apply rtc_once. by right.
Qed.
Lemma g_send_loop a b l : pay_ok a → ∀ w, G w (snd (send_loop (be_call B) w a b l)).
Proof.
  intros Ha. induction l as [|x l IH]; intros w; simpl; [apply Grefl|].
  destruct (denom_to_contract w (c_denom x)) as [c|]; [|apply Grefl].
  pose proof (Gsend w c a b (pack256 (c_amt x)) Ha (pack_ok _)) as Hs.
  destruct (be_call B w c _) as [ok w1]. simpl in Hs. destruct ok; [|done]. eapply Gtrans; [exact Hs|apply IH].
Qed.
Lemma g_k_send w from to l : pay_ok (bytes_to_address from) → G w (snd (k_send_coins (be_call B) w from to l)).
Proof.
  intros Ha. unfold k_send_coins. destruct (convert_to_evm _ _ from true) as [[[ef m1] n1]|] eqn:H1; [|apply Grefl].
  pose proof (convert_step (be_env B) _ _ _ _ _ _ H1) as S1. apply convert_addr in H1. subst ef. cbv zeta.
  destruct (convert_to_evm _ _ to false) as [[[et m2] n2]|] eqn:H2; [|by apply Gacct].
  pose proof (convert_step (be_env B) _ _ _ _ _ _ H2) as S2.
  eapply Gtrans; [by apply Gacct|]. eapply Gtrans; [by apply Gacct|]. by apply g_send_loop.
Qed.
Lemma g_send w from to l : pay_ok (bytes_to_address from) → G w (snd (b_send_coins B w from to l)).
Proof.
  intros Ha. unfold b_send_coins. destruct (restr_apply _ _ _ _ _) as [to'|]; [|apply Grefl].
  pose proof (g_k_send w from to' l Ha) as Hs. destruct (k_send_coins _ _ _ _ _) as [ok w1]. simpl in Hs. destruct ok; [|done].
  eapply Gtrans; [exact Hs|apply g_create_acct].
Qed.
Lemma g_burn_loop fund a l : pay_ok a → (∀ w, G w (snd (fund w))) → ∀ w, G w (snd (burn_loop (be_call B) fund w a l)).
Proof.
  intros Ha Hf. induction l as [|x l IH]; intros w; simpl; [apply Grefl|].
  destruct (is_erc20_denom (c_denom x)).
  - pose proof (Hf w) as H0. destruct (fund w) as [ok w1]. simpl in H0. destruct ok; [|done]. eapply Gtrans; [exact H0|apply IH].
  - destruct (denom_to_contract w (c_denom x)) as [c|]; [|apply Grefl].
    pose proof (Gburn w c a (pack256 (c_amt x)) Ha (pack_ok _)) as Hs.
    destruct (be_call B w c _) as [ok w1]. simpl in Hs. destruct ok; [|done]. eapply Gtrans; [exact Hs|apply IH].
Qed.
Lemma g_k_burn w from l : pay_ok (bytes_to_address from) → G w (snd (k_burn_coins B w from l)).
Proof.
  intros Ha. unfold k_burn_coins. destruct (convert_to_evm _ _ from false) as [[[a m] n]|] eqn:H1; [|apply Grefl].
  pose proof (convert_step (be_env B) _ _ _ _ _ _ H1) as S1. apply convert_addr in H1. subst a. eapply Gtrans; [by apply Gacct|]. apply g_burn_loop; [done|].
  intros w'. unfold fund_community_pool, b_send_to_module. destruct (be_modules B !! _) as [[ma ps]|]; [|apply Grefl].
  apply g_send. unfold bytes_to_address. rewrite to_fixed_id; [done|apply b2a_20].
Qed.
Lemma g_mint_loop a l : (∀ x, x ∈ l → mint_ok (c_denom x)) → ∀ w, G w (snd (mint_loop (be_env B) (be_call B) w a l)).
Proof.
  induction l as [|x l IH]; intros Hm w; simpl; [apply Grefl|].
  assert (mint_ok (c_denom x)) as Hx by (apply Hm; left).
  destruct (is_erc20_denom (c_denom x)) eqn:He; [apply Grefl|].
  assert (G w (snd match w_addr_of w !! c_denom x with Some _ => (true, w) | None => create_erc20 (be_env B) w (c_denom x) end)) as H0.
  { destruct (w_addr_of w !! c_denom x) eqn:Ha; [apply Grefl|]. by apply Gmake. }
  destruct (match w_addr_of w !! c_denom x with Some _ => (true, w) | None => create_erc20 (be_env B) w (c_denom x) end) as [ok0 w0].
  simpl in H0. destruct ok0; [|done].
  destruct (denom_to_contract w0 (c_denom x)) as [c|] eqn:Hc; [|done].
  rewrite plain_denom in Hc by done.
  pose proof (Gmint w0 c a (pack256 (c_amt x)) _ Hx Hc He (pack_ok _)) as Hs.
  destruct (be_call B w0 c _) as [ok w1]. simpl in Hs.
  destruct ok; (eapply Gtrans; [exact H0|]); [|done]. eapply Gtrans; [exact Hs|]. apply IH. intros y Hy. apply Hm. by right.
Qed.
(** The account a request spends from. *)
Definition pays_only (o : bank_op) : Prop :=
  match o with
  | BMsgSend _ (Some from) _ _ | BSend from _ _ | BToModule from _ _ | BDelegate from _ _ => pay_ok (bytes_to_address from)
  | BMsgSend _ None _ _ => True
  | BFromModule m _ _ | BModules m _ _ | BUndelegate m _ _ | BBurn m _ =>
      ∀ ma ps, be_modules B !! m = Some (ma, ps) → pay_ok (bytes_to_address ma)
  | BMint m l => (∃ ma ps, be_modules B !! m = Some (ma, ps) ∧ PMinter ∈ ps) → ∀ x, x ∈ l → mint_ok (c_denom x)
  end.
Lemma g_module_account w m ma ps w1 : module_account B w m = Some (ma, ps, w1) → be_modules B !! m = Some (ma, ps) ∧ G w w1.
Proof.
  unfold module_account, module_of. destruct (be_modules B !! m) as [[a q]|]; [|done]. intros [= -> -> <-].
  split; [done|]. case_match; [apply Grefl|]. apply Gacct, rtc_once. left. apply ext_account.
Qed.
Lemma g_bank w o : pays_only o → G w (snd (do_bank B w o)).
Proof.
  destruct o as [p [from|] to l|from to l|from m l|m to l|m1 m2 l|from m l|m to l|m l|m l]; cbn [pays_only do_bank]; intros Hp.
  - unfold msg_send. destruct to as [to|]; [|apply Grefl]. case_match; [|apply Grefl]. by apply g_send.
  - apply Grefl.
  - by apply g_send.
  - unfold b_send_to_module. destruct (be_modules B !! m) as [[ma ps]|]; [|apply Grefl]. by apply g_send.
  - unfold b_send_from_module. destruct (be_modules B !! m) as [[ma ps]|]; [|apply Grefl]. case_match; [apply Grefl|]. apply g_send. by eapply Hp.
  - unfold b_module_to_module, module_of. destruct (be_modules B !! m1) as [[ma ps]|]; [|apply Grefl].
    destruct (module_account B w m2) as [[[a2 p2] w1]|] eqn:H2; [|apply Grefl]. apply g_module_account in H2 as [_ H2].
    eapply Gtrans; [exact H2|]. apply g_send. by eapply Hp.
  - unfold b_delegate. destruct (module_account B w m) as [[[ma ps] w1]|] eqn:H2; [|apply Grefl]. apply g_module_account in H2 as [_ H2].
    case_bool_decide; [|done]. unfold delegate_coins. destruct (w_accts w1 !! ma); [|done]. destruct (coins_valid l); [|done].
    eapply Gtrans; [exact H2|]. by apply g_k_send.
  - unfold b_undelegate. destruct (module_account B w m) as [[[ma ps] w1]|] eqn:H2; [|apply Grefl]. apply g_module_account in H2 as [H1 H2].
    case_bool_decide; [|done]. unfold undelegate_coins. destruct (w_accts w1 !! ma); [|done]. destruct (coins_valid l); [|done].
    eapply Gtrans; [exact H2|]. apply g_k_send. by eapply Hp.
  - unfold b_mint_coins. destruct (be_mint_restr B l); [|apply Grefl]. destruct (be_modules B !! m) as [[ma ps]|] eqn:Hm; [|apply Grefl].
    case_bool_decide as Hpm; [|apply Grefl]. destruct (coins_valid l); [|apply Grefl]. unfold k_mint_coins.
    destruct (convert_to_evm _ _ _ _) as [[[a m'] n]|] eqn:H1; [|apply Grefl]. pose proof (convert_step (be_env B) _ _ _ _ _ _ H1) as S1.
    eapply Gtrans; [by apply Gacct|]. apply g_mint_loop. apply Hp. eauto.
  - unfold b_burn_coins. destruct (be_modules B !! m) as [[ma ps]|]; [|apply Grefl]. case_bool_decide; [|apply Grefl]. apply g_k_burn. by eapply Hp.
Qed.
Lemma g_run w o : pays_only o → G w (run_tx w (do_bank B w o)).
Proof. intros Hp. unfold run_tx. destruct (fst _); [by apply g_bank|apply Grefl]. Qed.
Lemma g_history (user : world → world → Prop) (allowed : bank_op → Prop) w w' :
  (∀ x y, user x y → G x y) → (∀ o, allowed o → pays_only o) → rtc (app_step B user allowed) w w' → G w w'.
Proof.
  intros Hu Ha H. induction H as [w|w1 w2 w3 H1 _ IH]; [apply Grefl|]. eapply Gtrans; [|exact IH].
  destruct H1; [by apply Hu|]. apply g_run. by apply Ha.
Qed.
End generic.

(** ** Steps, call by call *)
Lemma ext_addr_of E w w' : ext E w w' → w_addr_of w' = w_addr_of w.
Proof.
  intros H. destruct H.
  - by destruct (call_frame E w self sender o) as (_ & -> & _).
  - apply factory_create_effect in H0 as (_ & _ & _ & -> & _). done.
  - apply deploy_eq in H0 as (_ & m & n & ->). done.
  - unfold deploy_initia in H0. destruct (deploy _ _ _) as [w1|] eqn:Hd; [|done]. simpl in H0.
    apply deploy_eq in Hd as (_ & m & n & ->).
    set (w1 := upd_code _ _) in *. assert (w_addr_of (snd (register w1 c)) = w_addr_of w1) as Hr.
    { unfold register. repeat case_match; done. }
    destruct (register w1 c) as [ok w2]. destruct ok; [|done]. injection H0 as <-. exact Hr.
  - apply deploy_eq in H0 as (_ & m & n & ->). done.
  - done.
  - unfold register. repeat case_match; done.
  - unfold register_from_factory. repeat case_match; done.
  - by destruct (register_store_code w a caller) as (_ & _ & _ & _ & ? & _).
  - done.
Qed.

(** A chain-only call by anyone else changes nothing. *)
Lemma sudo_refused E w c s o : s ≠ chain_addr →
  (match o with OSudoTransfer _ _ _ | OSudoBurn _ _ | OSudoMint _ _ => True | _ => False end) → snd (call_tok E w c s o) = w.
Proof.
  intros Hs Ho. unfold call_tok. destruct (w_code w !! c) as [[t|]|]; [|done..].
  assert (guards E w s o t = None) as ->; [|done].
  destruct o; try done; cbn [guards]; rewrite bool_decide_eq_false_2 by done; [done|by destruct (t_kind t)..].
Qed.

(** What a step that is not an issue of [d] by the chain does to the token of [d]. *)
Definition kept_denom (E : env) (d : text) (w w' : world) : Prop :=
  reachable E w → reachable E w' ∧ (∀ c, w_addr_of w !! d = Some c → w_addr_of w' !! d = Some c) ∧
  (∀ c t, w_addr_of w !! d = Some c → is_token w c t → t_owner t = chain_addr →
     ∃ t', is_token w' c t' ∧ t_owner t' = chain_addr ∧ t_supply t' <= t_supply t).
Lemma kept_refl E d w : kept_denom E d w w.
Proof. intros H. split; [done|]. split; [auto|]. intros c t _ Ht Ho. exists t. split; [done|]. split; [done|lia]. Qed.
Lemma kept_trans E d w1 w2 w3 : kept_denom E d w1 w2 → kept_denom E d w2 w3 → kept_denom E d w1 w3.
Proof.
  intros H1 H2 Hr. destruct (H1 Hr) as (Hr2 & Ha & Ht). destruct (H2 Hr2) as (Hr3 & Ha' & Ht'). split; [|split]; [done|by auto|].
  intros c t Hc Hk Ho. destruct (Ht c t Hc Hk Ho) as (t2 & Hk2 & Ho2 & Hs2). destruct (Ht' c t2 (Ha c Hc) Hk2 Ho2) as (t3 & ? & ? & ?).
  exists t3. (split; [done|]; split; [done|lia]).
Qed.
Lemma kept_rtc E d (R : world → world → Prop) w w' : (∀ x y, R x y → kept_denom E d x y) → rtc R w w' → kept_denom E d w w'.
Proof. intros H Hr. induction Hr; [apply kept_refl|]. eapply kept_trans; [by apply H|done]. Qed.
Lemma kept_ledgers E d w w' : rtc (step E) w w' → w_addr_of w' = w_addr_of w → ledgers_kept w w' → kept_denom E d w w'.
Proof.
  intros Hs Ha [Hl _] Hr. split; [|split]; [by eapply reachable_steps|by rewrite Ha|].
  intros c t _ Ht Ho. exists t. (split; [by apply Hl|]; split; [done|lia]).
Qed.
Lemma kept_call E d w c s o : op_ok o → rtc (step E) w (snd (call_tok E w c s o)) →
  (s ≠ chain_addr ∨ no_issue chain_addr s o ∨ ∀ c', w_addr_of w !! d = Some c' → c' ≠ c) → kept_denom E d w (snd (call_tok E w c s o)).
Proof.
  intros Ho Hs Hn Hr. pose proof (call_frame E w c s o) as (_ & Ha & _). split; [|split]; [by eapply reachable_steps|by rewrite Ha|].
  intros c' t Hc' Ht Hown. destruct (call_tok E w c s o) as [ok w'] eqn:Hcall. simpl in *.
  destruct (call_cases _ _ _ _ _ _ _ Hcall) as [Hsame|(_ & t0 & t1 & t2 & H0 & H1 & H2 & Hcode)].
  - exists t. unfold is_token in *. rewrite Hsame. (split; [done|]; split; [done|lia]).
  - destruct (decide (c' = c)) as [->|Hne].
    + assert (no_issue chain_addr s o) as Hni.
      { destruct Hn as [Hne|[Hn|Hn]]; [|done|by destruct (Hn c Hc')]. destruct o; try done. simpl in H1.
        destruct (t_kind t0); [|done]. by rewrite bool_decide_eq_false_2 in H1. }
      clear Hn. rename Hni into Hn. unfold is_token in *. rewrite Ht in H0. injection H0 as <-.
      destruct Hr as (HE & w0 & Hi0 & Hst). pose proof (inv_steps E w0 w HE (inv_initial E w0 Hi0) Hst) as Hi.
      pose proof (iv_tok E w Hi c t Ht) as Htok.
      destruct (owner_no_issue chain_addr s o t t1 t2 E w Htok Ho Hown Hn H1 H2) as [Ho2 Hs2].
      exists t2. rewrite Hcode, lookup_insert. (split; [done|]; split; [done|lia]).
    + exists t. unfold is_token in *. rewrite Hcode, lookup_insert_ne by done. (split; [done|]; split; [done|lia]).
Qed.
Lemma kept_ext E d w w' : ext E w w' → kept_denom E d w w'.
Proof.
  intros H. pose proof (ext_addr_of _ _ _ H) as Ha. assert (rtc (step E) w w') as Hs by (apply rtc_once; by left).
  destruct (ext_cases _ _ _ H) as [(c & s & o & Hne & Ho & ->)|Hl].
  - apply kept_call; [done|done|]. by left.
  - by apply kept_ledgers.
Qed.
(** The chain's own calls. *)
Lemma kept_chain_call E f d w c o : chain_calls E f → op_ok o →
  (no_issue chain_addr chain_addr o ∨ ∀ c', w_addr_of w !! d = Some c' → c' ≠ c) → kept_denom E d w (snd (f w c o)).
Proof.
  intros Hf Ho Hn. pose proof (chain_calls_step E f w c o Hf Ho) as Hst. specialize (Hf w c o).
  destruct (w_code w !! c) as [[t|]|] eqn:Hc.
  - rewrite Hf in *. apply kept_call; [done..|]. by right.
  - eapply kept_rtc; [|exact Hf]. apply kept_ext.
  - rewrite Hf in *. apply kept_call; [done..|]. by right.
Qed.
Lemma make_code E w d : w_addr_of w !! d = None → is_erc20_denom d = false →
  rtc (step E) w (snd (create_erc20 E w d)) ∧ (∀ c t, is_token w c t → is_token (snd (create_erc20 E w d)) c t) ∧
  (∀ d', d' ≠ d → w_addr_of (snd (create_erc20 E w d)) !! d' = w_addr_of w !! d') ∧
  (∀ c, w_addr_of (snd (create_erc20 E w d)) !! d = Some c → is_token (snd (create_erc20 E w d)) c (new_token KERC20 chain_addr)).
Proof.
  intros Hn Hd. split; [apply rtc_once; right; by apply chain_create|]. unfold create_erc20.
  destruct (factory_create E w chain_addr) as [[c w1]|] eqn:Hf; cbn [snd]; cycle 1.
  { split; [done|]. split; [done|]. intros c Hc. by rewrite Hn in Hc. }
  pose proof (factory_create_effect _ _ _ _ _ Hf) as (_ & _ & _ & H4 & H5 & H6).
  apply factory_create_eq in Hf as (-> & Hc & _). split; [|split].
  - intros c' t Ht. unfold is_token in *. cbn [upd_denoms w_code]. rewrite H5; [done|]. congruence.
  - intros d' Hne. cbn [upd_denoms w_addr_of]. by rewrite H4, lookup_insert_ne.
  - intros c'. cbn [upd_denoms w_addr_of]. rewrite lookup_insert. intros [= <-]. exact H6.
Qed.
Lemma ledgers_make E w d : ledgers_kept w (snd (create_erc20 E w d)).
Proof.
  unfold create_erc20. destruct (factory_create E w chain_addr) as [[c w1]|] eqn:Hf; cbn [snd]; [|by apply ledgers_kept_same].
  apply factory_create_eq in Hf as (-> & Hc & _ & m & n & ->).
  eapply ledgers_kept_insert; [done| |simpl; by rewrite insert_insert]. right; eauto.
Qed.
Lemma kept_make E d d' w : d' ≠ d → w_addr_of w !! d' = None → is_erc20_denom d' = false → kept_denom E d w (snd (create_erc20 E w d')).
Proof.
  intros Hne Hn Hd Hr. destruct (make_code E w d' Hn Hd) as (H1 & H2 & H3 & _). split; [by eapply reachable_steps|]. split.
  - intros c. by rewrite H3.
  - intros c t _ Ht Ho. exists t. split; [by apply H2|]; split; [done|lia].
Qed.
Lemma kept_acct E d w m n : rtc (step E) w (upd_accts w m n) → kept_denom E d w (upd_accts w m n).
Proof. intros H. apply kept_ledgers; [done|done|]. by apply ledgers_kept_same. Qed.

(** Denominations made by the chain belong to it. *)
Definition owned (w : world) : Prop := ∀ d c, w_addr_of w !! d = Some c → ∃ t, is_token w c t ∧ t_owner t = chain_addr.
Definition own_kept (E : env) (w w' : world) : Prop := reachable E w → reachable E w' ∧ (owned w → owned w').
Lemma own_refl E w : own_kept E w w.
Proof. by intros H. Qed.
Lemma own_trans E w1 w2 w3 : own_kept E w1 w2 → own_kept E w2 w3 → own_kept E w1 w3.
Proof. intros H1 H2 Hr. destruct (H1 Hr) as [Hr2 Ho]. destruct (H2 Hr2) as [Hr3 Ho3]. split; auto. Qed.
Lemma own_rtc E (R : world → world → Prop) w w' : (∀ x y, R x y → own_kept E x y) → rtc R w w' → own_kept E w w'.
Proof. intros H Hr. induction Hr; [apply own_refl|]. eapply own_trans; [by apply H|done]. Qed.
Lemma own_kept_denoms E w w' : rtc (step E) w w' → w_addr_of w' = w_addr_of w → (∀ d, kept_denom E d w w') → own_kept E w w'.
Proof.
  intros Hs Ha Hk Hr. split; [by eapply reachable_steps|]. intros Ho d c Hc. rewrite Ha in Hc. destruct (Ho d c Hc) as (t & Ht & Hw).
  destruct (Hk d Hr) as (_ & _ & H). destruct (H c t Hc Ht Hw) as (t' & ? & ? & _). eauto.
Qed.
Lemma own_ext E w w' : ext E w w' → own_kept E w w'.
Proof. intros H. apply own_kept_denoms; [apply rtc_once; by left|by eapply ext_addr_of|]. intros d. by apply kept_ext. Qed.
Lemma own_chain_call E f w c o : chain_calls E f → op_ok o → (∀ n, o ≠ OTransferOwnership n) → own_kept E w (snd (f w c o)).
Proof.
  intros Hf Ho Hn. pose proof (chain_calls_step E f w c o Hf Ho) as Hst. specialize (Hf w c o).
  destruct (w_code w !! c) as [[t|]|] eqn:Hc; [rewrite Hf in *| |rewrite Hf in *]; cycle 1.
  - eapply own_rtc; [|exact Hf]. apply own_ext.
  - unfold call_tok in *. rewrite Hc in *. apply own_refl.
  - intros Hr. split; [by eapply reachable_steps|]. intros Hown d c' Hc'.
    pose proof (call_frame E w c chain_addr o) as (_ & Ha & _). destruct (call_tok E w c chain_addr o) as [ok w'] eqn:Hcall. simpl in *.
    rewrite Ha in Hc'. destruct (Hown d c' Hc') as (t0 & Ht0 & How).
    destruct (call_cases _ _ _ _ _ _ _ Hcall) as [Hsame|(_ & t3 & t1 & t2 & H0 & H1 & H2 & Hcode)].
    + exists t0. unfold is_token in *. by rewrite Hsame.
    + unfold is_token in *. destruct (decide (c' = c)) as [->|Hne].
      * exists t2. rewrite Hcode, lookup_insert. split; [done|]. rewrite (body_owner _ _ _ _ H2).
        pose proof (guards_bal _ _ _ _ _ _ H1) as (_ & _ & _ & Eo). rewrite H0 in Ht0. injection Ht0 as <-.
        rewrite Eo. destruct o; try done. by edestruct Hn.
      * exists t0. by rewrite Hcode, lookup_insert_ne.
Qed.
Lemma own_make E w d : w_addr_of w !! d = None → is_erc20_denom d = false → own_kept E w (snd (create_erc20 E w d)).
Proof.
  intros Hn Hd Hr. destruct (make_code E w d Hn Hd) as (H1 & H2 & H3 & H4). split; [by eapply reachable_steps|].
  intros Ho d' c Hc. destruct (decide (d' = d)) as [->|Hne].
  - exists (new_token KERC20 chain_addr). split; [by apply H4|done].
  - rewrite H3 in Hc by done. destruct (Ho d' c Hc) as (t & Ht & How). exists t. split; [by apply H2|done].
Qed.
Lemma own_acct E w m n : rtc (step E) w (upd_accts w m n) → own_kept E w (upd_accts w m n).
Proof. intros H. apply own_kept_denoms; [done|done|]. intros d. by apply kept_acct. Qed.

(** ** What a module account holds *)
(** Everything outsiders do except calls made by [ma] itself. *)
Inductive others (E : env) (ma : bytes) (w : world) : world → Prop :=
| ot_call c s o : s ≠ chain_addr → s ≠ ma → op_ok o → others E ma w (snd (call_tok E w c s o))
| ot_rest w' : ext E w w' → (∀ c a, balance w' c a = balance w c a) → (∀ c a s, allowance w' c a s = allowance w c a s) → others E ma w w'.
Definition spared (E : env) (ma : bytes) (w w' : world) : Prop :=
  reachable E w → reachable E w' ∧ ((∀ c sp, allowance w c ma sp = 0) →
    (∀ c sp, allowance w' c ma sp = 0) ∧ ∀ c, balance w c ma <= balance w' c ma).
Lemma spared_refl E ma w : spared E ma w w.
Proof. intros Hr. split; [done|]. intros Ha. split; [done|]. intros c. lia. Qed.
Lemma spared_trans E ma w1 w2 w3 : spared E ma w1 w2 → spared E ma w2 w3 → spared E ma w1 w3.
Proof.
  intros H1 H2 Hr. destruct (H1 Hr) as [Hr2 K1]. destruct (H2 Hr2) as [Hr3 K2]. split; [done|]. intros Ha.
  destruct (K1 Ha) as [Ha2 B1]. destruct (K2 Ha2) as [Ha3 B2]. split; [done|]. intros c. specialize (B1 c). specialize (B2 c). lia.
Qed.
Lemma spared_rtc E ma (R : world → world → Prop) w w' : (∀ x y, R x y → spared E ma x y) → rtc R w w' → spared E ma w w'.
Proof. intros H Hr. induction Hr; [apply spared_refl|]. eapply spared_trans; [by apply H|done]. Qed.
Lemma spared_same E ma w w' : rtc (step E) w w' → (∀ c a, balance w' c a = balance w c a) → (∀ c a s, allowance w' c a s = allowance w c a s) → spared E ma w w'.
Proof. intros Hs Hb Ha Hr. split; [by eapply reachable_steps|]. intros H0. split; [intros c sp; by rewrite Ha|]. intros c. rewrite Hb. lia. Qed.
Lemma spared_call E ma w c s o : op_ok o → rtc (step E) w (snd (call_tok E w c s o)) → spares ma s o → spared E ma w (snd (call_tok E w c s o)).
Proof.
  intros Ho Hs Hsp Hr. split; [by eapply reachable_steps|]. intros H0.
  destruct (call_tok E w c s o) as [ok w'] eqn:Hcall. simpl in *.
  destruct (call_cases _ _ _ _ _ _ _ Hcall) as [Hsame|(_ & t & t1 & t2 & Ht & H1 & H2 & Hcode)].
  - unfold allowance, balance in *. rewrite Hsame. split; [done|]. intros c'. lia.
  - destruct Hr as (HE & w0 & Hi0 & Hst). pose proof (inv_steps E w0 w HE (inv_initial E w0 Hi0) Hst) as Hi.
    pose proof (iv_tok E w Hi c t Ht) as Htok. unfold is_token in Ht.
    destruct (allow_body_spares ma s o t t1 t2 E w Htok Ho) as [Hb Ha]; [|done..|].
    { intros sp. specialize (H0 c sp). unfold allowance in H0. by rewrite Ht in H0. }
    unfold allowance, balance in *. rewrite Hcode. split.
    + intros c' sp. destruct (decide (c = c')) as [<-|Hne]; [rewrite lookup_insert; apply Ha|rewrite lookup_insert_ne by done; apply H0].
    + intros c'. destruct (decide (c = c')) as [<-|Hne]; [rewrite lookup_insert, Ht; exact Hb|rewrite lookup_insert_ne by done; lia].
Qed.
Lemma spared_others E ma w w' : others E ma w w' → spared E ma w w'.
Proof.
  intros [c s o H1 H2 Ho|w2 H1 H2 H3].
  - assert (rtc (step E) w (snd (call_tok E w c s o))) as Hs by (apply rtc_once; left; by apply ext_call).
    destruct o; try (by apply spared_call).
    + destruct (decide (from = ma)) as [->|]; [|by apply spared_call].
      apply spared_same; [done|..]; unfold balance, allowance; intros; by rewrite (sudo_refused _ _ _ _ _ H1).
    + destruct (decide (from = ma)) as [->|]; [|by apply spared_call].
      apply spared_same; [done|..]; unfold balance, allowance; intros; by rewrite (sudo_refused _ _ _ _ _ H1).
  - apply spared_same; [apply rtc_once; by left|done..].
Qed.
Lemma spared_chain E ma f w c o : chain_calls E f → (∀ w c o, w_code w !! c = Some CCustom → rtc (others E ma) w (snd (f w c o))) →
  op_ok o → spares ma chain_addr o → spared E ma w (snd (f w c o)).
Proof.
  intros Hf Hu Ho Hsp. pose proof (chain_calls_step E f w c o Hf Ho) as Hst. specialize (Hf w c o). specialize (Hu w c o).
  destruct (w_code w !! c) as [[t|]|] eqn:Hc.
  - rewrite Hf in *. by apply spared_call.
  - eapply spared_rtc; [|by apply Hu]. apply spared_others.
  - rewrite Hf in *. by apply spared_call.
Qed.

Section app.
Variable addr : text → bytes.
Variables (factory : bytes) (create : N → bytes) (call : caller) (restr : option restriction) (mint_restr : list coin → bool) (authority : text).
Notation E := (app_env addr factory create).
Notation B := (app_bank addr E call restr mint_restr authority).

(** Only the transfer, opchild and minter modules can mint, only transfer and opchild can burn, and
    no module can take or give back delegations. *)
Theorem C124_permissions w m l :
  (fst (do_bank B w (BMint m l)) = true → m ∈ minters) ∧
  (fst (do_bank B w (BBurn m l)) = true → m ∈ burners) ∧
  (∀ a, fst (do_bank B w (BDelegate a m l)) = false ∧ fst (do_bank B w (BUndelegate m a l)) = false).
Proof.
  cbn [do_bank]. unfold b_mint_coins, b_burn_coins, b_delegate, b_undelegate, module_account, module_of. cbn [be_modules app_bank be_mint_restr].
  destruct (app_modules addr !! m) as [[ma ps]|] eqn:Hm.
  - apply lookup_modules in Hm as [-> Hin]. destruct (perms_are m ps Hin) as (H1 & H2 & H3). split; [|split].
    + destruct (mint_restr l); [|done]. case_bool_decide; [auto|done].
    + case_bool_decide; [auto|done].
    + intros a. rewrite bool_decide_eq_false_2 by done. done.
  - split; [by destruct (mint_restr l)|]. done.
Qed.
(** And these can: a mint of known chain-made denominations by one of the three goes through, and
    so does a covered burn by one of the two. *)
Theorem C124_permitted w m l :
  chain_calls E call → reachable E w → (∀ n, length (addr n) = 20%nat) →
  (∀ x, x ∈ l → amount_ok (c_amt x) ∧ is_erc20_denom (c_denom x) = false ∧ is_Some (w_addr_of w !! c_denom x)) →
  (m ∈ minters → mint_restr l = true → coins_valid l = true → (∀ c, supply w c + amount_in w c l < two256) →
    fst (do_bank B w (BMint m l)) = true) ∧
  (m ∈ burners → (∀ c, amount_in w c l <= balance w c (addr m)) → fst (do_bank B w (BBurn m l)) = true).
Proof.
  intros Hc Hr Hl Hok. split.
  - intros Hm H1 H2 H3. assert (∃ ps, (m, ps) ∈ macc_perms ∧ PMinter ∈ ps) as (ps & Hps & Hp).
    { unfold minters in Hm. cbn [fmap list_fmap] in Hm. rewrite !elem_of_cons, elem_of_nil in Hm. destruct Hm as [-> | [-> | [-> |[]]]].
      - exists [PMinter; PBurner]. split; [|left]. unfold macc_perms. rewrite !elem_of_cons. tauto.
      - exists [PMinter; PBurner]. split; [|left]. unfold macc_perms. rewrite !elem_of_cons. tauto.
      - exists [PMinter]. split; [|left]. unfold macc_perms. rewrite !elem_of_cons. tauto. }
    eapply (C26_mint_when_possible B); [exact Hc|exact Hr|by apply (module_known addr m ps)|apply Hl|done..].
  - intros Hm H3. assert (∃ ps, (m, ps) ∈ macc_perms ∧ PBurner ∈ ps) as (ps & Hps & Hp).
    { unfold burners in Hm. cbn [fmap list_fmap] in Hm. rewrite !elem_of_cons, elem_of_nil in Hm. destruct Hm as [-> | [-> |[]]];
        (exists [PMinter; PBurner]; split; [|right; left]; unfold macc_perms; rewrite !elem_of_cons; tauto). }
    eapply (C26_burn_when_covered B); [exact Hc|exact Hr|by apply (module_known addr m ps)|apply Hl|done..].
Qed.

(** ** Nobody sends to a module account *)
Theorem C124_modules_blocked w m ps l p from : (m, ps) ∈ macc_perms →
  fst (do_bank B w (BMsgSend p from (Some (addr m)) l)) = false ∧
  (∀ m', fst (do_bank B w (BFromModule m' (addr m) l)) = false) ∧
  (∀ c t s o, is_token w c t → origin_of w (addr m) = addr m →
     match o with OTransfer to _ | OTransferFrom _ to _ | OMint to _ => to = addr m | _ => False end →
     call_tok E w c s o = (false, w)).
Proof.
  intros Hm. assert (Hb : app_blocked addr (addr m) = true).
  { unfold app_blocked. apply existsb_exists. exists (m, ps). split; [by apply elem_of_list_In|]. by apply bool_decide_eq_true. }
  split; [|split].
  - cbn [do_bank]. unfold msg_send. destruct from; [|done]. cbn [be_env app_bank e_blocked app_env]. rewrite Hb. cbn. by rewrite andb_false_r.
  - intros m'. cbn [do_bank]. unfold b_send_from_module. cbn [be_modules be_env app_bank e_blocked app_env]. rewrite Hb. by destruct (app_modules addr !! m') as [[? ?]|].
  - intros c t s o Ht Ho Hop. rewrite (call_token _ _ _ _ _ _ Ht).
    assert (is_blocked E w (addr m) = true) as Hbl by (unfold is_blocked; rewrite Ho; exact Hb).
    destruct o; try done; subst; cbn [guards]; by rewrite Hbl.
Qed.

(** ** Burning a contract's own token *)
(** A coin of the form evm/... is not burnt: with no send restriction in the way the burn moves it
    to the fee collector and the supply stays. *)
Theorem C124_foreign_burn w w' m d v :
  chain_calls E call → reachable E w → (∀ n, length (addr n) = 20%nat) → restr = None →
  is_erc20_denom d = true → coins_ok w [Coin d v] →
  do_bank B w (BBurn m [Coin d v]) = (true, w') →
  moved w w' (addr m) (addr (txt "fee_collector")) [Coin d v].
Proof.
  intros Hc Hr Hl -> Hd Hok. cbn [do_bank]. unfold b_burn_coins. cbn [be_modules app_bank].
  destruct (app_modules addr !! m) as [[ma ps]|] eqn:Hm; [|done]. apply lookup_modules in Hm as [-> _].
  case_bool_decide; [|done]. unfold k_burn_coins. rewrite convert_20, upd_accts_same by apply Hl.
  cbn [burn_loop c_denom]. rewrite Hd. unfold fund_community_pool, b_send_to_module. cbn [be_modules be_fee_collector app_bank].
  rewrite (module_known addr (txt "fee_collector") []) by (unfold macc_perms; left).
  destruct (b_send_coins _ w (addr m) _ [Coin d v]) as [ok w1] eqn:Hs. destruct ok; [|done]. intros [= <-].
  match type of Hs with b_send_coins ?b _ _ _ _ = _ =>
    destruct (b_send_exact E b w (addr m) (addr (txt "fee_collector")) (addr (txt "fee_collector")) [Coin d v] w1 Hc Hr Hok eq_refl Hs) as (A & B0 & (T1 & T2 & T3) & _) end.
  unfold moved. split; [intros c a; rewrite A; lia|]. split; [exact B0|]. split; [exact T1|exact T2].
Qed.

(** ** Supply *)
Lemma app_owned w0 w : chain_calls E call → env_ok E → initial E w0 → rtc (app_step B (ext E) (fun _ => True)) w0 w →
  reachable E w ∧ owned w.
Proof.
  intros Hc HE Hi Hs.
  assert (own_kept E w0 w) as Hk.
  { revert Hs. apply (g_history B (own_kept E) (fun _ => True) (fun _ => True)); [apply own_refl|apply own_trans|apply own_acct|..].
    - intros. by apply own_chain_call.
    - intros. by apply own_chain_call.
    - intros. by apply own_chain_call.
    - intros. by apply own_make.
    - intros x y. apply own_ext.
    - intros o _. destruct o as [? [?|] | | | | | | | |]; done. }
  destruct Hk as [Hr Ho].
  - split; [done|]. exists w0. split; [done|apply rtc_refl].
  - split; [done|]. apply Ho. intros d c Hd. destruct Hi as (_ & _ & _ & _ & Ha). by rewrite Ha, lookup_empty in Hd.
Qed.
(** The supply of a denomination the chain has made grows only when the transfer, opchild or
    minter module mints that denomination: whatever users, contracts and other bank requests do
    in between, it does not. *)
Theorem C124_supply w0 w1 w2 d v :
  chain_calls E call → env_ok E → initial E w0 → rtc (app_step B (ext E) (fun _ => True)) w0 w1 →
  is_erc20_denom d = false → k_supply w1 d = Some v →
  rtc (app_step B (ext E) (fun o => ∀ m l x, o = BMint m l → m ∈ minters → x ∈ l → c_denom x ≠ d)) w1 w2 →
  ∃ v', k_supply w2 d = Some v' ∧ v' <= v.
Proof.
  intros Hc HE Hi Hs1 Hd Hv Hs2. destruct (app_owned w0 w1 Hc HE Hi Hs1) as [Hr Ho].
  assert (kept_denom E d w1 w2) as Hk.
  { revert Hs2. apply (g_history B (kept_denom E d) (fun _ => True) (fun x => x ≠ d)); [apply kept_refl|apply kept_trans|apply kept_acct|..].
    - intros. apply kept_chain_call; [done..|]. by left.
    - intros. apply kept_chain_call; [done..|]. by left.
    - intros w c a z d' Hne Hd' He Hz Hrw. refine (kept_chain_call E call d w c (OSudoMint a z) Hc Hz _ Hrw). right. intros c' Hc' ->.
      destruct Hrw as (_ & wi & Hi0 & Hst). pose proof (inv_steps E wi w HE (inv_initial E wi Hi0) Hst) as Hinv.
      apply Hne. apply (iv_bij E w Hinv) in Hd'. apply (iv_bij E w Hinv) in Hc'. congruence.
    - intros. by apply kept_make.
    - intros x y. apply kept_ext.
    - intros o Hall. destruct o as [? [?|] | | | | | | | |]; try done. cbn [pays_only]. intros (ma & ps & Hm & Hp) x Hx.
      unfold app_bank in Hm. cbn [be_modules] in Hm. apply lookup_modules in Hm as [_ Hin]. destruct (perms_are _ _ Hin) as (H1 & _). eapply Hall; eauto. }
  unfold k_supply in *. rewrite !plain_denom in * by done. destruct (w_addr_of w1 !! d) as [c|] eqn:Hac; [|done].
  destruct (Ho d c Hac) as (t & Ht & How). destruct (Hk Hr) as (_ & Ha2 & Ht2). destruct (Ht2 c t Hac Ht How) as (t' & Ht' & _ & Hle).
  rewrite (Ha2 c Hac). unfold is_token in *. rewrite Ht in Hv. injection Hv as <-. rewrite Ht'. eauto.
Qed.

(** ** Module funds *)
(** What an account holds only grows, and it never gives anyone an allowance, as long as it makes
    no call itself and no request to the bank is paid by it: nothing else that users, contracts,
    other modules or minting and burning do can take from it. *)
Definition payer (o : bank_op) : option bytes :=
  match o with
  | BMsgSend _ from _ _ => from
  | BSend from _ _ | BToModule from _ _ | BDelegate from _ _ => Some from
  | BFromModule m _ _ | BModules m _ _ | BUndelegate m _ _ | BBurn m _ => Some (addr m)
  | BMint _ _ => None
  end.
Theorem C125_funds_stay ma w w' :
  chain_calls E call → (∀ w c o, w_code w !! c = Some CCustom → rtc (others E ma) w (snd (call w c o))) →
  reachable E w → (∀ c sp, allowance w c ma sp = 0) →
  rtc (app_step B (others E ma) (fun o => ∀ a, payer o = Some a → bytes_to_address a ≠ ma)) w w' →
  (∀ c, balance w c ma <= balance w' c ma) ∧ (∀ c sp, allowance w' c ma sp = 0).
Proof.
  intros Hc Hu Hr Ha Hs. assert (spared E ma w w') as Hk.
  { revert Hs. apply (g_history B (spared E ma) (fun a => a ≠ ma) (fun _ => True)); [apply spared_refl|apply spared_trans|..].
    - intros x m n Hst. by apply spared_same.
    - intros. by apply spared_chain.
    - intros. by apply spared_chain.
    - intros. by apply spared_chain.
    - intros x d _ Hn Hd. destruct (make_code E x d Hn Hd) as (H1 & _).
      pose proof (ledgers_make E x d) as Hl. apply ledgers_kept_obs in Hl as (Hb & _ & Hal). by apply spared_same.
    - apply spared_others.
    - intros o Hall. destruct o as [? [?|] | | | | | | | |]; cbn [pays_only payer] in *; try done; try (by apply Hall).
      all: intros ma' ps Hm; unfold app_bank in Hm; cbn [be_modules] in Hm; apply lookup_modules in Hm as [-> _]; by apply Hall. }
  destruct (Hk Hr) as [_ K]. destruct (K Ha). done.
Qed.
End app.

(** ** A concrete chain *)
Definition a_addr (m : text) : bytes := to_fixed 20 m.
Definition a_env : env := app_env a_addr x_factory (fun n => replicate 12 7%N ++ be 8 n).
Definition a_call : caller := fun w c o => call_tok a_env w c chain_addr o.
Definition a_bank : bank_env := app_bank a_addr a_env a_call None (fun _ => true) (txt "gov").
Definition a_init : world := World {[ x_factory := CCustom ]} 1 ∅ ∅ ∅ 2 ∅ ∅ (Policy true []).
Definition a_do (o : bank_op) (w : world) : world := run_tx w (do_bank a_bank w o).
Definition a_w1 : world := a_do (BMint (txt "minter") [Coin x_stake 100]) a_init.
Definition a_w2 : world := a_do (BFromModule (txt "minter") x_alice [Coin x_stake 60]) a_w1.
Definition a_w3 : world := a_do (BToModule x_alice (txt "fee_collector") [Coin x_stake 5]) a_w2.
Definition a_w4 : world := snd (call_tok a_env a_w3 (e_create a_env 1) x_alice (OTransfer x_bob 7)).
Definition a_w5 : world := a_do (BMint (txt "auction") [Coin x_stake 9]) a_w4.
Lemma a_step user (allowed : bank_op → Prop) o w w' : allowed o → w' = a_do o w → app_step a_bank user allowed w w'.
Proof. intros Ho ->. by apply as_bank. Qed.
Lemma a_call_ok : chain_calls a_env a_call.
Proof. intros w c o. unfold a_call, call_tok. destruct (w_code w !! c) as [[t|]|]; done. Qed.
Lemma a_env_ok : env_ok a_env.
Proof. exact x_env_ok. Qed.
Lemma a_initial : initial a_env a_init.
Proof. split_and!; try done. intros c t. unfold is_token. simpl. intros H%lookup_singleton_Some. naive_solver. Qed.
Example C124_example :
  (* what was made before *)
  rtc (app_step a_bank (ext a_env) (fun _ => True)) a_init a_w1 ∧ k_supply a_w1 x_stake = Some 100 ∧
  (* a history without mints by a minter: payments, a contract call, a refused mint *)
  rtc (app_step a_bank (ext a_env) (fun o => ∀ m l x, o = BMint m l → m ∈ minters → x ∈ l → c_denom x ≠ x_stake)) a_w1 a_w5 ∧
  k_supply a_w5 x_stake = Some 100 ∧ k_balance a_w5 x_bob x_stake = Some 7 ∧ k_balance a_w5 (a_addr (txt "fee_collector")) x_stake = Some 5 ∧
  fst (do_bank a_bank a_w4 (BMint (txt "auction") [Coin x_stake 9])) = false ∧
  k_supply (a_do (BMint (txt "opchild") [Coin x_stake 9]) a_w5) x_stake = Some 109 ∧
  k_supply (a_do (BBurn (txt "minter") [Coin x_stake 9]) a_w5) x_stake = Some 100.
Proof.
  split; [apply rtc_once; apply (a_step _ _ (BMint (txt "minter") [Coin x_stake 100])); [exact I|reflexivity]|]. split; [vm_compute; reflexivity|]. split; [|vm_compute; repeat (split; [reflexivity|]); reflexivity].
  apply (rtc_l _ a_w1 a_w2); [apply (a_step _ _ (BFromModule (txt "minter") x_alice [Coin x_stake 60])); [discriminate|reflexivity]|].
  apply (rtc_l _ a_w2 a_w3); [apply (a_step _ _ (BToModule x_alice (txt "fee_collector") [Coin x_stake 5])); [discriminate|reflexivity]|].
  apply (rtc_l _ a_w3 a_w4); [apply as_user; apply (ext_call a_env a_w3 (e_create a_env 1) x_alice (OTransfer x_bob 7)); [discriminate|split; [discriminate|reflexivity]]|].
  apply rtc_once. apply (a_step _ _ (BMint (txt "auction") [Coin x_stake 9])); [|reflexivity].
  intros m l x [= <- <-] Hm. exfalso. revert Hm. apply (bool_decide_unpack _). vm_compute. exact I.
Qed.
(** The fee collector of that chain. *)
Example C125_example : let ma := a_addr (txt "fee_collector") in
  (∀ w c o, w_code w !! c = Some CCustom → rtc (others a_env ma) w (snd (a_call w c o))) ∧ reachable a_env a_w1 ∧
  (∀ c sp, allowance a_init c ma sp = 0) ∧
  rtc (app_step a_bank (others a_env ma) (fun o => ∀ a, payer a_addr o = Some a → bytes_to_address a ≠ ma)) a_init a_w4 ∧
  balance a_init (e_create a_env 1) ma = 0 ∧ balance a_w4 (e_create a_env 1) ma = 5 ∧
  (* a request paid by it does take from it *)
  balance (a_do (BModules (txt "fee_collector") (txt "opchild") [Coin x_stake 5]) a_w4) (e_create a_env 1) ma = 0.
Proof.
  cbv zeta. split; [intros w c o Hc; unfold a_call, call_tok; rewrite Hc; apply rtc_refl|]. split.
  { destruct (app_owned a_addr x_factory (fun n => replicate 12 7%N ++ be 8 n) a_call None (fun _ => true) (txt "gov") a_init a_w1) as [Hr _];
      [apply a_call_ok|apply a_env_ok|apply a_initial|apply rtc_once; apply (a_step _ _ (BMint (txt "minter") [Coin x_stake 100])); [exact I|reflexivity]|exact Hr]. }
  split.
  { intros c sp. unfold allowance. destruct (w_code a_init !! c) as [[t|]|] eqn:Hc; [|done..]. by destruct a_initial as [Hn _]; destruct (Hn c t). }
  split; [|vm_compute; repeat (split; [reflexivity|]); reflexivity].
  apply (rtc_l _ a_init a_w1); [apply (a_step _ _ (BMint (txt "minter") [Coin x_stake 100])); [intros a Ha; discriminate Ha|reflexivity]|].
  apply (rtc_l _ a_w1 a_w2); [apply (a_step _ _ (BFromModule (txt "minter") x_alice [Coin x_stake 60])); [intros a [= <-]; vm_compute; discriminate|reflexivity]|].
  apply (rtc_l _ a_w2 a_w3); [apply (a_step _ _ (BToModule x_alice (txt "fee_collector") [Coin x_stake 5])); [intros a [= <-]; vm_compute; discriminate|reflexivity]|].
  apply rtc_once, as_user. apply (ot_call a_env _ a_w3 (e_create a_env 1) x_alice (OTransfer x_bob 7)); [discriminate|vm_compute; discriminate|split; [discriminate|reflexivity]].
Qed.
Definition a_native : text := denom_prefix ++ hex_enc (fun _ => false) (e_create a_env 1).
Definition a_w6 : world := a_do (BModules (txt "minter") (txt "opchild") [Coin x_stake 8]) a_w4.
Example C124_foreign_example : is_erc20_denom a_native = true ∧ denom_to_contract a_w6 a_native = Some (e_create a_env 1) ∧
  let w7 := a_do (BBurn (txt "opchild") [Coin a_native 3]) a_w6 in
  fst (do_bank a_bank a_w6 (BBurn (txt "opchild") [Coin a_native 3])) = true ∧
  k_balance w7 (a_addr (txt "opchild")) x_stake = Some 5 ∧ k_balance w7 (a_addr (txt "fee_collector")) x_stake = Some 8 ∧
  k_supply w7 x_stake = Some 100.
Proof. vm_compute. repeat (split; [reflexivity|]). reflexivity. Qed.
