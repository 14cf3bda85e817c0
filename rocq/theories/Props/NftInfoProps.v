(** C130, C131: what the chain answers about NFT classes and tokens (Model/NftInfo.v). *)
From Verif.Base Require Import Prelude Hex Dec.
From Verif.Model Require Import Token Bank Nft NftInfo.
From Verif.Spec Require Import TokenSpec NftSpec.
From Verif.Proofs Require Import HexP BankP NftP.
From Verif.Props Require Import NftProps.
Local Open Scope N_scope.

Local Arguments convert_to_evm : simpl never.
Local Arguments token_number : simpl never.
Local Arguments class_contract : simpl never.
Local Arguments contract_class : simpl never.

(** ** Histories, with what was given *)
(** A message that fails leaves nothing behind; of those that succeed the URIs given are noted. *)
Inductive given :=
| GClass (class uri : text)
| GMint (c : bytes) (toks : list (N * text))
| GElse.
Inductive gstep (E : nenv) : nworld → given → nworld → Prop :=
| g_class w class uri data w' : cut_prefix denom_prefix class = None → k_class E w class uri data = (true, w') → gstep E w (GClass class uri) w'
| g_mint w b class l uris data w' c ids : k_mints_data E w b class l uris data = (true, w') → class_contract w class = Some c →
    numbers E class l = Some ids → gstep E w (GMint c (zip ids uris)) w'
| g_next w w' : next w w' → gstep E w GElse w'
| g_transfers w a b class l : sender_ok a → gstep E w GElse (snd (k_transfers E w a b class l))
| g_burns w a class l : sender_ok a → gstep E w GElse (snd (k_burns E w a class l)).
Inductive grun (E : nenv) : nworld → list given → nworld → Prop :=
| gr_nil w : grun E w [] w
| gr_cons w g w1 tr w2 : gstep E w g w1 → grun E w1 tr w2 → grun E w (g :: tr) w2.

(** The URI given last to class [k], and to token [id] of collection [c]. *)
Fixpoint last_class (k : text) (tr : list given) : option text :=
  match tr with
  | [] => None
  | GClass k' u :: tr' => match last_class k tr' with Some v => Some v | None => if bool_decide (k' = k) then Some u else None end
  | _ :: tr' => last_class k tr'
  end.
Fixpoint last_of (id : N) (toks : list (N * text)) : option text :=
  match toks with
  | [] => None
  | (i, u) :: r => match last_of id r with Some v => Some v | None => if bool_decide (i = id) then Some u else None end
  end.
Fixpoint last_token (c : bytes) (id : N) (tr : list given) : option text :=
  match tr with
  | [] => None
  | GMint c' toks :: tr' =>
      match last_token c id tr' with Some v => Some v | None => if bool_decide (c' = c) then last_of id toks else None end
  | _ :: tr' => last_token c id tr'
  end.

(** ** What stays *)
Section keep.
  Context (E : nenv) (HE : nenv_ok E) (k : text) (c : bytes) (id : N).
  Record K (cu : option text) (u : option text) (w : nworld) : Prop := {
    k_inv : NI w;
    k_at : nw_addr_of w !! k = Some c;
    k_cu : nw_uris w !! c = cu;
    k_u : ∃ x, is_col w c x ∧ n_uri x !! id = u }.
  Context (cu : option text).

  Lemma body_uri s op x x' : nbody s op x = Some x' →
    n_uri x' = n_uri x ∨ ∃ i v o, op = NSetUri i v o ∧ s = n_admin x ∧ n_uri x' = <[i := v]> (n_uri x).
  Proof.
    destruct op as [to i|p b|from to i|to i|i uri orig|i|o]; simpl.
    - destruct (bool_decide _); [done|]. destruct (negb _ && _ && _); [done|]. intros [= <-]. by left.
    - destruct (bool_decide _); [done|]. intros [= <-]. by left.
    - destruct (bool_decide (to = null_addr)); [done|]. destruct (nft_update x to i s) as [[prev x1]|] eqn:Eu; simpl; [|done].
      destruct (bool_decide (prev = from)); [|done]. intros [= <-]. left. apply update_spec in Eu. naive_solver.
    - destruct (bool_decide (s = n_admin x)); simpl; [|done]. destruct (bool_decide (to = null_addr)); [done|]. destruct (nft_update x to i null_addr) as [[prev x1]|] eqn:Eu; simpl; [|done].
      case_bool_decide; [|done]. intros [= <-]. left. apply update_spec in Eu. naive_solver.
    - destruct (bool_decide (s = n_admin x)) eqn:Es; simpl; [|done]. apply bool_decide_eq_true in Es. intros [= <-]. right. by exists i, uri, orig.
    - destruct (bool_decide (owner_of x i = null_addr)); [done|]. destruct (authorized _ _ _ _); simpl; [|done].
      destruct (nft_update x null_addr i null_addr) as [[prev x1]|] eqn:Eu; simpl; [|done].
      intros [= <-]. by left.
    - destruct (_ && _); [|done]. intros [= <-]. by left.
  Qed.
  Lemma K_call u w d s op : K cu u w → (s ≠ chain_addr ∧ s ≠ null_addr) ∨ mintish op →
    (d = c → ∀ i v o, op = NSetUri i v o → s ≠ chain_addr ∨ i ≠ id) → K cu u (snd (ncall w d s op)).
  Proof.
    intros [H1 H2 H3 (x & Hx & Hu)] Hs Hd.
    assert (HI : NI (snd (ncall w d s op))) by (eapply (NI_pieces E HE w); [done|by apply ncall_pieces]).
    destruct (ncall_cases w d s op) as [(y & y' & Hy & Hb & Ec)| Ec]; [|rewrite Ec; split; by eauto].
    rewrite Ec in *. simpl in *. split; [done|done|done|].
    unfold is_col in *. simpl. destruct (decide (d = c)) as [->|Hn].
    - exists y'. rewrite lookup_insert. split; [done|]. assert (y = x) as -> by congruence.
      destruct (ni_class _ H1 _ _ H2) as (_ & _ & x0 & Hx0 & Ha). unfold is_col in Hx0. assert (x0 = x) as -> by congruence.
      destruct (body_uri _ _ _ _ Hb) as [->|(i & v & o & Ho & Hs' & ->)]; [done|].
      destruct (Hd eq_refl _ _ _ Ho) as [?|?]; [congruence|]. by rewrite lookup_insert_ne.
    - exists x. by rewrite lookup_insert_ne.
  Qed.
  Lemma K_next u w w' : K cu u w → next w w' → K cu u w'.
  Proof.
    intros HK Hn. pose proof (NI_next _ _ (k_inv _ _ _ HK) Hn) as HI. destruct Hn as [w d s op Hs Hz|w d s Hd Hs|w d Hd|w d Hd|w m n].
    - apply K_call; [done|by left|]. intros _ i v o _. by left.
    - destruct HK as [H1 H2 H3 (x & Hx & Hu)]. split; [done..|]. exists x. unfold is_col in *. simpl. by rewrite lookup_insert_ne by congruence.
    - destruct HK as [H1 H2 H3 (x & Hx & Hu)]. split; [done..|]. exists x. unfold is_col in *. simpl. by rewrite lookup_insert_ne by congruence.
    - destruct HK as [H1 H2 H3 (x & Hx & Hu)]. split; [done..|]. exists x. unfold is_col in *. simpl. by rewrite lookup_delete_ne by congruence.
    - destruct HK as [H1 H2 H3 H4]. by split.
  Qed.
  Lemma K_nexts u w w' : K cu u w → rtc next w w' → K cu u w'.
  Proof. intros HK H. induction H; [done|]. apply IHrtc. by eapply K_next. Qed.
  Lemma K_receive u w to d i : K cu u w → K cu u (snd (receive E w to d i)).
  Proof.
    intros HK. unfold receive. destruct (nw_code w !! to) as [[|]|]; try done.
    eapply K_nexts; [done|]. apply (proj1 (proj2 HE)).
  Qed.
  Lemma K_transfer u w d s from to i : K cu u w → s ≠ chain_addr → s ≠ null_addr → K cu u (snd (safe_transfer E w d s from to i)).
  Proof.
    intros HK Hs Hz. unfold safe_transfer, on_col. destruct (nw_code w !! d) as [[x|]|]; [| |done].
    - pose proof (K_call u w d s (NTransferFrom from to i) HK (or_introl (conj Hs Hz)) ltac:(done)) as H1.
      destruct (ncall w d s _) as [[|] w1]; [|done]. pose proof (K_receive u w1 to d i H1) as H2. by destruct (receive E w1 to d i) as [[|] w2].
    - pose proof (proj2 (proj2 HE) w d s) as Hx. destruct (ne_custom E w d s) as [w' ok]. by eapply K_nexts.
  Qed.
  Lemma K_burn u w d s i : K cu u w → s ≠ chain_addr → s ≠ null_addr → K cu u (snd (do_burn E w d s i)).
  Proof.
    intros HK Hs Hz. unfold do_burn, on_col. destruct (nw_code w !! d) as [[x|]|]; [| |done].
    - pose proof (K_call u w d s (NBurn i) HK (or_introl (conj Hs Hz)) ltac:(done)) as H1. by destruct (ncall w d s _) as [[|] w1].
    - pose proof (proj2 (proj2 HE) w d s) as Hx. destruct (ne_custom E w d s) as [w' ok]. by eapply K_nexts.
  Qed.
  Lemma K_transfers u class d s r l : s ≠ chain_addr → s ≠ null_addr → ∀ w, K cu u w → K cu u (snd (transfer_loop E w class d s r l)).
  Proof.
    intros Hs Hz. induction l as [|t l IH]; intros w HK; simpl; [done|]. destruct (token_number E class t) as [i|]; [|done].
    pose proof (K_transfer u w d s s r i HK Hs Hz) as H. destruct (safe_transfer E w d s s r i) as [[|] w1]; [|done]. by apply IH.
  Qed.
  Lemma K_burns u class d s l : s ≠ chain_addr → s ≠ null_addr → ∀ w, K cu u w → K cu u (snd (nburn_loop E w class d s l)).
  Proof.
    intros Hs Hz. induction l as [|t l IH]; intros w HK; simpl; [done|]. destruct (token_number E class t) as [i|]; [|done].
    pose proof (K_burn u w d s i HK Hs Hz) as H. destruct (do_burn E w d s i) as [[|] w1]; [|done]. by apply IH.
  Qed.
  Lemma K_accts u w m n : K cu u w → K cu u (put_accts w m n).
  Proof. intros HK. eapply K_next; [done|constructor]. Qed.
  (** A mint writes the URI of its own token and no other. *)
  Lemma K_mint u w d r i v o w' : K cu u w → safe_mint E w d chain_addr r i v o = (true, w') →
    K cu (if bool_decide (d = c ∧ i = id) then Some v else u) w'.
  Proof.
    intros HK. unfold safe_mint, on_col. destruct (nw_code w !! d) as [[x|]|] eqn:Ed.
    - pose proof (K_call u w d chain_addr (NMint r i) HK (or_intror I) ltac:(done)) as H1.
      destruct (ncall w d chain_addr (NMint r i)) as [[|] w1]; [|done]. pose proof (K_receive u w1 r d i H1) as H2.
      destruct (receive E w1 r d i) as [[|] w2]; [|done]. simpl in H2.
      destruct (nw_code w2 !! d) as [[y|]|] eqn:Ey; [|done..].
      case_bool_decide as Hdi.
      + destruct Hdi as [-> ->]. destruct H2 as [G1 G2 G3 (z & Gz & Gu)]. unfold is_col in Gz. assert (z = y) as -> by congruence.
        assert (HI : NI (snd (ncall w2 c (n_admin y) (NSetUri id v o)))) by (eapply (NI_pieces E HE w2); [done|by apply ncall_pieces; right]).
        unfold ncall in *. rewrite Ey in *. simpl in *. rewrite (bool_decide_eq_true_2 (n_admin y = n_admin y)) in * by done. simpl in *.
        intros [= <-]. split; [done..|]. eexists. unfold is_col. simpl. rewrite lookup_insert. split; [done|]. simpl. by rewrite lookup_insert.
      + assert (H3 : K cu u (snd (ncall w2 d (n_admin y) (NSetUri i v o)))).
        { apply K_call; [done|by right|]. intros -> i' v' o' [= -> -> ->]. right. intros ->. by apply Hdi. }
        destruct (ncall w2 d (n_admin y) (NSetUri i v o)) as [[|] w3]; [|done]. by intros [= <-].
    - pose proof (proj2 (proj2 HE) w d chain_addr) as Hx. destruct (ne_custom E w d chain_addr) as [w1 ok]. intros [= -> <-].
      destruct (k_u _ _ _ HK) as (x & Hx' & _). unfold is_col in Hx'. rewrite bool_decide_eq_false_2; [by eapply K_nexts|]. intros [-> _]. congruence.
    - intros [= <-]. destruct (k_u _ _ _ HK) as (x & Hx' & _). unfold is_col in Hx'. rewrite bool_decide_eq_false_2; [done|]. intros [-> _]. congruence.
  Qed.
  Lemma K_mints class d r l : ∀ uris u w w' ids, K cu u w → numbers E class l = Some ids → nmint_loop E w class d r l uris = (true, w') →
    K cu (if bool_decide (d = c) then match last_of id (zip ids uris) with Some v => Some v | None => u end else u) w'.
  Proof.
    induction l as [|t l IH]; intros uris u w w' ids HK Hn; simpl.
    - intros [= <-]. injection Hn as <-. simpl. by destruct (bool_decide _).
    - unfold numbers in Hn. simpl in Hn. destruct (token_number E class t) as [i|] eqn:Ei; simpl in Hn; [|done].
      destruct (mapM (token_number E class) l) as [ids'|] eqn:El; simpl in Hn; [|done]. injection Hn as <-.
      destruct uris as [|v uris]; [done|]. destruct (safe_mint E w d chain_addr r i v t) as [[|] w1] eqn:Em; [|done].
      intros Hl. apply K_mint with (u := u) in Em; [|done]. specialize (IH uris _ w1 w' ids' Em El Hl).
      simpl. destruct (decide (d = c)) as [->|Hd].
      + rewrite (bool_decide_eq_true_2 (c = c)) in * by done. destruct (last_of id (zip ids' uris)); [done|].
        destruct (decide (i = id)) as [->|Hi].
        * rewrite bool_decide_eq_true_2 in IH by done. by rewrite bool_decide_eq_true_2.
        * rewrite bool_decide_eq_false_2 in IH by naive_solver. by rewrite bool_decide_eq_false_2.
      + rewrite (bool_decide_eq_false_2 (d = c)) in * by done. by rewrite bool_decide_eq_false_2 in IH by naive_solver.
  Qed.
End keep.

Lemma recorded_contract w k c : NI w → nw_addr_of w !! k = Some c → class_contract w k = Some c.
Proof.
  intros HI H. destruct (ni_class _ HI k c H) as (Hp & [Hl _] & _). unfold class_contract. rewrite Hp, H. simpl. f_equal.
  by apply to_fixed_id.
Qed.
Lemma K_class E k c id cu u w class uri w' : nenv_ok E → K k c id cu u w → cut_prefix denom_prefix class = None →
  create_or_update E w class uri = (true, w') → K k c id (if bool_decide (class = k) then Some uri else cu) u w'.
Proof.
  intros HE [H1 H2 H3 (x & Hx & Hu)] Hp Hc.
  assert (HI : NI w').
  { eapply (NI_pieces E HE w); [done|]. change w' with (snd (true, w')). rewrite <- Hc. apply step_pieces; [done|by constructor]. }
  unfold create_or_update in Hc. destruct (nw_addr_of w !! class) as [c'|] eqn:Ec.
  - rewrite (recorded_contract _ _ _ H1 Ec) in Hc. injection Hc as <-. split; [done..| |by exists x]. simpl.
    case_bool_decide as Hk.
    + subst class. assert (c' = c) as -> by congruence. by rewrite lookup_insert.
    + rewrite lookup_insert_ne; [done|]. intros ->. apply (ni_maps _ H1) in H2, Ec. congruence.
  - destruct (create_col E w) as [[c' w1]|] eqn:Ecr; cbn [mbind option_bind] in Hc; [|done].
    rewrite bool_decide_eq_false_2 by congruence. unfold create_col in Ecr. destruct (nw_code w !! ne_create E (nw_nonce w)) eqn:En; [done|].
    injection Ecr as <- <-. simpl in Hc. destruct (class_contract _ class) as [d|] eqn:Ed; [|done]. injection Hc as <-.
    assert (Hne : ne_create E (nw_nonce w) ≠ c) by (intros Hn; unfold is_col in Hx; congruence).
    assert (d = ne_create E (nw_nonce w)) as ->.
    { unfold class_contract in Ed. rewrite Hp in Ed. simpl in Ed. rewrite lookup_insert in Ed. simpl in Ed. injection Ed as <-. apply to_fixed_id, (proj1 HE). }
    split; [done| | |]; simpl.
    + by rewrite lookup_insert_ne by congruence.
    + by rewrite lookup_insert_ne by congruence.
    + exists x. unfold is_col in *. simpl. by rewrite lookup_insert_ne by congruence.
Qed.
Lemma K_step E k c id cu u w g w' : nenv_ok E → K k c id cu u w → gstep E w g w' →
  K k c id (match last_class k [g] with Some v => Some v | None => cu end) (match last_token c id [g] with Some v => Some v | None => u end) w'.
Proof.
  intros HE HK. destruct 1 as [w class uri data w' Hp Hc|w b class l uris data w' c' ids Hm Hc Hn|w w' Hx|w a b class l [Hz Hs]|w a class l [Hz Hs]].
  - unfold k_class in Hc. pose proof (K_class _ _ _ _ _ _ _ _ _ _ HE HK Hp Hc) as H. cbn [last_class last_token]. by destruct (bool_decide (class = k)).
  - unfold k_mints_data, k_mints in Hm. rewrite Hc in Hm. destruct (convert_to_evm _ _ b false) as [[[r m] n]|]; [|done].
    pose proof (K_mints E HE k c id cu class c' r l uris u (put_accts w m n) w' ids (K_accts E HE k c id cu u w m n HK) Hn Hm) as H.
    cbn [last_class last_token]. by destruct (bool_decide (c' = c)).
  - by eapply K_next.
  - cbn [last_class last_token]. unfold k_transfers. destruct (convert_to_evm _ _ a true) as [[[s m1] n1]|] eqn:E1; [|done].
    apply convert_addr in E1. subst s. destruct (convert_to_evm m1 n1 b false) as [[[r m2] n2]|]; [|by apply (K_accts E HE)].
    destruct (class_contract _ class) as [d|]; [|by apply (K_accts E HE)]. apply (K_transfers E HE); [done..|]. by do 2 apply (K_accts E HE).
  - cbn [last_class last_token]. unfold k_burns. destruct (class_contract w class) as [d|]; [|done].
    destruct (convert_to_evm _ _ a false) as [[[s m1] n1]|] eqn:E1; [|done].
    apply convert_addr in E1. subst s. apply (K_burns E HE); [done..|]. by apply (K_accts E HE).
Qed.
Lemma K_run E k c id w tr w' : nenv_ok E → grun E w tr w' → ∀ cu u, K k c id cu u w →
  K k c id (match last_class k tr with Some v => Some v | None => cu end) (match last_token c id tr with Some v => Some v | None => u end) w'.
Proof.
  intros HE. induction 1 as [w|w g w1 tr w2 Hg _ IH]; intros cu u HK; [done|].
  apply (K_step _ _ _ _ _ _ _ _ _ HE HK) in Hg. apply IH in Hg. clear IH HK. revert Hg.
  destruct g as [k' v|c' toks|]; cbn [last_class last_token]; destruct (last_class k tr), (last_token c id tr); cbn; try done.
Qed.

(** ** C130: the answers *)
(** The name of a recorded class is its class id, its URI the one given last, whatever happened in
    between; before, for what is asked of [w], the answer was [(k, u, [])] for some [u]. *)
Theorem C130_class_info E U w tr w' k c : nreachable E w → nw_addr_of w !! k = Some c → grun E w tr w' →
  ∃ u, k_class_info U w k = Some (k, u, []) ∧ k_class_info U w' k = Some (k, default u (last_class k tr), []).
Proof.
  intros Hr Hk Hg. pose proof (NI_reachable _ _ Hr) as HI. destruct (ni_class _ HI _ _ Hk) as (_ & _ & x & Hx & _).
  assert (H0 : K k c 0 (nw_uris w !! c) (n_uri x !! 0) w) by (split; [done..|by exists x]).
  pose proof (K_run _ _ _ _ _ _ _ (proj1 Hr) Hg _ _ H0) as H1. exists (default [] (nw_uris w !! c)).
  assert (A : ∀ cu u v, K k c 0 cu u v → k_class_info U v k = Some (k, default [] cu, [])).
  { intros cu u v [G1 G2 G3 (y & Gy & _)]. unfold k_class_info. rewrite (recorded_contract _ _ _ G1 G2). cbn [mbind option_bind]. unfold col_name, is_col in *.
    rewrite Gy, (proj1 (ni_maps _ G1 _ _) G2). cbn [mbind option_bind]. destruct G3. reflexivity. }
  rewrite (A _ _ _ H0), (A _ _ _ H1). split; [done|]. by destruct (last_class k tr).
Qed.
(** Of the tokens of a recorded class, in the order asked, the URI given at the last mint of each;
    the answer is an error only if a text is not a token id of that class. *)
Theorem C130_token_infos E U w tr w' k c l : nreachable E w → nw_addr_of w !! k = Some c → grun E w tr w' →
  k_token_infos E U w' k l =
    match numbers E k l with
    | None => None
    | Some ids => Some (map (fun id => default (default [] (token_uri U w c id)) (last_token c id tr)) ids, replicate (length l) [])
    end.
Proof.
  intros Hr Hk Hg. pose proof (NI_reachable _ _ Hr) as HI. destruct (ni_class _ HI _ _ Hk) as (_ & _ & x & Hx & _).
  assert (H0 : ∀ id, K k c id (nw_uris w !! c) (n_uri x !! id) w) by (intros id; split; [done..|by exists x]).
  pose proof (fun id => K_run _ _ _ id _ _ _ (proj1 Hr) Hg _ _ (H0 id)) as H1.
  assert (A : ∀ id, token_uri U w' c id = Some (default (default [] (token_uri U w c id)) (last_token c id tr))).
  { intros id. destruct (H1 id) as [_ _ _ (y & Gy & Gu)]. unfold token_uri, is_col in *. rewrite Gy, Hx. etrans; [apply (f_equal (fun o => Some (default [] o)) Gu)|]. by destruct (last_token c id tr). }
  unfold k_token_infos. rewrite (recorded_contract _ _ _ (k_inv _ _ _ _ _ _ (H1 0)) (k_at _ _ _ _ _ _ (H1 0))). simpl.
  assert (B : mapM (fun t => id ← token_number E k t; token_uri U w' c id) l =
    (ids ← numbers E k l; Some (map (fun id => default (default [] (token_uri U w c id)) (last_token c id tr)) ids))).
  { unfold numbers. induction l as [|t l IH]; [done|]. cbn [mapM]. rewrite IH. destruct (token_number E k t) as [id|]; simpl; [|done].
    rewrite A. simpl. by destruct (mapM (token_number E k) l). }
  rewrite B. by destruct (numbers E k l).
Qed.
(** From the creation of the class on: every token has no URI until it is minted. *)
Theorem C130_from_creation E U w k uri w1 tr w' l : nreachable E w → cut_prefix denom_prefix k = None → nw_addr_of w !! k = None →
  create_or_update E w k uri = (true, w1) → grun E w1 tr w' →
  ∃ c, nw_addr_of w1 !! k = Some c ∧
  k_class_info U w' k = Some (k, default uri (last_class k tr), []) ∧
  k_token_infos E U w' k l =
    match numbers E k l with None => None | Some ids => Some (map (fun id => default [] (last_token c id tr)) ids, replicate (length l) []) end.
Proof.
  intros Hr Hp Hn Hc Hg. destruct (C52_create _ _ _ _ _ Hr Hp Hn Hc) as (c & _ & _ & _ & Hnew & Ha & _ & Hu & _).
  assert (Hr1 : nreachable E w1).
  { destruct Hr as [HE (w0 & Hi & Hs)]. split; [done|]. exists w0. split; [done|]. eapply rtc_r; [exact Hs|].
    change w1 with (snd (true, w1)). rewrite <- Hc. by constructor. }
  assert (Hk : nw_addr_of w1 !! k = Some c) by (rewrite Ha; by rewrite lookup_insert). exists c. split; [done|].
  destruct (C130_class_info E U w1 tr w' k c Hr1 Hk Hg) as (u & H1 & H2). split.
  - rewrite H2. unfold k_class_info in H1. destruct (class_contract w1 k) as [d|] eqn:Ed; simpl in H1; [|done].
    assert (d = c) as -> by (rewrite (recorded_contract _ _ _ (NI_reachable _ _ Hr1) Hk) in Ed; congruence).
    destruct (col_name U w1 c); simpl in H1; [|done]. rewrite Hu, lookup_insert in H1. simpl in H1. by injection H1 as _ <-.
  - rewrite (C130_token_infos E U w1 tr w' k c l Hr1 Hk Hg). destruct (numbers E k l) as [ids|]; [|done]. do 2 f_equal.
    apply map_ext. intros id. unfold token_uri, is_col in *. rewrite Hnew. done.
Qed.
(** Owner and balance: the token's owner, an error exactly if there is no such token; the number of
    tokens owned. *)
Theorem C130_owner E U w k c t : nreachable E w → nw_addr_of w !! k = Some c →
  k_owner_of E U w k t = (id ← token_number E k t; token_owner w c id).
Proof.
  intros Hr Hk. pose proof (NI_reachable _ _ Hr) as HI. destruct (ni_class _ HI _ _ Hk) as (_ & _ & x & Hx & _).
  unfold k_owner_of. rewrite (recorded_contract _ _ _ HI Hk). simpl. destruct (token_number E k t) as [id|]; simpl; [|done].
  unfold token_owner, is_col in *. rewrite Hx. case_bool_decide as Ho.
  - symmetry. by apply owner_of_none; [eapply ni_ok|].
  - symmetry. by apply owner_of_some.
Qed.
Theorem C130_balance E U w k c x a : nreachable E w → nw_addr_of w !! k = Some c → is_col w c x → length a = 20%nat →
  k_balance_of U w a k = if bool_decide (a = null_addr) then None else Some (owned x a mod 2 ^ 256).
Proof.
  intros Hr Hk Hx Hl. pose proof (NI_reachable _ _ Hr) as HI. unfold k_balance_of. rewrite (recorded_contract _ _ _ HI Hk). simpl.
  assert (Hcv : convert_to_evm (nw_accts w) (nw_next w) a false = Some (a, nw_accts w, nw_next w)) by (unfold convert_to_evm; by rewrite Hl).
  rewrite Hcv. cbn [mbind option_bind]. pose proof (proj1 (C52_balance E w c x Hr Hx) a) as Hb. unfold is_col in Hx. rewrite Hx.
  repeat case_bool_decide; try done. by rewrite Hb.
Qed.

(** Of a name whose contract has no code every question is an error, unless no token is asked for. *)
Theorem C130_no_collection E U w k c a t l : class_contract w k = Some c → nw_code w !! c = None →
  k_class_info U w k = None ∧ k_owner_of E U w k t = None ∧ k_balance_of U w a k = None ∧ (l ≠ [] → k_token_infos E U w k l = None).
Proof.
  intros Hk Hc. unfold k_class_info, k_owner_of, k_balance_of, k_token_infos. rewrite Hk. cbn [mbind option_bind]. unfold col_name. rewrite Hc.
  split; [done|]. split; [by destruct (token_number E k t)|]. split; [by destruct (convert_to_evm _ _ a false) as [[[??]?]|]|].
  destruct l as [|x l]; [done|]. intros _. unfold token_uri. rewrite Hc. cbn [mapM]. by destruct (token_number E k x).
Qed.

(** ** C131: the metadata is kept (refuted) *)
(** Class data and token data are not: the answer is empty whatever was given. *)
Theorem C131_class_data_refuted E U w k uri data w1 tr w' : nreachable E w → cut_prefix denom_prefix k = None → nw_addr_of w !! k = None →
  k_class E w k uri data = (true, w1) → grun E w1 tr w' → data ≠ [] →
  ∃ n u d, k_class_info U w' k = Some (n, u, d) ∧ d ≠ data.
Proof.
  intros Hr Hp Hn Hc Hg Hd. destruct (C130_from_creation E U w k uri w1 tr w' [] Hr Hp Hn Hc Hg) as (c & _ & H & _).
  eexists _, _, _. split; [exact H|done].
Qed.
Theorem C131_token_data_refuted E U w b k l uris data w' c x : nreachable E w → l ≠ [] → nw_addr_of w !! k = Some c → is_col w c x →
  nw_code w !! bytes_to_address b = None → k_mints_data E w b k l uris data = (true, w') → length data = length l → Forall (λ d, d ≠ []) data →
  ∃ us ds, k_token_infos E U w' k l = Some (us, ds) ∧ length us = length l ∧ ∀ i d, ds !! i = Some d → data !! i ≠ Some d.
Proof.
  intros Hr Hl Hk Hx Hb Hm Hd Hf. pose proof (NI_reachable _ _ Hr) as HI.
  destruct (C52_mints E w b k l uris w' c x Hr Hl (recorded_contract _ _ _ HI Hk) Hx Hb Hm) as (ids & x' & Hids & _).
  assert (Hg : grun E w [GMint c (zip ids uris)] w').
  { eapply gr_cons; [|constructor]. eapply g_mint; [exact Hm|by apply recorded_contract|exact Hids]. }
  eexists _, _. split; [rewrite (C130_token_infos E U w _ w' k c l Hr Hk Hg), Hids; reflexivity|]. split.
  - rewrite map_length. by apply mapM_length in Hids.
  - intros i d [-> _]%lookup_replicate Hi. rewrite Forall_lookup in Hf. by apply (Hf i []).
Qed.
(** A token that was never minted is answered like one that exists, with an empty URI. *)
Theorem C131_no_such_token_refuted E U w k uri w1 l ids : nreachable E w → cut_prefix denom_prefix k = None → nw_addr_of w !! k = None →
  create_or_update E w k uri = (true, w1) → numbers E k l = Some ids →
  k_token_infos E U w1 k l = Some (replicate (length l) [], replicate (length l) []) ∧ ∀ t, t ∈ l → k_owner_of E U w1 k t = None.
Proof.
  intros Hr Hp Hn Hc Hids. destruct (C130_from_creation E U w k uri w1 [] w1 l Hr Hp Hn Hc (gr_nil _ _)) as (c & Hk & _ & H).
  destruct (C52_create _ _ _ _ _ Hr Hp Hn Hc) as (c' & _ & _ & _ & Hnew & Ha & _).
  assert (c' = c) as -> by (rewrite Ha, lookup_insert in Hk; congruence).
  rewrite H, Hids. split.
  - do 2 f_equal. apply mapM_length in Hids. rewrite Hids. clear. induction ids as [|i ids IH]; [done|]. simpl in *. by f_equal.
  - intros t _. assert (Hr1 : nreachable E w1).
    { destruct Hr as [HE (w0 & Hi & Hs)]. split; [done|]. exists w0. split; [done|]. eapply rtc_r; [exact Hs|].
      change w1 with (snd (true, w1)). rewrite <- Hc. by constructor. }
    rewrite (C130_owner E U w1 k c t Hr1 Hk). destruct (token_number E k t) as [id|]; simpl; [|done]. unfold token_owner, is_col in *. by rewrite Hnew.
Qed.

(** ** Example: the history of C52_example *)
Definition z_unknown : unknown := Unknown (λ _ _, None) (λ _ _ _, None) (λ _ _ _, None) (λ _ _ _, None).
Example C130_example :
  k_class_info z_unknown z5 z_class = Some (z_class, txt "u", []) ∧
  k_token_infos z_env z_unknown z5 z_class [txt "b"; txt "a"; txt "c"] = Some ([txt "ub"; txt "ua"; []], [[]; []; []]) ∧
  k_owner_of z_env z_unknown z5 z_class (txt "a") = Some z_bob ∧ k_owner_of z_env z_unknown z5 z_class (txt "b") = None ∧
  k_balance_of z_unknown z5 z_bob z_class = Some 1 ∧
  grun z_env z1 [GMint z_at (zip [z_id (txt "a"); z_id (txt "b")] [txt "ua"; txt "ub"]); GElse; GElse; GElse] z5.
Proof.
  split; [vm_compute; reflexivity|]. split; [vm_compute; reflexivity|]. split; [vm_compute; reflexivity|]. split; [vm_compute; reflexivity|]. split; [vm_compute; reflexivity|].
  eapply gr_cons with (w1 := z2).
  { apply (g_mint z_env z1 z_alice z_class [txt "a"; txt "b"] [txt "ua"; txt "ub"] []); vm_compute; reflexivity. }
  eapply gr_cons with (w1 := z3); [apply g_transfers; done|].
  eapply gr_cons with (w1 := z4); [apply g_next; by constructor|].
  eapply gr_cons with (w1 := z5); [apply g_burns; done|constructor].
Qed.
Example C130_no_collection_example : class_contract z5 (denom_prefix ++ drop 2 (hexutil_encode z_bob)) = Some z_bob ∧ nw_code z5 !! z_bob = None.
Proof. split; vm_compute; reflexivity. Qed.
