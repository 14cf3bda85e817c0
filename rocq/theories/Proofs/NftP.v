(** Lemmas about collections (C52). *)
From Verif.Base Require Import Prelude Hex Dec.
From Verif.Model Require Import Token Bank Nft.
From Verif.Spec Require Import TokenSpec NftSpec.
From Verif.Proofs Require Import HexP BankP.
Local Open Scope N_scope.

Local Arguments convert_to_evm : simpl never.
Local Arguments token_number : simpl never.
Local Opaque null_addr chain_addr.

(** ** Counting *)

Definition cnt (m : gmap N bytes) (a : bytes) : N := N.of_nat (size (filter (fun p => p.2 = a) m)).

Lemma cnt_insert m i x a : m !! i = None → cnt (<[i := x]> m) a = cnt m a + (if decide (x = a) then 1 else 0).
Proof.
  intros H. unfold cnt. destruct (decide (x = a)) as [->|Hn].
  - rewrite map_filter_insert_True by done. rewrite map_size_insert_None; [lia|].
    apply map_filter_lookup_None. by left.
  - rewrite map_filter_insert_not' by (intros; simpl; naive_solver congruence). lia.
Qed.
Lemma cnt_delete m i x a : m !! i = Some x → cnt m a = cnt (delete i m) a + (if decide (x = a) then 1 else 0).
Proof.
  intros H. rewrite <- (insert_delete m i x) at 1 by done. rewrite cnt_insert; [done|]. apply lookup_delete.
Qed.

(** What holds of every collection. *)
Definition col_ok (x : col) : Prop :=
  (∀ id o, n_owner x !! id = Some o → o ≠ null_addr) ∧ (∀ a, nbal x a = owned x a mod n256) ∧
  (∀ id, is_Some (n_appr x !! id) → is_Some (n_owner x !! id)) ∧ (∀ p, (null_addr, p) ∉ n_oper x).

Lemma n256_pos : 0 < n256. Proof. done. Qed.
Lemma inc_mod k : inc (k mod n256) = (k + 1) mod n256.
Proof. unfold inc. apply N.add_mod_idemp_l. pose proof n256_pos; lia. Qed.
Lemma dec1_mod k : dec1 ((k + 1) mod n256) = k mod n256.
Proof.
  unfold dec1. pose proof n256_pos as Hp. revert Hp. generalize n256. clear. intros M HM.
  pose proof (N.mod_lt k M ltac:(lia)) as Hlt. pose proof (N.div_mod k M ltac:(lia)) as Hd.
  set (r := k mod M) in *. set (q := k / M) in *.
  destruct (decide (r + 1 = M)) as [E|E].
  - rewrite <- (N.mod_unique (k + 1) M (q + 1) 0) by nia.
    symmetry. apply (N.mod_unique _ _ 0); lia.
  - rewrite <- (N.mod_unique (k + 1) M q (r + 1)) by nia.
    symmetry. apply (N.mod_unique _ _ 1); lia.
Qed.

Lemma owner_of_some x id a : a ≠ null_addr → owner_of x id = a → n_owner x !! id = Some a.
Proof. unfold owner_of. intros Ha. destruct (n_owner x !! id); simpl; congruence. Qed.
Lemma owner_of_none x id : col_ok x → owner_of x id = null_addr → n_owner x !! id = None.
Proof.
  intros [H _]. unfold owner_of. destruct (n_owner x !! id) as [o|] eqn:E; simpl; [|done].
  intros ->. by apply H in E.
Qed.

Lemma update_spec x to id auth prev x' : nft_update x to id auth = Some (prev, x') →
  prev = owner_of x id ∧
  (auth = null_addr ∨ authorized x prev auth id = true) ∧
  n_owner x' = (if decide (to = null_addr) then delete id (n_owner x) else <[id := to]> (n_owner x)) ∧
  n_oper x' = n_oper x ∧ n_admin x' = n_admin x ∧ n_uri x' = n_uri x ∧ n_orig x' = n_orig x ∧
  (∀ i, i ≠ id → n_appr x' !! i = n_appr x !! i) ∧
  (prev ≠ null_addr → n_appr x' !! id = None) ∧ (prev = null_addr → n_appr x' = n_appr x).
Proof.
  unfold nft_update. intros Hu.
  destruct (negb (bool_decide (auth = null_addr)) && negb (authorized x (owner_of x id) auth id)) eqn:Ea; [done|].
  assert (auth = null_addr ∨ authorized x (owner_of x id) auth id = true) as Hau.
  { destruct (decide (auth = null_addr)) as [->|Hn]; [by left|]. right.
    rewrite (bool_decide_eq_false_2 (auth = null_addr)) in Ea by done. simpl in Ea.
    by destruct (authorized x (owner_of x id) auth id). }
  clear Ea. destruct (bool_decide (owner_of x id = null_addr)) eqn:Ef;
    [apply bool_decide_eq_true in Ef|apply bool_decide_eq_false in Ef];
  (destruct (bool_decide (to = null_addr)) eqn:Et;
    [apply bool_decide_eq_true in Et; rewrite decide_True by done
    |apply bool_decide_eq_false in Et; rewrite decide_False by done]);
  injection Hu as <- <-; simpl; (split; [done|]); (split; [done|]); (split; [done|]);
  do 4 (split; [done|]); (split; [intros i Hi|split; intros Hp]); try done;
  try (by rewrite lookup_delete_ne by done); by rewrite lookup_delete.
Qed.

Lemma update_ok x to id auth prev x' : col_ok x → nft_update x to id auth = Some (prev, x') → col_ok x'.
Proof.
  intros Hok Hu. pose proof (update_spec _ _ _ _ _ _ Hu) as (-> & _ & Ho & Hop & _ & _ & _ & Ha1 & Ha2 & Ha3).
  destruct Hok as (Hok1 & Hok2 & Hok3 & Hok4). pose proof (conj Hok1 (conj Hok2 (conj Hok3 Hok4)) : col_ok x) as Hok.
  split.
  { intros i o. rewrite Ho. destruct (decide (to = null_addr)) as [|Hn].
    - intros [_ H]%lookup_delete_Some. by apply (proj1 Hok) in H.
    - intros [[<- <-]|[_ H]]%lookup_insert_Some; [done|]. by apply (proj1 Hok) in H. }
  split; [|split].
  2:{ intros i Hi. rewrite Ho. destruct (decide (i = id)) as [->|Hne].
      - destruct (decide (owner_of x id = null_addr)) as [En|En].
        + rewrite (Ha3 En) in Hi. apply Hok3 in Hi. rewrite (owner_of_none x id Hok En) in Hi. by destruct Hi.
        + rewrite (Ha2 En) in Hi. by destruct Hi.
      - rewrite (Ha1 i Hne) in Hi. apply Hok3 in Hi.
        destruct (decide (to = null_addr)); [by rewrite lookup_delete_ne|by rewrite lookup_insert_ne]. }
  2:{ intros p. rewrite Hop. apply Hok4. }
  set (m := n_owner x) in *.
  assert (∃ b1, (∀ a, default 0 (b1 !! a) = cnt (delete id m) a mod n256) ∧
                n_bal x' = if bool_decide (to = null_addr) then b1 else set_nbal b1 to inc) as (b1 & Hb1 & Hb).
  { unfold nft_update in Hu.
    destruct (negb (bool_decide (auth = null_addr)) && negb (authorized x (owner_of x id) auth id)); [done|].
    injection Hu as <-.
    destruct (bool_decide (owner_of x id = null_addr)) eqn:Ef;
      [apply bool_decide_eq_true in Ef|apply bool_decide_eq_false in Ef]; simpl.
    - exists (n_bal x). split; [|done]. intros a. apply (owner_of_none _ _ Hok) in Ef.
      fold m in Ef. rewrite delete_notin by done. apply (Hok2 a).
    - exists (set_nbal (n_bal x) (owner_of x id) dec1). split; [|done]. intros a.
      pose proof (owner_of_some x id _ Ef eq_refl) as Es. fold m in Es.
      pose proof (cnt_delete m id _ a Es) as Ec. pose proof (Hok2 a) as Hbal.
      unfold nbal, owned in Hbal. fold m in Hbal. fold (cnt m a) in Hbal. rewrite Ec in Hbal.
      unfold set_nbal. destruct (decide (owner_of x id = a)) as [<-|Hne].
      + rewrite lookup_insert. simpl. rewrite Hbal. apply dec1_mod.
      + rewrite lookup_insert_ne by done. rewrite Hbal. f_equal. lia. }
  intros a. unfold nbal, owned. fold (cnt (n_owner x') a). rewrite Ho, Hb.
  destruct (decide (to = null_addr)) as [Et|Et];
    [rewrite (bool_decide_eq_true_2 (to = null_addr)) by done; apply Hb1
    |rewrite (bool_decide_eq_false_2 (to = null_addr)) by done].
  rewrite <- insert_delete_insert. rewrite cnt_insert by apply lookup_delete.
  unfold set_nbal. destruct (decide (to = a)) as [<-|Hne].
  - rewrite lookup_insert. simpl. rewrite Hb1. apply inc_mod.
  - rewrite lookup_insert_ne by done. rewrite Hb1. f_equal. lia.
Qed.

(** Minting and setting URIs. *)
Definition mintish (op : nop) : Prop := match op with NMint _ _ | NSetUri _ _ _ => True | _ => False end.
Lemma nbody_cases s op x x' : nbody s op x = Some x' →
  (n_owner x' = n_owner x ∧ n_bal x' = n_bal x ∧ (n_admin x' = n_admin x ∨ s = n_admin x) ∧
   (∀ i, is_Some (n_appr x' !! i) → is_Some (n_appr x !! i) ∨ owner_of x i ≠ null_addr) ∧
   (∀ p q, (p, q) ∈ n_oper x' → (p, q) ∈ n_oper x ∨ (p = s ∧ ¬ mintish op))) ∨
  (∃ to id auth prev, nft_update x to id auth = Some (prev, x')).
Proof.
  destruct op as [to id|p b|from to id|to id|id uri orig|id|o]; simpl.
  - destruct (bool_decide (owner_of x id = null_addr)) eqn:Eo; [done|]. apply bool_decide_eq_false in Eo.
    destruct (negb _ && _ && _); [done|]. intros [= <-]. left. simpl.
    split; [done|]. split; [done|]. split; [by left|]. split.
    + intros i. destruct (decide (i = id)) as [->|Hn]; [by right|]. rewrite lookup_insert_ne by done. by left.
    + intros; by left.
  - destruct (bool_decide _); [done|]. intros [= <-]. left. simpl.
    split; [done|]. split; [done|]. split; [by left|]. split; [by left|].
    intros p' q. destruct b.
    + intros [[= -> ->]%elem_of_singleton|H]%elem_of_union; [right; by split; [|intros []]|by left].
    + intros [H _]%elem_of_difference. by left.
  - destruct (bool_decide (to = null_addr)); [done|].
    destruct (nft_update x to id s) as [[prev x1]|] eqn:E; simpl; [|done].
    destruct (bool_decide (prev = from)); [|done]. intros [= <-]. right. by exists to, id, s, prev.
  - destruct (bool_decide (s = n_admin x)); simpl; [|done]. destruct (bool_decide (to = null_addr)); [done|].
    destruct (nft_update x to id null_addr) as [[prev x1]|] eqn:E; simpl; [|done].
    destruct (bool_decide (prev = null_addr)); [|done]. intros [= <-]. right. by exists to, id, null_addr, prev.
  - destruct (bool_decide (s = n_admin x)); simpl; [|done]. intros [= <-]. left. simpl. naive_solver.
  - destruct (bool_decide (owner_of x id = null_addr)); [done|]. destruct (authorized _ _ _ _); simpl; [|done].
    destruct (nft_update x null_addr id null_addr) as [[prev x1]|] eqn:E; simpl; [|done].
    destruct (bool_decide (prev = null_addr)); [done|]. intros [= <-]. right. by exists null_addr, id, null_addr, prev.
  - destruct (bool_decide (s = n_admin x)) eqn:Es; simpl; [|done]. apply bool_decide_eq_true in Es.
    destruct (bool_decide (o = null_addr)); simpl; [done|]. intros [= <-]. left. simpl. naive_solver.
Qed.
Lemma nbody_ok s op x x' : s ≠ null_addr ∨ mintish op → col_ok x → nbody s op x = Some x' → col_ok x'.
Proof.
  intros Hs Hok [(Ho & Hb & _ & Ha & Hp)|(to & id & auth & prev & Hu)]%nbody_cases; [|by eapply update_ok].
  pose proof Hok as (H1 & H2 & H3 & H4).
  unfold col_ok, nbal, owned in *. rewrite Ho, Hb. split; [done|]. split; [done|]. split.
  - intros i [Hi|Hi]%Ha; [by apply H3|]. exists (owner_of x i). by apply owner_of_some.
  - intros p [H|[<- Hm]]%Hp; [by apply H4 in H|]. destruct Hs; done.
Qed.
Lemma nbody_admin s op x x' : nbody s op x = Some x' → n_admin x' = n_admin x ∨ s = n_admin x.
Proof.
  intros [(_ & _ & H & _)|(to & id & auth & prev & Hu)]%nbody_cases; [done|].
  apply update_spec in Hu as (_ & _ & _ & _ & H & _). by left.
Qed.
Lemma mintish_admin s op x x' : mintish op → nbody s op x = Some x' → n_admin x' = n_admin x.
Proof.
  destruct op; simpl; try done; intros _; case_bool_decide; simpl; try done.
  - case_bool_decide; [done|].
    destruct (nft_update x to id null_addr) as [[prev x1]|] eqn:E; simpl; [|done].
    case_bool_decide; [|done]. intros [= <-]. apply update_spec in E. naive_solver.
  - by intros [= <-].
Qed.
Lemma new_col_ok a : col_ok (new_col a).
Proof. split; [done|]. split; [done|]. split; [|done]. intros id [? H]. done. Qed.

(** ** Steps *)

(** Everything the chain does is made of these. *)
Inductive piece (E : nenv) : nworld → nworld → Prop :=
| p_next w w' : next w w' → piece E w w'
| p_mint w c s op : mintish op → piece E w (snd (ncall w c s op))
| p_uri w c u : piece E w (put_uri w c u)
| p_class w class c w1 : cut_prefix denom_prefix class = None → nw_addr_of w !! class = None →
    create_col E w = Some (c, w1) →
    piece E w (NWorld (nw_code w1) (<[class := c]> (nw_addr_of w1)) (<[c := class]> (nw_id_of w1))
                            (nw_uris w1) (nw_nonce w1) (nw_accts w1) (nw_next w1)).

Record NI (w : nworld) : Prop := {
  ni_ok : ∀ c x, is_col w c x → col_ok x;
  ni_maps : ∀ k c, nw_addr_of w !! k = Some c ↔ nw_id_of w !! c = Some k;
  ni_class : ∀ k c, nw_addr_of w !! k = Some c →
    cut_prefix denom_prefix k = None ∧ addr_ok c ∧ ∃ x, is_col w c x ∧ n_admin x = chain_addr }.

Lemma ncall_cases w c s op :
  (∃ x x', is_col w c x ∧ nbody s op x = Some x' ∧ ncall w c s op = (true, put_code w (insert c (NCol x')))) ∨
  snd (ncall w c s op) = w.
Proof.
  unfold ncall, is_col. destruct (nw_code w !! c) as [[x|]|]; [|by right..].
  destruct (nbody s op x) as [x'|] eqn:E; [|by right]. left. eauto.
Qed.

(** A change of one collection that keeps what must hold. *)
Lemma NI_set w c x x' : NI w → is_col w c x → col_ok x' → (n_admin x = chain_addr → n_admin x' = chain_addr) →
  NI (put_code w (insert c (NCol x'))).
Proof.
  intros [H1 H2 H3] Hc Hok Had. constructor.
  - intros d y. unfold is_col. simpl. intros [[<- [= <-]]|[_ H]]%lookup_insert_Some; [done|]. by eapply H1.
  - exact H2.
  - intros k d Hk. simpl in Hk. destruct (H3 k d Hk) as (? & ? & y & Hy & Ha). split; [done|]. split; [done|].
    unfold is_col in *. simpl. destruct (decide (c = d)) as [<-|Hn].
    + exists x'. rewrite lookup_insert. split; [done|]. apply Had. congruence.
    + exists y. by rewrite lookup_insert_ne.
Qed.
Lemma NI_other w c v : NI w → (∀ x, ¬ is_col w c x) → (∀ x, v = Some (NCol x) → col_ok x) →
  NI (put_code w (partial_alter (λ _, v) c)).
Proof.
  intros [H1 H2 H3] Hc Hv. constructor.
  - intros d y. unfold is_col. simpl. destruct (decide (c = d)) as [<-|Hn].
    + rewrite lookup_partial_alter. apply Hv.
    + rewrite lookup_partial_alter_ne by done. apply H1.
  - exact H2.
  - intros k d Hk. simpl in Hk. destruct (H3 k d Hk) as (? & ? & y & Hy & Ha). split; [done|]. split; [done|].
    exists y. split; [|done]. unfold is_col in *. simpl.
    rewrite lookup_partial_alter_ne; [done|]. intros ->. by apply Hc in Hy.
Qed.

Lemma NI_next w w' : NI w → next w w' → NI w'.
Proof.
  intros HI. destruct 1 as [w c s op Hs Hz|w c s Hc Hs|w c Hc|w c Hc|w m n].
  - destruct (ncall_cases w c s op) as [(x & x' & Hc & Hb & ->)| ->]; [|done]. simpl.
    eapply NI_set; [done..| |].
    + eapply nbody_ok; [by left| |done]. by eapply ni_ok.
    + intros Ha. destruct (nbody_admin _ _ _ _ Hb); congruence.
  - apply (NI_other w c (Some (NCol (new_col s)))); [done| |].
    + unfold is_col. by rewrite Hc.
    + intros x [= <-]. apply new_col_ok.
  - apply (NI_other w c (Some NCustom)); [done| |done]. unfold is_col. by rewrite Hc.
  - apply (NI_other w c None); [done| |done]. unfold is_col. by rewrite Hc.
  - destruct HI as [H1 H2 H3]. by constructor.
Qed.

Lemma NI_piece E w w' : (∀ n, addr_ok (ne_create E n)) → NI w → piece E w w' → NI w'.
Proof.
  intros HE HI. destruct 1 as [w w' H|w c s op Hm|w c u|w class c w1 Hk Hn Hc].
  - by eapply NI_next.
  - destruct (ncall_cases w c s op) as [(x & x' & Hc & Hb & ->)| ->]; [|done]. simpl.
    eapply NI_set; [done..| |].
    + eapply nbody_ok; [by right| |done]. by eapply ni_ok.
    + intros Ha. by rewrite (mintish_admin _ _ _ _ Hm Hb).
  - destruct HI as [H1 H2 H3]. by constructor.
  - unfold create_col in Hc. destruct (nw_code w !! ne_create E (nw_nonce w)) eqn:Ec; [done|].
    injection Hc as <- <-. simpl. set (c := ne_create E (nw_nonce w)) in *.
    destruct HI as [H1 H2 H3].
    assert (nw_id_of w !! c = None) as Hid.
    { destruct (nw_id_of w !! c) as [k|] eqn:Ek; [|done]. apply H2 in Ek.
      destruct (H3 _ _ Ek) as (_ & _ & y & Hy & _). unfold is_col in Hy. congruence. }
    constructor; simpl.
    + intros d y. unfold is_col. simpl. intros [[<- [= <-]]|[_ H]]%lookup_insert_Some; [apply new_col_ok|].
      by eapply H1.
    + intros k d. rewrite !lookup_insert_Some. split.
      * intros [[-> ->]|[Hne H]]; [by left|]. apply H2 in H. right. split; [|done]. intros <-. congruence.
      * intros [[-> ->]|[Hne H]]; [by left|]. apply H2 in H. right. split; [|done]. intros <-. congruence.
    + intros k d. rewrite lookup_insert_Some. intros [[<- <-]|[Hne H]].
      * split; [done|]. split; [apply HE|]. exists (new_col chain_addr). split; [|done].
        unfold is_col. simpl. apply lookup_insert.
      * destruct (H3 k d H) as (? & ? & y & Hy & Ha). split; [done|]. split; [done|]. exists y. split; [|done].
        unfold is_col in *. simpl. rewrite lookup_insert_ne; [done|]. intros ->. congruence.
Qed.

(** ** The keeper's functions are made of pieces *)

Lemma convert_addr m n a sg s m' n' : convert_to_evm m n a sg = Some (s, m', n') → s = bytes_to_address a.
Proof.
  unfold convert_to_evm. destruct (Nat.eqb_spec (length a) 20) as [E|E].
  - intros [= <- <- <-]. symmetry. by apply to_fixed_id.
  - destruct (m !! bytes_to_address a) as [ac|]; [|destruct sg; congruence].
    destruct (is_empty_acct ac); [destruct sg; congruence|].
    destruct (ac_kind ac); try done. case_bool_decide; [congruence|done].
Qed.

Section pieces.
  Context (E : nenv) (HE : nenv_ok E).
  Notation "w ⇒ w'" := (rtc (piece E) w w') (at level 70).

  Lemma nexts w w' : rtc next w w' → w ⇒ w'.
  Proof. induction 1; [done|]. eapply rtc_l; [by apply p_next|done]. Qed.
  Lemma receive_pieces w to c id : w ⇒ snd (receive E w to c id).
  Proof.
    unfold receive. destruct (nw_code w !! to) as [[|]|]; try done.
    apply nexts. apply (proj1 (proj2 HE)).
  Qed.
  Lemma on_col_pieces w c s f : w ⇒ snd f → w ⇒ snd (on_col E w c s f).
  Proof.
    unfold on_col. intros H. destruct (nw_code w !! c) as [[x|]|]; [| |done].
    - destruct f as [ok w']. by destruct ok.
    - pose proof (proj2 (proj2 HE) w c s) as Hx. destruct (ne_custom E w c s) as [w' ok]. by apply nexts.
  Qed.
  Lemma ncall_pieces w c s op : (s ≠ chain_addr ∧ s ≠ null_addr) ∨ mintish op → w ⇒ snd (ncall w c s op).
  Proof. intros [[]|]; apply rtc_once; [apply p_next; by constructor|by apply p_mint]. Qed.

  Lemma transfer_pieces w c s from to id : s ≠ chain_addr → s ≠ null_addr → w ⇒ snd (safe_transfer E w c s from to id).
  Proof.
    intros Hs Hz. apply on_col_pieces.
    pose proof (ncall_pieces w c s (NTransferFrom from to id) (or_introl (conj Hs Hz))) as H.
    destruct (ncall w c s _) as [ok w1]. destruct ok; [|done].
    etrans; [exact H|]. apply receive_pieces.
  Qed.
  Lemma mint_pieces w c s to id uri orig : w ⇒ snd (safe_mint E w c s to id uri orig).
  Proof.
    apply on_col_pieces.
    pose proof (ncall_pieces w c s (NMint to id) (or_intror I)) as H.
    destruct (ncall w c s _) as [ok w1]. destruct ok; [|done].
    pose proof (receive_pieces w1 to c id) as H2. destruct (receive E w1 to c id) as [ok2 w2]. simpl in *.
    destruct ok2; [|by etrans]. destruct (nw_code w2 !! c) as [[x|]|]; [|by etrans..].
    etrans; [exact H|]. etrans; [exact H2|]. by apply ncall_pieces; right.
  Qed.
  Lemma burn_pieces w c s id : s ≠ chain_addr → s ≠ null_addr → w ⇒ snd (do_burn E w c s id).
  Proof. intros. apply on_col_pieces, ncall_pieces. by left. Qed.

  Lemma transfers_pieces w class c s r l : s ≠ chain_addr → s ≠ null_addr → w ⇒ snd (transfer_loop E w class c s r l).
  Proof.
    intros Hs Hz. revert w. induction l as [|t l IH]; intros w; simpl; [done|].
    destruct (token_number E class t) as [id|]; [|done].
    pose proof (transfer_pieces w c s s r id Hs Hz) as H.
    destruct (safe_transfer E w c s s r id) as [ok w1]. destruct ok; [|done]. etrans; [exact H|apply IH].
  Qed.
  Lemma burns_pieces w class c s l : s ≠ chain_addr → s ≠ null_addr → w ⇒ snd (nburn_loop E w class c s l).
  Proof.
    intros Hs Hz. revert w. induction l as [|t l IH]; intros w; simpl; [done|].
    destruct (token_number E class t) as [id|]; [|done].
    pose proof (burn_pieces w c s id Hs Hz) as H.
    destruct (do_burn E w c s id) as [ok w1]. destruct ok; [|done]. etrans; [exact H|apply IH].
  Qed.
  Lemma mints_pieces w class c r l uris : w ⇒ snd (nmint_loop E w class c r l uris).
  Proof.
    revert w uris. induction l as [|t l IH]; intros w uris; simpl; [done|].
    destruct (token_number E class t) as [id|]; [|done]. destruct uris as [|u uris]; [done|].
    pose proof (mint_pieces w c chain_addr r id u t) as H.
    destruct (safe_mint E w c chain_addr r id u t) as [ok w1]. destruct ok; [|done]. etrans; [exact H|apply IH].
  Qed.
  Lemma accts_pieces w m n : w ⇒ put_accts w m n.
  Proof. apply rtc_once, p_next. constructor. Qed.

  Lemma step_pieces w w' : nstep E w w' → w ⇒ w'.
  Proof.
    destruct 1 as [w w' H|w class uri Hk|w a b class l [Hz Hs]|w a class l [Hz Hs]|w b class l uris].
    - by apply rtc_once, p_next.
    - unfold create_or_update. destruct (nw_addr_of w !! class) as [c|] eqn:Ec.
      + destruct (class_contract w class); [|done]. apply rtc_once, p_uri.
      + destruct (create_col E w) as [[c w1]|] eqn:Ecr; cbn [mbind option_bind]; [|done].
        assert (w ⇒ NWorld (nw_code w1) (<[class := c]> (nw_addr_of w1)) (<[c := class]> (nw_id_of w1))
                  (nw_uris w1) (nw_nonce w1) (nw_accts w1) (nw_next w1)) as H1 by (by apply rtc_once, p_class).
        destruct (class_contract _ class); [|exact H1]. eapply rtc_r; [exact H1|apply p_uri].
    - unfold k_transfers. destruct (convert_to_evm _ _ a true) as [[[s m1] n1]|] eqn:E1; [|done].
      apply convert_addr in E1. subst s.
      destruct (convert_to_evm m1 n1 b false) as [[[r m2] n2]|]; [|apply accts_pieces].
      destruct (class_contract _ class) as [c|]; [|apply accts_pieces].
      etrans; [apply (accts_pieces w m1 n1)|]. etrans; [apply (accts_pieces _ m2 n2)|]. by apply transfers_pieces.
    - unfold k_burns. destruct (class_contract w class) as [c|]; [|done].
      destruct (convert_to_evm _ _ a false) as [[[s m1] n1]|] eqn:E1; [|done].
      apply convert_addr in E1. subst s. etrans; [apply (accts_pieces w m1 n1)|]. by apply burns_pieces.
    - unfold k_mints. destruct (class_contract w class) as [c|]; [|done].
      destruct (convert_to_evm _ _ b false) as [[[s m1] n1]|] eqn:E1; [|done].
      etrans; [apply (accts_pieces w m1 n1)|]. by apply mints_pieces.
  Qed.
  Lemma NI_pieces w w' : NI w → w ⇒ w' → NI w'.
  Proof. intros HI H. induction H; [done|]. apply IHrtc. eapply NI_piece; [apply HE|done..]. Qed.
End pieces.

Lemma NI_reachable E w : nreachable E w → NI w.
Proof.
  intros (HE & w0 & (H1 & H2 & H3) & Hs).
  assert (NI w0) as H0.
  { constructor.
    - intros c x H. by apply H1 in H.
    - intros k c. by rewrite H2, H3, !lookup_empty.
    - intros k c. by rewrite H2, lookup_empty. }
  clear H1 H2 H3. induction Hs as [|x y z Hxy _ IH]; [done|]. apply IH.
  eapply NI_pieces; [done..|]. by apply step_pieces.
Qed.

(** ** Exact effects *)

Lemma transfer_body s r id x x' : col_ok x → s ≠ null_addr → nbody s (NTransferFrom s r id) x = Some x' →
  n_owner x !! id = Some s ∧ r ≠ null_addr ∧ n_owner x' = <[id := r]> (n_owner x) ∧
  n_oper x' = n_oper x ∧ n_admin x' = n_admin x ∧ n_uri x' = n_uri x ∧ n_orig x' = n_orig x.
Proof.
  intros Hok Hs. simpl. case_bool_decide as Er; [done|].
  destruct (nft_update x r id s) as [[prev x1]|] eqn:Eu; simpl; [|done].
  case_bool_decide as Ep; [|done]. intros [= <-]. apply update_spec in Eu as (Hp & _ & Ho & ? & ? & ? & ? & _).
  rewrite decide_False in Ho by done.
  split; [|done]. apply owner_of_some; congruence.
Qed.
Lemma transfer_can s r id x : n_owner x !! id = Some s → s ≠ null_addr → r ≠ null_addr →
  ∃ x', nbody s (NTransferFrom s r id) x = Some x'.
Proof.
  intros Ho Hs Hr. simpl. rewrite (bool_decide_eq_false_2 (r = null_addr)) by done.
  assert (owner_of x id = s) as Eo by (unfold owner_of; by rewrite Ho).
  unfold nft_update. rewrite Eo.
  assert (authorized x s s id = true) as ->.
  { unfold authorized. rewrite (bool_decide_eq_false_2 (s = null_addr)), (bool_decide_eq_true_2 (s = s)) by done. done. }
  rewrite andb_false_r. simpl. rewrite (bool_decide_eq_true_2 (s = s)) by done. eauto.
Qed.
Lemma mint_body s r id x x' : col_ok x → nbody s (NMint r id) x = Some x' →
  s = n_admin x ∧ n_owner x !! id = None ∧ r ≠ null_addr ∧ n_owner x' = <[id := r]> (n_owner x) ∧
  n_oper x' = n_oper x ∧ n_admin x' = n_admin x ∧ n_uri x' = n_uri x ∧ n_orig x' = n_orig x.
Proof.
  intros Hok. simpl. case_bool_decide as Es; [|done]. simpl. case_bool_decide as Er; [done|].
  destruct (nft_update x r id null_addr) as [[prev x1]|] eqn:Eu; simpl; [|done].
  case_bool_decide as Ep; [|done]. intros [= <-]. apply update_spec in Eu as (Hp & _ & Ho & ? & ? & ? & ? & _).
  rewrite decide_False in Ho by done.
  split; [done|]. split; [|done]. apply owner_of_none; [done|]. congruence.
Qed.
Lemma mint_can s r id x : s = n_admin x → n_owner x !! id = None → r ≠ null_addr → ∃ x', nbody s (NMint r id) x = Some x'.
Proof.
  intros Es Ho Hr. simpl. rewrite (bool_decide_eq_true_2 (s = n_admin x)) by done. simpl.
  rewrite (bool_decide_eq_false_2 (r = null_addr)) by done.
  assert (owner_of x id = null_addr) as Eo by (unfold owner_of; by rewrite Ho).
  unfold nft_update. rewrite Eo. rewrite (bool_decide_eq_true_2 (null_addr = null_addr)) by done. simpl. eauto.
Qed.
Lemma burn_body s id x x' : nbody s (NBurn id) x = Some x' →
  (∃ o, n_owner x !! id = Some o ∧ authorized x o s id = true) ∧ n_owner x' = delete id (n_owner x) ∧
  n_oper x' = n_oper x ∧ n_admin x' = n_admin x ∧ n_uri x' = n_uri x ∧ n_orig x' = n_orig x ∧
  (∀ i, i ≠ id → n_appr x' !! i = n_appr x !! i).
Proof.
  simpl. case_bool_decide as Eo; [done|]. destruct (authorized x (owner_of x id) s id) eqn:Ea; simpl; [|done].
  destruct (nft_update x null_addr id null_addr) as [[prev x1]|] eqn:Eu; simpl; [|done].
  case_bool_decide as Ep; [done|]. intros [= <-]. apply update_spec in Eu as (Hp & _ & Ho & ? & ? & ? & ? & ? & _).
  rewrite decide_True in Ho by done. split; [|done]. exists (owner_of x id). split; [|done]. by apply owner_of_some.
Qed.
Lemma burn_can s id x o : n_owner x !! id = Some o → o ≠ null_addr → authorized x o s id = true →
  ∃ x', nbody s (NBurn id) x = Some x'.
Proof.
  intros Ho Hn Ha. simpl. assert (owner_of x id = o) as Eo by (unfold owner_of; by rewrite Ho).
  rewrite Eo, (bool_decide_eq_false_2 (o = null_addr)) by done. rewrite Ha. simpl.
  unfold nft_update. rewrite Eo, (bool_decide_eq_true_2 (null_addr = null_addr)) by done. simpl.
  rewrite (bool_decide_eq_false_2 (o = null_addr)) by done. eauto.
Qed.

Lemma put_code_id w c x : is_col w c x → put_code w (insert c (NCol x)) = w.
Proof. intros H. unfold put_code. rewrite insert_id by exact H. by destruct w. Qed.
Lemma put_code_twice w c v v' : put_code (put_code w (insert c v)) (insert c v') = put_code w (insert c v').
Proof. unfold put_code. simpl. by rewrite insert_insert. Qed.
Lemma is_col_put w c x : is_col (put_code w (insert c (NCol x))) c x.
Proof. apply lookup_insert. Qed.

Lemma safe_transfer_eoa E w c s from r id x : is_col w c x → nw_code w !! r = None →
  safe_transfer E w c s from r id =
    match nbody s (NTransferFrom from r id) x with
    | Some x' => (true, put_code w (insert c (NCol x')))
    | None => (false, w)
    end.
Proof.
  intros Hc Hr. unfold safe_transfer, on_col, ncall. rewrite !Hc.
  destruct (nbody s _ x) as [x'|]; [|done].
  unfold receive. simpl. rewrite lookup_insert_ne; [by rewrite Hr|]. intros <-. unfold is_col in Hc. congruence.
Qed.
Definition with_uri (x : col) (id : N) (u o : text) : col :=
  Col (n_owner x) (n_bal x) (n_appr x) (n_oper x) (n_admin x) (<[id := u]> (n_uri x)) (<[id := o]> (n_orig x)).
Lemma safe_mint_eoa E w c s r id u o x : is_col w c x → nw_code w !! r = None →
  safe_mint E w c s r id u o =
    match nbody s (NMint r id) x with
    | Some x' => (true, put_code w (insert c (NCol (with_uri x' id u o))))
    | None => (false, w)
    end.
Proof.
  intros Hc Hr. unfold safe_mint, on_col, ncall. rewrite !Hc.
  destruct (nbody s _ x) as [x'|]; [|done].
  unfold receive. simpl. rewrite lookup_insert_ne, Hr by (intros <-; unfold is_col in Hc; congruence). simpl.
  rewrite lookup_insert. rewrite (bool_decide_eq_true_2 (n_admin x' = n_admin x')) by done. simpl.
  by rewrite put_code_twice.
Qed.
Lemma do_burn_col E w c s id x : is_col w c x →
  do_burn E w c s id =
    match nbody s (NBurn id) x with
    | Some x' => (true, put_code w (insert c (NCol x')))
    | None => (false, w)
    end.
Proof. intros Hc. unfold do_burn, on_col, ncall. rewrite !Hc. by destruct (nbody s _ x). Qed.

Lemma numbers_cons E class t l id ids : token_number E class t = Some id → numbers E class l = Some ids →
  numbers E class (t :: l) = Some (id :: ids).
Proof. unfold numbers. intros H1 H2. simpl. rewrite H1. simpl. by rewrite H2. Qed.

Local Arguments numbers : simpl never.
Lemma transfer_loop_ok E class c s r l : s ≠ null_addr → ∀ w x w',
  is_col w c x → col_ok x → nw_code w !! r = None →
  transfer_loop E w class c s r l = (true, w') →
  ∃ ids x', numbers E class l = Some ids ∧ w' = put_code w (insert c (NCol x')) ∧
    (∀ id, id ∈ ids → n_owner x !! id = Some s) ∧ (ids ≠ [] → r ≠ null_addr) ∧ (r ≠ s → NoDup ids) ∧
    (∀ id, n_owner x' !! id = if decide (id ∈ ids) then Some r else n_owner x !! id) ∧
    n_oper x' = n_oper x ∧ n_admin x' = n_admin x ∧ n_uri x' = n_uri x ∧ n_orig x' = n_orig x.
Proof.
  intros Hs. induction l as [|t l IH]; intros w x w' Hc Hok Hr; simpl.
  - intros [= <-]. exists [], x. rewrite put_code_id by done. repeat split; try done.
    + intros id H. by apply elem_of_nil in H.
    + constructor.
  - destruct (token_number E class t) as [id|] eqn:Et; [|done]. rewrite (safe_transfer_eoa E w c s s r id x) by done.
    destruct (nbody s _ x) as [x1|] eqn:Eb; [|done]. intros Hl.
    pose proof (nbody_ok _ _ _ _ (or_introl Hs) Hok Eb) as Hok1.
    apply transfer_body in Eb as (Hid & Hrn & Ho & E1 & E2 & E3 & E4); [|done..].
    apply (IH _ x1) in Hl as (ids & x' & Hn & -> & Hall & _ & Hnd & Hown & F1 & F2 & F3 & F4);
      [|apply is_col_put|done|simpl; rewrite lookup_insert_ne; [done|intros <-; unfold is_col in Hc; congruence]].
    rewrite put_code_twice. exists (id :: ids), x'.
    assert (∀ i, i ∈ ids → n_owner x !! i = Some s) as Hall'.
    { intros i Hi. apply Hall in Hi. rewrite Ho in Hi. apply lookup_insert_Some in Hi as [[<- <-]|[_ Hi]]; done. }
    split; [by apply numbers_cons|]. split; [done|].
    split; [intros i [->|Hi]%elem_of_cons; [done|]; by apply Hall'|]. split; [done|].
    split; [|split; [|repeat split; congruence]].
    + intros Hne. constructor; [|by apply Hnd]. intros Hi. apply Hall in Hi. rewrite Ho, lookup_insert in Hi. congruence.
    + intros i. rewrite Hown, Ho. destruct (decide (i ∈ ids)) as [Hi|Hi].
      * by rewrite decide_True by (by right).
      * destruct (decide (i = id)) as [->|Hne].
        -- rewrite decide_True by (by left). by rewrite lookup_insert.
        -- rewrite decide_False by (by rewrite not_elem_of_cons). by rewrite lookup_insert_ne.
Qed.
Lemma transfer_loop_can E class c s r l ids : s ≠ null_addr → r ≠ null_addr → numbers E class l = Some ids → NoDup ids → ∀ w x,
  is_col w c x → nw_code w !! r = None → (∀ id, id ∈ ids → n_owner x !! id = Some s) →
  fst (transfer_loop E w class c s r l) = true.
Proof.
  intros Hs Hrn. revert ids. induction l as [|t l IH]; intros ids Hn Hnd w x Hc Hr Hall; simpl; [done|].
  unfold numbers in Hn. simpl in Hn. destruct (token_number E class t) as [id|] eqn:Et; simpl in Hn; [|done].
  destruct (mapM (token_number E class) l) as [ids'|] eqn:El; simpl in Hn; [|done]. injection Hn as <-.
  apply NoDup_cons in Hnd as [Hni Hnd].
  rewrite (safe_transfer_eoa E w c s s r id x) by done.
  destruct (transfer_can s r id x) as [x1 Eb]; [apply Hall; by left|done..|]. rewrite Eb.
  assert (n_owner x1 = <[id := r]> (n_owner x)) as Ho.
  { revert Eb. simpl. case_bool_decide; [done|]. destruct (nft_update x r id s) as [[prev y]|] eqn:Eu; simpl; [|done].
    case_bool_decide; [|done]. intros [= <-]. apply update_spec in Eu as (_ & _ & Ho & _).
    by rewrite decide_False in Ho. }
  apply (IH ids' El Hnd _ x1); [apply is_col_put| |].
  - simpl; rewrite lookup_insert_ne; [done|intros <-; unfold is_col in Hc; congruence].
  - intros i Hi. rewrite Ho, lookup_insert_ne; [|intros ->; done]. apply Hall. by right.
Qed.

Lemma burn_loop_ok E class c s l : ∀ w x w',
  is_col w c x →
  nburn_loop E w class c s l = (true, w') →
  ∃ ids x', numbers E class l = Some ids ∧ w' = put_code w (insert c (NCol x')) ∧ NoDup ids ∧
    (∀ id, id ∈ ids → ∃ o, n_owner x !! id = Some o ∧ authorized x o s id = true) ∧
    (∀ id, n_owner x' !! id = if decide (id ∈ ids) then None else n_owner x !! id) ∧
    n_oper x' = n_oper x ∧ n_admin x' = n_admin x ∧ n_uri x' = n_uri x ∧ n_orig x' = n_orig x.
Proof.
  induction l as [|t l IH]; intros w x w' Hc; simpl.
  - intros [= <-]. exists [], x. rewrite put_code_id by done. repeat split; try done.
    + constructor.
    + intros id H. by apply elem_of_nil in H.
  - destruct (token_number E class t) as [id|] eqn:Et; [|done]. rewrite (do_burn_col E w c s id x) by done.
    destruct (nbody s _ x) as [x1|] eqn:Eb; [|done]. intros Hl.
    apply burn_body in Eb as (Hid & Ho & E1 & E2 & E3 & E4 & E5).
    apply (IH _ x1) in Hl as (ids & x' & Hn & -> & Hnd & Hall & Hown & F1 & F2 & F3 & F4); [|apply is_col_put].
    rewrite put_code_twice. exists (id :: ids), x'.
    assert (id ∉ ids) as Hni.
    { intros (o & Hx & _)%Hall. by rewrite Ho, lookup_delete in Hx. }
    split; [by apply numbers_cons|]. split; [done|].
    split; [by constructor|]. split; [|split; [|repeat split; congruence]].
    + intros i [->|Hi]%elem_of_cons; [done|]. pose proof (Hall i Hi) as (o & Hx & Ha).
      assert (i ≠ id) as Hne by (by intros ->).
      rewrite Ho, lookup_delete_ne in Hx by done. exists o. split; [done|].
      revert Ha. unfold authorized, appr_of. by rewrite E1, (E5 i Hne).
    + intros i. rewrite Hown, Ho. destruct (decide (i ∈ ids)) as [Hi|Hi].
      * by rewrite decide_True by (by right).
      * destruct (decide (i = id)) as [->|Hne].
        -- rewrite decide_True by (by left). by rewrite lookup_delete.
        -- rewrite decide_False by (by rewrite not_elem_of_cons). by rewrite lookup_delete_ne.
Qed.
Lemma burn_loop_can E class c s l ids : numbers E class l = Some ids → NoDup ids → ∀ w x,
  is_col w c x →
  (∀ id, id ∈ ids → ∃ o, o ≠ null_addr ∧ n_owner x !! id = Some o ∧ authorized x o s id = true) →
  fst (nburn_loop E w class c s l) = true.
Proof.
  revert ids. induction l as [|t l IH]; intros ids Hn Hnd w x Hc Hall; simpl; [done|].
  unfold numbers in Hn. simpl in Hn. destruct (token_number E class t) as [id|] eqn:Et; simpl in Hn; [|done].
  destruct (mapM (token_number E class) l) as [ids'|] eqn:El; simpl in Hn; [|done]. injection Hn as <-.
  apply NoDup_cons in Hnd as [Hni Hnd].
  rewrite (do_burn_col E w c s id x) by done.
  destruct (Hall id) as (o & Hno & Ho & Ha); [by left|].
  destruct (burn_can s id x o) as [x1 Eb]; [done..|]. rewrite Eb.
  apply burn_body in Eb as (_ & Ho1 & E1 & _ & _ & _ & E5).
  apply (IH ids' El Hnd _ x1); [apply is_col_put|].
  intros i Hi. destruct (Hall i) as (o' & Hno' & Ho' & Ha'); [by right|].
  assert (i ≠ id) as Hne by (by intros ->).
  exists o'. split; [done|]. rewrite Ho1, lookup_delete_ne by done. split; [done|].
  unfold authorized, appr_of in *. by rewrite E1, (E5 i Hne).
Qed.

Lemma mint_loop_ok E class c r l : ∀ uris w x w',
  is_col w c x → col_ok x → nw_code w !! r = None →
  nmint_loop E w class c r l uris = (true, w') →
  ∃ ids x', numbers E class l = Some ids ∧ w' = put_code w (insert c (NCol x')) ∧ NoDup ids ∧
    (length l ≤ length uris)%nat ∧
    (ids ≠ [] → r ≠ null_addr ∧ n_admin x = chain_addr) ∧
    (∀ id, id ∈ ids → n_owner x !! id = None) ∧
    (∀ id, n_owner x' !! id = if decide (id ∈ ids) then Some r else n_owner x !! id) ∧
    (∀ i id t u, ids !! i = Some id → l !! i = Some t → uris !! i = Some u →
                 n_uri x' !! id = Some u ∧ n_orig x' !! id = Some t) ∧
    (∀ id, id ∉ ids → n_uri x' !! id = n_uri x !! id ∧ n_orig x' !! id = n_orig x !! id) ∧
    n_oper x' = n_oper x ∧ n_admin x' = n_admin x.
Proof.
  induction l as [|t l IH]; intros uris w x w' Hc Hok Hr; simpl.
  - intros [= <-]. exists [], x. rewrite put_code_id by done. repeat split; try done.
    + constructor.
    + lia.
    + intros id H. by apply elem_of_nil in H.
  - destruct (token_number E class t) as [id|] eqn:Et; [|done]. destruct uris as [|u uris]; [done|].
    rewrite (safe_mint_eoa E w c chain_addr r id u t x) by done.
    destruct (nbody _ _ x) as [x1|] eqn:Eb; [|done]. intros Hl.
    pose proof (nbody_ok chain_addr (NMint r id) x x1 (or_intror I) Hok Eb) as Hok1.
    apply mint_body in Eb as (Had & Hid & Hrn & Ho & E1 & E2 & E3 & E4); [|done].
    apply (IH _ _ (with_uri x1 id u t)) in Hl as (ids & x' & Hn & -> & Hnd & Hlen & _ & Hall & Hown & Hset & Hkeep & F1 & F2);
      [|apply is_col_put|done|simpl; rewrite lookup_insert_ne; [done|intros <-; unfold is_col in Hc; congruence]].
    rewrite put_code_twice. exists (id :: ids), x'. simpl in *.
    assert (id ∉ ids) as Hni.
    { intros Hx%Hall. by rewrite Ho, lookup_insert in Hx. }
    split; [by apply numbers_cons|]. split; [done|].
    split; [by constructor|]. split; [lia|]. split; [done|].
    split.
    { intros i [->|Hi]%elem_of_cons; [done|]. pose proof (Hall i Hi) as Hx. rewrite Ho in Hx.
      by apply lookup_insert_None in Hx as [? _]. }
    split.
    { intros i. rewrite Hown, Ho. destruct (decide (i ∈ ids)) as [Hi|Hi].
      * by rewrite decide_True by (by right).
      * destruct (decide (i = id)) as [->|Hne].
        -- rewrite decide_True by (by left). by rewrite lookup_insert.
        -- rewrite decide_False by (by rewrite not_elem_of_cons). by rewrite lookup_insert_ne. }
    split.
    { intros [|i] j t' u'; simpl.
      - intros [= <-] [= <-] [= <-]. destruct (Hkeep id Hni) as [-> ->]. by rewrite !lookup_insert.
      - apply Hset. }
    split.
    { intros i [Hne Hi]%not_elem_of_cons. destruct (Hkeep i Hi) as [-> ->].
      rewrite !lookup_insert_ne by done. by rewrite E3, E4. }
    by rewrite F1, F2, E1, E2.
Qed.
Lemma mint_loop_can E class c r l ids : r ≠ null_addr → numbers E class l = Some ids → NoDup ids → ∀ uris w x,
  is_col w c x → nw_code w !! r = None → n_admin x = chain_addr → (length l ≤ length uris)%nat →
  (∀ id, id ∈ ids → n_owner x !! id = None) →
  fst (nmint_loop E w class c r l uris) = true.
Proof.
  intros Hrn. revert ids. induction l as [|t l IH]; intros ids Hn Hnd uris w x Hc Hr Had Hlen Hall; simpl; [done|].
  unfold numbers in Hn. simpl in Hn. destruct (token_number E class t) as [id|] eqn:Et; simpl in Hn; [|done].
  destruct (mapM (token_number E class) l) as [ids'|] eqn:El; simpl in Hn; [|done]. injection Hn as <-.
  apply NoDup_cons in Hnd as [Hni Hnd]. destruct uris as [|u uris]; simpl in Hlen; [lia|].
  rewrite (safe_mint_eoa E w c chain_addr r id u t x) by done.
  destruct (mint_can chain_addr r id x) as [x1 Eb]; [done|apply Hall; by left|done|]. rewrite Eb.
  assert (n_owner x1 = <[id := r]> (n_owner x) ∧ n_admin x1 = n_admin x) as [Ho Ha].
  { revert Eb. simpl. case_bool_decide; [|done]. simpl. case_bool_decide; [done|].
    destruct (nft_update x r id null_addr) as [[prev y]|] eqn:Eu; simpl; [|done].
    case_bool_decide; [|done]. intros [= <-]. apply update_spec in Eu as (_ & _ & Ho & _ & ? & _).
    by rewrite decide_False in Ho. }
  apply (IH ids' El Hnd uris _ (with_uri x1 id u t)); [apply is_col_put| |simpl; congruence|lia|].
  - simpl; rewrite lookup_insert_ne; [done|intros <-; unfold is_col in Hc; congruence].
  - simpl. intros i Hi. rewrite Ho, lookup_insert_ne; [|intros ->; done]. apply Hall. by right.
Qed.
