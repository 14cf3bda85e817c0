(** C52: ERC-721 classes and tokens. *)
From Verif.Base Require Import Prelude Hex Dec.
From Verif.Model Require Import Token Bank Nft.
From Verif.Spec Require Import TokenSpec NftSpec.
From Verif.Proofs Require Import HexP BankP NftP.
Local Open Scope N_scope.

Local Arguments convert_to_evm : simpl never.
Local Arguments token_number : simpl never.
Local Arguments class_contract : simpl never.
Local Arguments contract_class : simpl never.

(** ** Classes *)

(** Recorded class ids and recorded contracts are the two sides of a bijection, and
    a recorded contract is a collection under the chain's control. *)
Theorem C52_classes E w : nreachable E w →
  (∀ k c, nw_addr_of w !! k = Some c ↔ nw_id_of w !! c = Some k) ∧
  (∀ k c, nw_addr_of w !! k = Some c → ∃ x, is_col w c x ∧ n_admin x = chain_addr).
Proof.
  intros [_ H2 H3]%NI_reachable. split; [done|]. intros k c H. by destruct (H3 k c H) as (_ & _ & Hx).
Qed.

(** From a contract to its class id and back; a recorded class id and back. *)
Theorem C52_class_round_trip E w : nreachable E w →
  (∀ c, addr_ok c → class_contract w (contract_class E w c) = Some c) ∧
  (∀ k c, nw_addr_of w !! k = Some c → class_contract w k = Some c ∧ contract_class E w c = k).
Proof.
  intros [_ H2 H3]%NI_reachable.
  assert (∀ k c, nw_addr_of w !! k = Some c → class_contract w k = Some c) as Hk.
  { intros k c H. destruct (H3 k c H) as (Hp & [Hl _] & _). unfold class_contract. rewrite Hp, H. simpl. f_equal.
    by apply to_fixed_id. }
  split.
  - intros c [Hl Hb]. unfold contract_class. destruct (nw_id_of w !! c) as [k|] eqn:Ei.
    + apply Hk. by apply H2.
    + unfold class_contract. rewrite cut_prefix_app.
      change (drop 2 (address_hex (ne_ck E) c)) with (hex_enc (ne_ck E c) c).
      rewrite is_hex_address_plain, hex_to_address_plain by done. done.
  - intros k c H. split; [by apply Hk|]. unfold contract_class. apply H2 in H. by rewrite H.
Qed.
Theorem C52_class_names_differ E w c d : nreachable E w → addr_ok c → addr_ok d → c ≠ d →
  contract_class E w c ≠ contract_class E w d.
Proof.
  intros Hr Hc Hd Hne Heq. destruct (C52_class_round_trip E w Hr) as [H _].
  pose proof (H c Hc) as H1. pose proof (H d Hd) as H2. rewrite Heq in H1. congruence.
Qed.

(** Creating a class: a fresh, empty collection under the chain's control; everything
    else stays. It succeeds exactly when no code sits at the next address. *)
Theorem C52_create E w class uri w' : nreachable E w → cut_prefix denom_prefix class = None →
  nw_addr_of w !! class = None → create_or_update E w class uri = (true, w') →
  ∃ c, addr_ok c ∧ nw_code w !! c = None ∧ nw_id_of w !! c = None ∧ is_col w' c (new_col chain_addr) ∧
    nw_addr_of w' = <[class := c]> (nw_addr_of w) ∧ nw_id_of w' = <[c := class]> (nw_id_of w) ∧
    nw_uris w' = <[c := uri]> (nw_uris w) ∧ class_contract w' class = Some c ∧
    (∀ d, d ≠ c → nw_code w' !! d = nw_code w !! d) ∧ nw_accts w' = nw_accts w.
Proof.
  intros Hr Hp Hn. pose proof Hr as [[HE _] _]. apply NI_reachable in Hr as [_ H2 H3].
  unfold create_or_update. rewrite Hn. unfold create_col.
  pose proof (HE (nw_nonce w)) as Hok. pose proof Hok as [Hl _].
  set (c := ne_create E (nw_nonce w)) in *.
  destruct (nw_code w !! c) eqn:Ec; cbn [mbind option_bind]; [done|].
  unfold class_contract. rewrite Hp. cbn [nw_addr_of]. rewrite lookup_insert. simpl.
  intros [= <-]. exists c. unfold bytes_to_address. rewrite to_fixed_id by done.
  unfold is_col. simpl. rewrite !lookup_insert. repeat split; try done.
  - by apply Hok.
  - destruct (nw_id_of w !! c) as [k|] eqn:Ek; [|done]. apply H2 in Ek.
    destruct (H3 _ _ Ek) as (_ & _ & y & Hy & _). unfold is_col in Hy. congruence.
  - simpl. f_equal. by apply to_fixed_id.
  - intros d Hd. by rewrite lookup_insert_ne.
Qed.
Theorem C52_create_succeeds E w class uri : cut_prefix denom_prefix class = None →
  nw_addr_of w !! class = None →
  (fst (create_or_update E w class uri) = true ↔ nw_code w !! ne_create E (nw_nonce w) = None).
Proof.
  intros Hp Hn. unfold create_or_update. rewrite Hn. unfold create_col.
  destruct (nw_code w !! ne_create E (nw_nonce w)) eqn:Ec; cbn [mbind option_bind]; [done|].
  unfold class_contract. rewrite Hp. cbn [nw_addr_of]. by rewrite lookup_insert.
Qed.
(** On a class that exists only the URI changes, and it always succeeds. *)
Theorem C52_update E w class uri c : nreachable E w → nw_addr_of w !! class = Some c →
  create_or_update E w class uri =
    (true, NWorld (nw_code w) (nw_addr_of w) (nw_id_of w) (<[c := uri]> (nw_uris w)) (nw_nonce w) (nw_accts w) (nw_next w)).
Proof.
  intros Hr Hk. unfold create_or_update. rewrite Hk.
  destruct (C52_class_round_trip E w Hr) as [_ H]. destruct (H _ _ Hk) as [-> _]. done.
Qed.

(** ** Tokens *)

(** balanceOf counts the tokens owned. *)
Theorem C52_balance E w c x : nreachable E w → is_col w c x →
  (∀ a, nbal x a = owned x a mod 2 ^ 256) ∧ nbal x null_addr = 0.
Proof.
  intros HI Hc. destruct (ni_ok _ (NI_reachable _ _ HI) c x Hc) as (Ho & Hb & _). split; [exact Hb|].
  rewrite Hb. unfold owned. rewrite (proj2 (map_filter_empty_iff _ _)); [done|].
  intros id o H. simpl. by apply Ho in H.
Qed.

(** The accounts an operation reads and creates. *)
Definition same_but_code (w w' : nworld) (c : bytes) : Prop :=
  (∀ d, d ≠ c → nw_code w' !! d = nw_code w !! d) ∧
  nw_addr_of w' = nw_addr_of w ∧ nw_id_of w' = nw_id_of w ∧ nw_uris w' = nw_uris w.

(** Transfers through the chain to an account without code: every listed token was
    the sender's, every listed token is now the receiver's, nothing else moved. *)
Theorem C52_transfers E w a b class l w' c x : nreachable E w → sender_ok a →
  class_contract w class = Some c → is_col w c x → nw_code w !! bytes_to_address b = None →
  k_transfers E w a b class l = (true, w') →
  ∃ ids x', numbers E class l = Some ids ∧ is_col w' c x' ∧
    (∀ id, id ∈ ids → token_owner w c id = Some (bytes_to_address a)) ∧
    (bytes_to_address b ≠ bytes_to_address a → NoDup ids) ∧
    (∀ id, token_owner w' c id = if decide (id ∈ ids) then Some (bytes_to_address b) else token_owner w c id) ∧
    n_uri x' = n_uri x ∧ n_orig x' = n_orig x ∧ n_admin x' = n_admin x ∧ n_oper x' = n_oper x ∧
    same_but_code w w' c.
Proof.
  intros Hr [Hz Hs] Hcl Hc Hb. apply NI_reachable in Hr. pose proof (ni_ok _ Hr c x Hc) as Hok.
  unfold k_transfers. destruct (convert_to_evm _ _ a true) as [[[s m1] n1]|] eqn:E1; [|done].
  apply convert_addr in E1. subst s.
  destruct (convert_to_evm m1 n1 b false) as [[[r m2] n2]|] eqn:E2; [|done]. apply convert_addr in E2. subst r.
  change (class_contract (put_accts w m1 n1) class) with (class_contract w class). rewrite Hcl.
  intros Hl. apply (transfer_loop_ok _ _ _ _ _ _ Hz _ x) in Hl
    as (ids & x' & Hn & -> & Hall & _ & Hnd & Hown & F1 & F2 & F3 & F4); [|done..].
  exists ids, x'. unfold token_owner. unfold is_col in *. simpl. rewrite lookup_insert, Hc.
  repeat split; try done. intros d Hd. simpl. by rewrite lookup_insert_ne.
Qed.
Theorem C52_transfers_succeed E w a b class l c ids : sender_ok a → bytes_to_address b ≠ null_addr →
  class_contract w class = Some c → (∃ x, is_col w c x) → nw_code w !! bytes_to_address b = None →
  numbers E class l = Some ids → NoDup ids →
  (∀ id, id ∈ ids → token_owner w c id = Some (bytes_to_address a)) →
  length a = 20%nat → length b = 20%nat →
  fst (k_transfers E w a b class l) = true.
Proof.
  intros [Hz _] Hbz Hcl [x Hc] Hb Hn Hnd Hall La Lb. unfold k_transfers.
  assert (∀ m n y sg, length y = 20%nat → convert_to_evm m n y sg = Some (y, m, n)) as Hcv.
  { intros m n y sg Hy. unfold convert_to_evm. by rewrite Hy. }
  assert (∀ y, length y = 20%nat → bytes_to_address y = y) as Hid by (intros; by apply to_fixed_id).
  rewrite !Hcv by done. change (class_contract (put_accts w (nw_accts w) (nw_next w)) class) with (class_contract w class).
  rewrite Hcl. rewrite !Hid in * by done.
  apply (transfer_loop_can _ _ _ _ _ _ ids Hz Hbz Hn Hnd _ x); [done..|].
  intros id Hi. apply Hall in Hi. unfold token_owner in Hi. unfold is_col in Hc. by rewrite Hc in Hi.
Qed.
(** A collection contract as receiver: refused. *)
Theorem C52_transfers_to_collection E w a b class l w' c x y : nreachable E w → sender_ok a → l ≠ [] →
  class_contract w class = Some c → is_col w c x → is_col w (bytes_to_address b) y →
  k_transfers E w a b class l ≠ (true, w').
Proof.
  intros Hr [Hz Hs] Hl Hcl Hc Hb. unfold k_transfers.
  destruct (convert_to_evm _ _ a true) as [[[s m1] n1]|] eqn:E1; [|done].
  destruct (convert_to_evm m1 n1 b false) as [[[r m2] n2]|] eqn:E2; [|done]. apply convert_addr in E2. subst r.
  change (class_contract (put_accts w m1 n1) class) with (class_contract w class). rewrite Hcl.
  destruct l as [|t l]; [done|]. cbn [transfer_loop]. destruct (token_number E class t) as [id|]; [|done].
  set (w1 := put_accts _ m2 n2). assert (is_col w1 c x) as Hc1 by exact Hc.
  assert (is_col w1 (bytes_to_address b) y) as Hb1 by exact Hb. clearbody w1. clear Hc Hb. rename Hc1 into Hc, Hb1 into Hb.
  unfold safe_transfer, on_col, ncall. rewrite !Hc.
  destruct (nbody s (NTransferFrom s (bytes_to_address b) id) x) as [x'|]; [|done]. unfold receive. simpl.
  destruct (decide (c = bytes_to_address b)) as [<-|Hn].
  - by rewrite lookup_insert.
  - rewrite lookup_insert_ne by done. by rewrite Hb.
Qed.

(** Burns: every listed token existed, is listed once, and the sender was its owner or
    approved for it; exactly the listed tokens are gone. *)
Theorem C52_burns E w a class l w' c x : nreachable E w →
  class_contract w class = Some c → is_col w c x →
  k_burns E w a class l = (true, w') →
  ∃ ids x', numbers E class l = Some ids ∧ NoDup ids ∧ is_col w' c x' ∧
    (∀ id, id ∈ ids → ∃ o, token_owner w c id = Some o ∧ bytes_to_address a ≠ null_addr ∧
       (o = bytes_to_address a ∨ (o, bytes_to_address a) ∈ n_oper x ∨ n_appr x !! id = Some (bytes_to_address a))) ∧
    (∀ id, token_owner w' c id = if decide (id ∈ ids) then None else token_owner w c id) ∧
    n_uri x' = n_uri x ∧ n_orig x' = n_orig x ∧ n_admin x' = n_admin x ∧ n_oper x' = n_oper x ∧
    same_but_code w w' c.
Proof.
  intros Hr Hcl Hc. apply NI_reachable in Hr. pose proof (ni_ok _ Hr c x Hc) as Hok.
  unfold k_burns. rewrite Hcl. destruct (convert_to_evm _ _ a false) as [[[s m1] n1]|] eqn:E1; [|done].
  apply convert_addr in E1. subst s.
  intros Hl. apply (burn_loop_ok _ _ _ _ _ _ x) in Hl
    as (ids & x' & Hn & -> & Hnd & Hall & Hown & F1 & F2 & F3 & F4); [|done..].
  exists ids, x'. unfold token_owner. unfold is_col in *. simpl. rewrite lookup_insert, Hc.
  repeat split; try done.
  - intros id Hi. destruct (Hall id Hi) as (o & Ho & Ha). exists o. split; [done|].
    unfold authorized in Ha. apply andb_prop in Ha as [Hn0 Ha].
    destruct (bool_decide (bytes_to_address a = null_addr)) eqn:Ez; [done|]. apply bool_decide_eq_false in Ez.
    split; [done|]. apply orb_prop in Ha as [[Ha|Ha]%orb_prop|Ha]; apply bool_decide_eq_true in Ha; [by left|by right; left|].
    right; right. unfold appr_of in Ha. destruct (n_appr x !! id); simpl in Ha; congruence.
  - intros d Hd. simpl. by rewrite lookup_insert_ne.
Qed.
Theorem C52_burns_succeed E w a class l c ids : bytes_to_address a ≠ null_addr →
  class_contract w class = Some c → (∃ x, is_col w c x) →
  numbers E class l = Some ids → NoDup ids →
  (∀ id, id ∈ ids → token_owner w c id = Some (bytes_to_address a)) → length a = 20%nat →
  fst (k_burns E w a class l) = true.
Proof.
  intros Hz Hcl [x Hc] Hn Hnd Hall La. unfold k_burns. rewrite Hcl.
  assert (convert_to_evm (nw_accts w) (nw_next w) a false = Some (a, nw_accts w, nw_next w)) as ->.
  { unfold convert_to_evm. by rewrite La. }
  assert (bytes_to_address a = a) as Ea by (by apply to_fixed_id). rewrite Ea in *.
  apply (burn_loop_can _ _ _ _ _ ids Hn Hnd _ x); [done..|].
  intros id Hi. apply Hall in Hi. unfold token_owner in Hi. unfold is_col in Hc. rewrite Hc in Hi.
  exists a. split; [done|]. split; [done|]. unfold authorized.
  rewrite (bool_decide_eq_false_2 (a = null_addr)), (bool_decide_eq_true_2 (a = a)) by done. done.
Qed.

(** Mints: the chain must own the collection; no listed token existed; each is now the
    receiver's, with its URI and its original id; nothing else changed. *)
Theorem C52_mints E w b class l uris w' c x : nreachable E w → l ≠ [] →
  class_contract w class = Some c → is_col w c x → nw_code w !! bytes_to_address b = None →
  k_mints E w b class l uris = (true, w') →
  ∃ ids x', numbers E class l = Some ids ∧ NoDup ids ∧ is_col w' c x' ∧ n_admin x = chain_addr ∧
    (∀ id, id ∈ ids → token_owner w c id = None) ∧
    (∀ id, token_owner w' c id = if decide (id ∈ ids) then Some (bytes_to_address b) else token_owner w c id) ∧
    (∀ i id t, ids !! i = Some id → l !! i = Some t → n_uri x' !! id = uris !! i ∧ n_orig x' !! id = Some t) ∧
    (∀ id, id ∉ ids → n_uri x' !! id = n_uri x !! id ∧ n_orig x' !! id = n_orig x !! id) ∧
    n_admin x' = n_admin x ∧ n_oper x' = n_oper x ∧ same_but_code w w' c.
Proof.
  intros Hr Hne Hcl Hc Hb. apply NI_reachable in Hr. pose proof (ni_ok _ Hr c x Hc) as Hok.
  unfold k_mints. rewrite Hcl. destruct (convert_to_evm _ _ b false) as [[[s m1] n1]|] eqn:E1; [|done].
  apply convert_addr in E1. subst s.
  intros Hl. apply (mint_loop_ok _ _ _ _ _ _ _ x) in Hl
    as (ids & x' & Hn & -> & Hnd & Hlen & Had & Hall & Hown & Hset & Hkeep & F1 & F2); [|done..].
  assert (length ids = length l) as Hll.
  { unfold numbers in Hn. apply mapM_length in Hn. done. }
  exists ids, x'. unfold token_owner. unfold is_col in *. simpl. rewrite lookup_insert, Hc.
  split; [done|]. split; [done|]. split; [done|]. split.
  { apply Had. destruct ids; [|done]. destruct l; [done|]. simpl in Hll. lia. }
  split; [done|]. split; [done|]. split.
  { intros i id t Hi Ht. destruct (uris !! i) as [u|] eqn:Eu; [by eapply Hset|].
    apply lookup_ge_None in Eu. apply lookup_lt_Some in Ht. lia. }
  split; [done|]. split; [done|]. split; [done|].
  repeat split; try done. intros d Hd. simpl. by rewrite lookup_insert_ne.
Qed.
Theorem C52_mints_succeed E w b class l uris c x ids : bytes_to_address b ≠ null_addr →
  class_contract w class = Some c → is_col w c x → n_admin x = chain_addr → nw_code w !! bytes_to_address b = None →
  numbers E class l = Some ids → NoDup ids → (length l ≤ length uris)%nat →
  (∀ id, id ∈ ids → token_owner w c id = None) → length b = 20%nat →
  fst (k_mints E w b class l uris) = true.
Proof.
  intros Hz Hcl Hc Had Hb Hn Hnd Hlen Hall Lb. unfold k_mints. rewrite Hcl.
  assert (convert_to_evm (nw_accts w) (nw_next w) b false = Some (b, nw_accts w, nw_next w)) as ->.
  { unfold convert_to_evm. by rewrite Lb. }
  assert (bytes_to_address b = b) as Ea by (by apply to_fixed_id). rewrite Ea in *.
  apply (mint_loop_can _ _ _ _ _ ids Hz Hn Hnd _ _ x); [done..|].
  intros id Hi. apply Hall in Hi. unfold token_owner in Hi. unfold is_col in Hc. by rewrite Hc in Hi.
Qed.

(** ** Who can move a token *)

(** Only the owner of a token and the owner's operators can approve another account for it, and they
    always can; the approval is the token's only one, and nothing else changes hands. *)
Theorem C52_approve E w c x s to id : nreachable E w → s ≠ null_addr → is_col w c x →
  let '(ok, w') := ncall w c s (NApprove to id) in
  (ok = true ↔ ∃ o, token_owner w c id = Some o ∧ (o = s ∨ (o, s) ∈ n_oper x)) ∧
  (ok = false → w' = w) ∧
  (ok = true → ∃ x', is_col w' c x' ∧ n_appr x' !! id = Some to ∧
     (∀ i, i ≠ id → n_appr x' !! i = n_appr x !! i) ∧ n_oper x' = n_oper x ∧ n_admin x' = n_admin x) ∧
  ∀ d i, token_owner w' d i = token_owner w d i.
Proof.
  intros Hr Hs Hc. apply NI_reachable in Hr. pose proof (ni_ok _ Hr c x Hc) as (Hnn & _).
  unfold ncall. pose proof Hc as Hc'. unfold is_col in Hc'. rewrite Hc'. cbn [nbody]. unfold owner_of.
  assert (Et : token_owner w c id = n_owner x !! id) by (unfold token_owner; by rewrite Hc').
  destruct (n_owner x !! id) as [o|] eqn:Eo; cbn [default].
  2:{ rewrite bool_decide_eq_true_2 by done. split; [|done]. split; [done|]. rewrite Et. by intros (? & ? & _). }
  rewrite (bool_decide_eq_false_2 (o = null_addr)) by (by eapply Hnn).
  rewrite (bool_decide_eq_false_2 (s = null_addr)) by done. cbn [negb andb].
  destruct (decide (o = s ∨ (o, s) ∈ n_oper x)) as [Ha|Ha].
  - replace (negb (bool_decide (o = s)) && negb (bool_decide ((o, s) ∈ n_oper x))) with false.
    2:{ symmetry. destruct Ha as [Ha|Ha]; [by rewrite (bool_decide_eq_true_2 (o = s))|].
        rewrite (bool_decide_eq_true_2 ((o, s) ∈ _)) by done. by rewrite andb_false_r. }
    split; [split; [by exists o|done]|]. split; [done|]. split.
    + intros _. eexists. unfold is_col. cbn. rewrite !lookup_insert. split; [done|]. split; [cbn; by rewrite lookup_insert|].
      split; [|done]. intros i Hi. cbn. by rewrite lookup_insert_ne.
    + intros d i. unfold token_owner. cbn. destruct (decide (d = c)) as [->|Hd]; [by rewrite lookup_insert, Hc'|by rewrite lookup_insert_ne].
  - rewrite !bool_decide_eq_false_2 by tauto. cbn [negb andb]. split; [|done]. split; [done|]. rewrite Et. intros (? & [= <-] & ?). tauto.
Qed.
(** A direct call changes the owner of a token only when its sender is the owner or
    approved, and creates a token only when it is the owner of the collection. *)
Theorem C52_authority E w c s op ok w' d id : nreachable E w → s ≠ null_addr →
  ncall w c s op = (ok, w') → token_owner w' d id ≠ token_owner w d id →
  d = c ∧ ∃ x, is_col w c x ∧
    match token_owner w c id with
    | None => s = n_admin x ∧ ∃ to, op = NMint to id
    | Some o => o = s ∨ (o, s) ∈ n_oper x ∨ n_appr x !! id = Some s
    end.
Proof.
  intros Hr Hs Hcall Hch. apply NI_reachable in Hr.
  destruct (ncall_cases w c s op) as [(x & x' & Hc & Hb & E1)|E1]; rewrite Hcall in E1; [|simpl in E1; congruence].
  pose proof (ni_ok _ Hr c x Hc) as Hok. pose proof Hok as (Hnn & _ & Hap & Hop).
  injection E1 as -> ->. unfold token_owner in *. unfold is_col in *. simpl in *.
  destruct (decide (d = c)) as [->|Hn]; [|by rewrite lookup_insert_ne in Hch].
  rewrite lookup_insert in Hch. rewrite Hc in *. split; [done|]. exists x. split; [done|].
  assert (∀ to i auth prev, nft_update x to i auth = Some (prev, x') → i = id) as Hid.
  { intros to i auth prev (_ & _ & Ho & _)%update_spec. destruct (decide (i = id)) as [|Hne]; [done|]. exfalso.
    apply Hch. rewrite Ho. destruct (decide (to = null_addr)); [by rewrite lookup_delete_ne|by rewrite lookup_insert_ne]. }
  assert (authorized x (owner_of x id) s id = true →
          ∃ o, n_owner x !! id = Some o ∧ (o = s ∨ (o, s) ∈ n_oper x ∨ n_appr x !! id = Some s)) as Hau.
  { intros Ha. unfold authorized in Ha. apply andb_prop in Ha as [_ Ha].
    assert (n_appr x !! id = Some s → is_Some (n_owner x !! id)) as Hap' by (intros Hx; apply Hap; by rewrite Hx).
    unfold owner_of, appr_of in Ha. destruct (n_owner x !! id) as [o|]; simpl in Ha.
    - exists o. split; [done|].
      apply orb_prop in Ha as [[Ha|Ha]%orb_prop|Ha]; apply bool_decide_eq_true in Ha; [by left|by right; left|].
      right; right. destruct (n_appr x !! id); simpl in Ha; congruence.
    - exfalso. apply orb_prop in Ha as [[Ha|Ha]%orb_prop|Ha]; apply bool_decide_eq_true in Ha.
      + congruence.
      + by apply Hop in Ha.
      + destruct (n_appr x !! id) as [q|]; simpl in Ha; [|congruence]. subst q. by destruct (Hap' eq_refl). }
  destruct op as [to i|p b|from to i|to i|i uri orig|i|o]; cbn [nbody] in Hb.
  - destruct (bool_decide _); [done|]. destruct (_ && _ && _); [done|]. by injection Hb as <-.
  - destruct (bool_decide _); [done|]. by injection Hb as <-.
  - destruct (bool_decide (to = null_addr)); [done|].
    destruct (nft_update x to i s) as [[prev y]|] eqn:Eu; cbn [mbind option_bind] in Hb; [|done].
    destruct (bool_decide (prev = from)); [|done]. injection Hb as ->.
    pose proof (Hid _ _ _ _ Eu) as ->. apply update_spec in Eu as (-> & [?|Ha] & _); [done|].
    destruct (Hau Ha) as (o & -> & H). done.
  - destruct (bool_decide (s = n_admin x)) eqn:Es; cbn [negb] in Hb; [|done]. apply bool_decide_eq_true in Es.
    destruct (bool_decide (to = null_addr)); [done|].
    destruct (nft_update x to i null_addr) as [[prev y]|] eqn:Eu; cbn [mbind option_bind] in Hb; [|done].
    destruct (bool_decide (prev = null_addr)) eqn:Ep; [|done]. apply bool_decide_eq_true in Ep. injection Hb as ->.
    pose proof (Hid _ _ _ _ Eu) as ->. apply update_spec in Eu as (-> & _).
    rewrite (owner_of_none _ _ Hok Ep). split; [done|]. by exists to.
  - destruct (bool_decide (s = n_admin x)); cbn [negb] in Hb; [|done]. by injection Hb as <-.
  - destruct (bool_decide (owner_of x i = null_addr)); [done|].
    destruct (authorized x (owner_of x i) s i) eqn:Ea; cbn [negb] in Hb; [|done].
    destruct (nft_update x null_addr i null_addr) as [[prev y]|] eqn:Eu; cbn [mbind option_bind] in Hb; [|done].
    destruct (bool_decide (prev = null_addr)); [done|]. injection Hb as ->.
    pose proof (Hid _ _ _ _ Eu) as ->. destruct (Hau Ea) as (o & -> & H). done.
  - destruct (bool_decide (s = n_admin x) && _); [|done]. by injection Hb as <-.
Qed.

(** No one outside the chain adds a token to a recorded class. *)
Theorem C52_no_outside_mint E w w' k c id : nreachable E w → nw_addr_of w !! k = Some c →
  rtc next w w' → token_owner w c id = None → token_owner w' c id = None.
Proof.
  intros Hr Hk Hs. revert Hr Hk. induction Hs as [|w w1 w2 Hn _ IH]; intros Hr Hk; [done|].
  intros H0. apply IH.
  - destruct Hr as [HE (w0 & Hi & Hrun)]. split; [done|]. exists w0. split; [done|].
    eapply rtc_r; [exact Hrun|]. by apply ns_next.
  - clear IH Hr. destruct Hn as [w d s op Hs Hz|w d s Hd Hs|w d Hd|w d Hd|w m n]; try done.
    destruct (ncall_cases w d s op) as [(x & x' & _ & _ & ->)| ->]; done.
  - destruct (C52_classes E w Hr) as [_ Hcl]. destruct (Hcl _ _ Hk) as (x & Hx & Ha).
    destruct Hn as [w d s op Hs Hz|w d s Hd Hs|w d Hd|w d Hd|w m n].
    + destruct (decide (token_owner (snd (ncall w d s op)) c id = token_owner w c id)) as [->|Hne]; [done|].
      destruct (ncall w d s op) as [ok w'] eqn:Ec.
      destruct (C52_authority E w d s op ok w' c id Hr Hz Ec Hne) as (<- & y & Hy & Hau).
      rewrite H0 in Hau. destruct Hau as [Hau _]. unfold is_col in *. congruence.
    + unfold token_owner, is_col in *. simpl. rewrite lookup_insert_ne by congruence. by rewrite Hx in *.
    + unfold token_owner, is_col in *. simpl. rewrite lookup_insert_ne by congruence. by rewrite Hx in *.
    + unfold token_owner, is_col in *. simpl. rewrite lookup_delete_ne by congruence. by rewrite Hx in *.
    + done.
Qed.

(** ** Names of tokens *)

(** The decimal text of a number names that token; tokens of ibc classes are named by
    their hash, so that two names mean one token only when the hashes agree. *)
Theorem C52_token_names E class :
  (cut_prefix (txt "ibc/") class = None → ∀ n, n < 2 ^ 256 → token_number E class (dec_of n) = Some n) ∧
  (∀ h, cut_prefix (txt "ibc/") class = Some h → ∀ t t', (∀ y, ne_sha E y < 2 ^ 256) →
     token_number E class t = token_number E class t' → ne_sha E t = ne_sha E t').
Proof.
  unfold token_number. change ibc_prefix with (txt "ibc/"). split.
  - intros -> n Hn. assert (big_of (dec_of n) = Some (Z.of_N n)) as ->.
    { pose proof (dec_of_digits n) as Hd. pose proof (dec_parse_of n) as Hp.
      destruct (dec_of n) as [|ch t] eqn:Ed; [done|].
      apply Forall_cons in Hd as [Hc _]. unfold is_digit in Hc. apply andb_prop in Hc as [H1%N.leb_le H2%N.leb_le].
      assert (ch ≠ 45 ∧ ch ≠ 43) as [? ?] by lia.
      assert (big_of (ch :: t) = Z.of_N <$> dec_parse (ch :: t)) as ->; [|by rewrite Hp].
      unfold big_of. by repeat (case_match; try done). }
    cbn [mbind option_bind]. unfold pack256. f_equal. rewrite Z.mod_small; [lia|].
    change two256 with (Z.of_N (2 ^ 256)). lia.
  - intros h ->. intros t t' Hlt [= H]. unfold n256 in H. rewrite !N.mod_small in H by apply Hlt. done.
Qed.

(** ** A concrete history *)

Definition z_env : nenv :=
  NEnv (fun n => replicate 19 7 ++ [n mod 256]) (fun _ _ => false)
       (fun t => fold_left (fun acc c => (acc * 256 + c) mod n256) t 0)
       (fun w _ _ _ => (true, w)) (fun w _ _ => (w, false)).
Definition z_alice : bytes := replicate 20 10.
Definition z_bob : bytes := replicate 20 11.
Definition z_class : text := txt "ibc/AB".
Definition z_at : bytes := ne_create z_env 0.
Definition z0 : nworld := NWorld ∅ ∅ ∅ ∅ 0 ∅ 0.
Definition z1 : nworld := snd (create_or_update z_env z0 z_class (txt "u")).
Definition z2 : nworld := snd (k_mints z_env z1 z_alice z_class [txt "a"; txt "b"] [txt "ua"; txt "ub"]).
Definition z3 : nworld := snd (k_transfers z_env z2 z_alice z_bob z_class [txt "a"]).
(** alice lets bob handle her tokens *)
Definition z4 : nworld := snd (ncall z3 z_at z_alice (NSetAll z_bob true)).
Definition z5 : nworld := snd (k_burns z_env z4 z_bob z_class [txt "b"]).

Lemma z_env_ok : nenv_ok z_env.
Proof.
  split; [|split; intros; apply rtc_refl]. intros n. split; [done|]. unfold bytes_ok, z_env. simpl.
  repeat constructor. apply N.mod_lt. done.
Qed.
Lemma z_alice_ok : sender_ok z_alice. Proof. by vm_compute. Qed.
Lemma z_bob_ok : sender_ok z_bob. Proof. by vm_compute. Qed.
Lemma z_reach w : rtc (nstep z_env) z0 w → nreachable z_env w.
Proof.
  intros H. split; [apply z_env_ok|]. exists z0. split; [|done]. split; [|done]. intros c x. unfold is_col, z0. simpl.
  by rewrite lookup_empty.
Qed.
Lemma z1_r : rtc (nstep z_env) z0 z1.
Proof. apply rtc_once. apply ns_class. done. Qed.
Lemma z2_r : rtc (nstep z_env) z0 z2.
Proof. eapply rtc_r; [apply z1_r|]. apply ns_mints. Qed.
Lemma z3_r : rtc (nstep z_env) z0 z3.
Proof. eapply rtc_r; [apply z2_r|]. apply ns_transfers. apply z_alice_ok. Qed.
Lemma z4_r : rtc (nstep z_env) z0 z4.
Proof. eapply rtc_r; [apply z3_r|]. apply ns_next, nx_call; by vm_compute. Qed.
Lemma z5_r : rtc (nstep z_env) z0 z5.
Proof. eapply rtc_r; [apply z4_r|]. apply ns_burns. apply z_bob_ok. Qed.

Definition z_id (t : text) : N := ne_sha z_env t.
(** Every step of it succeeds; who owns what. *)
Example C52_example :
  nreachable z_env z5 ∧
  fst (create_or_update z_env z0 z_class (txt "u")) = true ∧
  fst (k_mints z_env z1 z_alice z_class [txt "a"; txt "b"] [txt "ua"; txt "ub"]) = true ∧
  fst (k_transfers z_env z2 z_alice z_bob z_class [txt "a"]) = true ∧
  fst (k_burns z_env z4 z_bob z_class [txt "b"]) = true ∧
  class_contract z5 z_class = Some z_at ∧ contract_class z_env z5 z_at = z_class ∧
  token_owner z2 z_at (z_id (txt "a")) = Some z_alice ∧ token_owner z3 z_at (z_id (txt "a")) = Some z_bob ∧
  token_owner z4 z_at (z_id (txt "b")) = Some z_alice ∧ token_owner z5 z_at (z_id (txt "b")) = None ∧
  nw_code z2 !! z_bob = None.
Proof. split; [apply z_reach, z5_r|]. by vm_compute. Qed.
(** and what is refused: bob's transfer of alice's token, a second mint *)
Example C52_example_refused :
  fst (k_transfers z_env z2 z_bob z_alice z_class [txt "a"]) = false ∧
  fst (k_burns z_env z2 z_bob z_class [txt "a"]) = false ∧
  fst (k_mints z_env z2 z_bob z_class [txt "c"; txt "a"] [txt "uc"; txt "ua"]) = false ∧
  fst (k_mints z_env z2 z_bob z_class [txt "c"] []) = false.
Proof. by vm_compute. Qed.

(** ** What does not hold *)

(** One to one fails: any contract also answers to evm/ and its address, in any letter
    case and with 0x in front, whether it has a recorded class or not. *)
Definition z_alias : text := denom_prefix ++ hex_enc lower z_at.
Definition z_alias0x : text := denom_prefix ++ txt "0x" ++ hex_enc lower z_at.
Theorem C78_class_alias_refuted : ∃ E w c k1 k2 k3, nreachable E w ∧ NoDup [k1; k2; k3] ∧
  nw_addr_of w !! k1 = Some c ∧ class_contract w k1 = Some c ∧ class_contract w k2 = Some c ∧ class_contract w k3 = Some c.
Proof.
  exists z_env, z2, z_at, z_class, z_alias, z_alias0x. split; [apply z_reach, z2_r|].
  split; [|by vm_compute]. repeat constructor; rewrite ?elem_of_cons, ?elem_of_nil; by vm_compute; intuition.
Qed.

(** The token of an ibc class then has two numbers under the two names, so that the
    token known under one class id is unknown under the other. *)
Theorem C78_alias_token_refuted : ∃ E w c k1 k2 t n1 n2, nreachable E w ∧
  class_contract w k1 = Some c ∧ class_contract w k2 = Some c ∧
  token_number E k1 t = Some n1 ∧ token_number E k2 t = Some n2 ∧
  token_owner w c n1 ≠ None ∧ token_owner w c n2 = None.
Proof.
  exists z_env, (snd (k_mints z_env z1 z_alice z_class [txt "12"] [txt "u"])), z_at, z_class, z_alias, (txt "12"),
    (z_id (txt "12")), 12.
  split; [|by vm_compute]. apply z_reach. eapply rtc_r; [apply z1_r|]. apply ns_mints.
Qed.

(** Numbers have many names: a sign, zeroes in front, and negative numbers count from
    the top. *)
Theorem C78_token_alias_refuted E :
  token_number E (txt "evm/x") (txt "1") = Some 1 ∧ token_number E (txt "evm/x") (txt "+1") = Some 1 ∧
  token_number E (txt "evm/x") (txt "001") = Some 1 ∧
  token_number E (txt "evm/x") (txt "-1") = token_number E (txt "evm/x") (dec_of (2 ^ 256 - 1)).
Proof. by vm_compute. Qed.

(** Creating a class whose id is evm/ and an address deploys one contract, records it
    under that id, and works on the other. *)
Definition z_evm_class : text := denom_prefix ++ hex_enc lower z_bob.
Definition z_bad : nworld := snd (create_or_update z_env z2 z_evm_class (txt "v")).
Theorem C78_evm_class_refuted : ∃ E w class uri w' c d, nreachable E w ∧ create_or_update E w class uri = (true, w') ∧
  c ≠ d ∧ nw_addr_of w' !! class = Some c ∧ contract_class E w' c = class ∧
  class_contract w' class = Some d ∧ nw_uris w' !! d = Some uri ∧ nw_uris w' !! c = None.
Proof.
  exists z_env, z2, z_evm_class, (txt "v"), z_bad, (ne_create z_env 1), z_bob.
  split; [apply z_reach, z2_r|]. split.
  { unfold z_bad. rewrite (surjective_pairing (create_or_update z_env z2 z_evm_class (txt "v"))) at 1.
    f_equal. }
  by vm_compute.
Qed.

(** On an evm/ class id without code, transfers, burns and mints of any tokens report
    success and do nothing. *)
Theorem C78_no_code_refuted E w a b c l uris : length a = 20%nat → length b = 20%nat → addr_ok c →
  nw_code w !! c = None → is_Some (numbers E (denom_prefix ++ hex_enc lower c) l) → (length l ≤ length uris)%nat →
  let class := denom_prefix ++ hex_enc lower c in
  k_transfers E w a b class l = (true, w) ∧ k_burns E w a class l = (true, w) ∧
  k_mints E w b class l uris = (true, w).
Proof.
  intros La Lb [Lc Bc] Hc [ids Hn] Hlen. cbv zeta. set (class := denom_prefix ++ hex_enc lower c) in *.
  assert (∀ v, class_contract v class = Some c) as Hcl.
  { intros v. unfold class_contract, class. rewrite cut_prefix_app, is_hex_address_plain, hex_to_address_plain by done. done. }
  assert (∀ v m n y sg, length y = 20%nat → convert_to_evm m n y sg = Some (y, m, n) ∧ put_accts v (nw_accts v) (nw_next v) = v) as Hcv.
  { intros v m n y sg Hy. unfold convert_to_evm. rewrite Hy. split; [done|]. by destruct v. }
  clearbody class. unfold k_transfers, k_burns, k_mints.
  rewrite !Hcl. rewrite (proj1 (Hcv w (nw_accts w) (nw_next w) a true La)), (proj1 (Hcv w (nw_accts w) (nw_next w) a false La)),
    (proj1 (Hcv w (nw_accts w) (nw_next w) b false Lb)), (proj2 (Hcv w ∅ 0 a true La)).
  rewrite Hcl, (proj2 (Hcv w ∅ 0 a true La)).
  revert ids uris Hn Hlen. induction l as [|t l IH]; intros ids uris Hn Hlen; [done|].
  unfold numbers in Hn. simpl in Hn.
  cbn [transfer_loop nburn_loop nmint_loop]. destruct (token_number E class t) as [id|]; cbn in Hn; [|done].
  destruct (mapM (token_number E class) l) as [ids'|] eqn:El; cbn in Hn; [|done].
  destruct uris as [|u uris]; cbn in Hlen; [lia|].
  unfold safe_transfer, do_burn, safe_mint, on_col. rewrite !Hc.
  apply (IH ids' uris); [done|lia].
Qed.

(** "Refused for tokens the sender does not own": an approved account burns another's
    token. *)
Theorem C78_burn_others_refuted : ∃ E w a class t c n o, nreachable E w ∧ class_contract w class = Some c ∧
  token_number E class t = Some n ∧ token_owner w c n = Some o ∧ o ≠ bytes_to_address a ∧
  fst (k_burns E w a class [t]) = true ∧ token_owner (snd (k_burns E w a class [t])) c n = None.
Proof.
  exists z_env, z4, z_bob, z_class, (txt "b"), z_at, (z_id (txt "b")), z_alice.
  split; [apply z_reach, z4_r|]. by vm_compute.
Qed.

(** A burnt token keeps its URI and its original id. *)
Theorem C78_uri_survives_burn_refuted : ∃ E w c n x, nreachable E w ∧ is_col w c x ∧ n_owner x !! n = None ∧
  n_uri x !! n = Some (txt "ub") ∧ n_orig x !! n = Some (txt "b").
Proof.
  exists z_env, z5, z_at, (z_id (txt "b")).
  destruct (nw_code z5 !! z_at) as [[x|]|] eqn:Ec; [|by vm_compute in Ec..].
  exists x. split; [apply z_reach, z5_r|]. split; [exact Ec|].
  assert ((match nw_code z5 !! z_at with
           | Some (NCol y) => bool_decide (n_owner y !! z_id (txt "b") = None ∧ n_uri y !! z_id (txt "b") = Some (txt "ub") ∧ n_orig y !! z_id (txt "b") = Some (txt "b"))
           | _ => false end) = true) as H by by vm_compute.
  rewrite Ec in H. by apply bool_decide_eq_true in H.
Qed.
