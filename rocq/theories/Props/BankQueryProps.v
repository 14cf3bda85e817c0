(** C104, C105: the query server of the bank module. *)
From Verif.Base Require Import Prelude Hex.
From Verif.Model Require Import CacheStore Token Bank BankQuery.
From Verif.Spec Require Import TokenSpec BankSpec.
From Verif.Proofs Require Import TokenP BankP TokenMore BankMore.
From Verif.Props Require Import TokenProps IndexerProps.
From stdpp Require Import sorting.
Open Scope Z_scope.

(** What a client gathers that asks for a first page and then for the page at the key each answer
    names, until an answer names none. *)
Inductive gathers {A} (ask : page_req → option (page_res A)) (limit : N) (rev : bool) : bytes → list A → Prop :=
| g_last key p : ask (PageReq key 0 limit false rev) = Some p → ps_next p = None → gathers ask limit rev key (ps_items p)
| g_more key p k l : ask (PageReq key 0 limit false rev) = Some p → ps_next p = Some k → gathers ask limit rev k l →
    gathers ask limit rev key (ps_items p ++ l).

(** ** Pages *)
Global Instance key_order_total rev : Total (key_order rev).
Proof. intros x y. unfold key_order. destruct rev; destruct (bytes_leb_total x y) as [H|H]; rewrite H; cbn; tauto. Qed.
Global Instance key_order_trans rev : Transitive (key_order rev).
Proof. intros x y z. unfold key_order. destruct rev; rewrite !Is_true_true; intros; eapply bytes_leb_trans; eauto. Qed.
Lemma key_order_refl rev x : key_order rev x x.
Proof. destruct (key_order_total rev x x); done. Qed.
Lemma key_order_antisym rev x y : key_order rev x y → key_order rev y x → x = y.
Proof. unfold key_order. destruct rev; rewrite !Is_true_true; intros; apply bytes_leb_antisym; done. Qed.

Lemma sorted_from rev (l : list bytes) i k : StronglySorted (key_order rev) l → NoDup l → l !! i = Some k →
  filter (key_order rev k) l = drop i l.
Proof.
  revert i. induction l as [|x l IH]; intros i Hs Hn Hi; [done|].
  apply NoDup_cons in Hn as [Hx Hn]. inversion Hs as [|? ? Hs' Hall]; subst. destruct i as [|i]; cbn in Hi.
  - injection Hi as ->. rewrite drop_0, filter_cons_True by apply key_order_refl. f_equal.
    clear -Hall. induction Hall as [|y l Hy Hall IH]; [done|]. rewrite filter_cons_True by done. f_equal. done.
  - assert (Hk : k ∈ l) by (eapply elem_of_list_lookup_2; done).
    rewrite filter_cons_False; [cbn [drop]; apply IH; done|]. intros Hkx. apply Hx.
    assert (key_order rev x k) by (rewrite Forall_forall in Hall; apply Hall; done).
    rewrite (key_order_antisym rev x k) by done. done.
Qed.
Lemma limit_pos r : (0 < limit_of r)%nat.
Proof. unfold limit_of. destruct (N.eqb_spec (pr_limit r) 0); lia. Qed.

Lemma page_at {A} ks (f : bytes → A) limit rev i key : NoDup ks → [] ∉ ks →
  let l := merge_sort (key_order rev) ks in
  (i = 0%nat ∧ key = []) ∨ l !! i = Some key →
  let n := limit_of (PageReq key 0 limit false rev) in
  ∃ t, paginate ks f (PageReq key 0 limit false rev) = Some (PageRes (map f (take n (drop i l))) (l !! (i + n)%nat) t).
Proof.
  intros Hn He l Hk n. unfold paginate. cbn [pr_reverse pr_key pr_offset]. change (N.to_nat 0) with 0%nat.
  fold l. change (limit_of (PageReq key 0 limit false rev)) with n.
  assert (Hperm : l ≡ₚ ks) by apply merge_sort_Permutation.
  destruct Hk as [[-> ->]|Hk].
  - destruct (Nat.ltb_spec (length l) 0); [lia|]. rewrite drop_0. eexists. done.
  - destruct key as [|x key].
    { exfalso. apply He. rewrite <- Hperm. eapply elem_of_list_lookup_2. done. }
    cbn [N.ltb N.compare]. rewrite (sorted_from rev l i (x :: key)); [|apply (StronglySorted_merge_sort _ _)|rewrite Hperm; done|done].
    rewrite lookup_drop. eexists. done.
Qed.

(** Following the keys of the answers lists every entry exactly once, in key order, whatever the
    limit and the direction, and comes to an end. *)
Theorem C104_pages {A} ks (f : bytes → A) limit rev l : NoDup ks → [] ∉ ks →
  gathers (paginate ks f) limit rev [] l ↔ ∃ L, L ≡ₚ ks ∧ StronglySorted (key_order rev) L ∧ l = map f L.
Proof.
  intros Hn He. set (S := merge_sort (key_order rev) ks).
  assert (HS : S ≡ₚ ks) by apply merge_sort_Permutation.
  assert (HSs : StronglySorted (key_order rev) S) by apply (StronglySorted_merge_sort _ _).
  assert (Huniq : ∀ L, L ≡ₚ ks → StronglySorted (key_order rev) L → L = S).
  { intros L HL HLs. assert (Hls : L ≡ₚ S) by (rewrite HL, HS; done).
    clearbody S. clear HL HS. revert S HSs Hls. induction L as [|x L IH]; intros S HSs Hls.
    - apply Permutation_nil in Hls. done.
    - destruct S as [|y S]; [symmetry in Hls; apply Permutation_nil in Hls; done|].
      inversion HLs as [|? ? HL' HLa]; inversion HSs as [|? ? HS' HSa]; subst. rewrite Forall_forall in HLa, HSa.
      assert (x = y) as ->.
      { assert (Hx : x ∈ y :: S) by (rewrite <- Hls; left). assert (Hy : y ∈ x :: L) by (rewrite Hls; left).
        apply elem_of_cons in Hx as [->|Hx]; [done|]. apply elem_of_cons in Hy as [->|Hy]; [done|].
        apply (key_order_antisym rev); auto. }
      f_equal. apply IH; [done|done|]. apply Permutation_cons_inv in Hls. done. }
  assert (Hex : ∀ m i key, (length S - i <= m)%nat → ((i = 0%nat ∧ key = []) ∨ S !! i = Some key) →
    gathers (paginate ks f) limit rev key (map f (drop i S))).
  { induction m as [m IH] using lt_wf_ind. intros i key Hm Hk.
    destruct (page_at ks f limit rev i key Hn He Hk) as (t & Hp). fold S in Hp.
    pose proof (limit_pos (PageReq key 0 limit false rev)) as Hpos.
    set (n := limit_of _) in *. destruct (S !! (i + n)%nat) as [k|] eqn:Ek.
    - rewrite <- (take_drop n (drop i S)), drop_drop, map_app.
      refine (g_more _ _ _ _ _ k _ Hp eq_refl _). pose proof (lookup_lt_Some _ _ _ Ek). eapply (IH (length S - (i + n))%nat); [lia|lia|right; done].
    - apply lookup_ge_None in Ek. rewrite (take_ge (drop i S)) in Hp by (rewrite drop_length; lia).
      exact (g_last _ _ _ _ _ Hp eq_refl). }
  assert (Hdet : ∀ key l1, gathers (paginate ks f) limit rev key l1 → ∀ l2, gathers (paginate ks f) limit rev key l2 → l1 = l2).
  { intros key l1 H1. induction H1 as [key p Hp Hnx|key p k l1 Hp Hnx H1 IH]; intros l2 H2; inversion H2 as [? p2 Hp2 Hnx2|? p2 k2 l2' Hp2 Hnx2 H2']; subst.
    - congruence.
    - congruence.
    - congruence.
    - assert (p2 = p) as -> by congruence. assert (k2 = k) as -> by congruence. f_equal. apply IH. done. }
  pose proof (Hex _ 0%nat [] (Nat.le_refl _) (or_introl (conj eq_refl eq_refl))) as H0. rewrite drop_0 in H0. split.
  - intros H. exists S. split; [done|]. split; [done|]. apply (Hdet _ _ H _ H0).
  - intros (L & HL & HLs & ->). rewrite (Huniq L HL HLs). done.
Qed.

(** Asking by offset gives the same pages, and asking for the total (or for no limit) gives the
    number of entries; a key together with an offset is refused. *)
Theorem C104_offsets {A} ks (f : bytes → A) limit total rev offset : NoDup ks → [] ∉ ks → (N.to_nat offset <= length ks)%nat →
  ∃ L p, L ≡ₚ ks ∧ StronglySorted (key_order rev) L ∧
    paginate ks f (PageReq [] offset limit total rev) = Some p ∧
    ps_items p = map f (take (if (limit =? 0)%N then 100 else N.to_nat limit) (drop (N.to_nat offset) L)) ∧
    ps_next p = L !! (N.to_nat offset + (if (limit =? 0)%N then 100 else N.to_nat limit))%nat ∧
    ps_total p = (if (limit =? 0)%N || total then N.of_nat (length ks) else 0%N) ∧
    ∀ key, L !! N.to_nat offset = Some key →
      paginate ks f (PageReq key 0 limit total rev) = Some (PageRes (ps_items p) (ps_next p) 0%N) ∧
      ((0 < offset)%N → paginate ks f (PageReq key offset limit total rev) = None).
Proof.
  intros Hn He Ho. set (S := merge_sort (key_order rev) ks).
  assert (HS : S ≡ₚ ks) by apply merge_sort_Permutation.
  assert (HSs : StronglySorted (key_order rev) S) by apply (StronglySorted_merge_sort _ _).
  exists S. unfold paginate, limit_of, wants_total. cbn [pr_reverse pr_key pr_offset pr_limit pr_total]. fold S.
  rewrite (Permutation_length HS). destruct (Nat.ltb_spec (length ks) (N.to_nat offset)) as [|_]; [lia|].
  eexists. split; [done|]. split; [done|]. split; [reflexivity|]. cbn [ps_items ps_next ps_total].
  split; [done|]. split; [apply lookup_drop|]. split; [done|].
  intros key Hk. destruct key as [|x key].
  { exfalso. apply He. rewrite <- HS. eapply elem_of_list_lookup_2. done. }
  rewrite (sorted_from rev S (N.to_nat offset) (x :: key)); [|done|rewrite HS; done|done].
  split; [done|]. intros Hpos. destruct (N.ltb_spec 0 offset); [done|lia].
Qed.

(** ** Balances and supplies *)
Lemma denom_order_perm l : sort_coins l ≡ₚ l.
Proof. apply merge_sort_Permutation. Qed.
Definition sorted_page (p : page_res coin) : page_res coin := PageRes (sort_coins (ps_items p)) (ps_next p) (ps_total p).
Lemma gathers_sorted ask ask' limit rev : (∀ r, ask' r = option_map sorted_page (ask r)) →
  (∀ key l, gathers ask' limit rev key l → ∃ l', gathers ask limit rev key l' ∧ l ≡ₚ l') ∧
  (∀ key l', gathers ask limit rev key l' → ∃ l, gathers ask' limit rev key l).
Proof.
  intros Ha. split.
  - intros key l H. induction H as [key p Hp Hn|key p k l Hp Hn _ (l' & Hl' & IH)].
    + rewrite Ha in Hp. destruct (ask _) as [q|] eqn:E; cbn in Hp; [|done]. injection Hp as <-.
      exists (ps_items q). split; [exact (g_last _ _ _ _ _ E Hn)|apply denom_order_perm].
    + rewrite Ha in Hp. destruct (ask _) as [q|] eqn:E; cbn in Hp; [|done]. injection Hp as <-.
      exists (ps_items q ++ l'). split; [exact (g_more _ _ _ _ _ k _ E Hn Hl')|]. cbn [ps_items sorted_page]. rewrite denom_order_perm, IH. done.
  - intros key l' H. induction H as [key p Hp Hn|key p k l' Hp Hn _ (l & Hl)].
    + eexists. refine (g_last _ _ _ _ (sorted_page p) _ Hn). rewrite Ha, Hp. done.
    + eexists. refine (g_more _ _ _ _ (sorted_page p) k _ _ Hn Hl). rewrite Ha, Hp. done.
Qed.
Lemma gathers_ext {A} (ask ask' : page_req → option (page_res A)) limit rev key l :
  (∀ r, ask r = ask' r) → gathers ask limit rev key l → gathers ask' limit rev key l.
Proof.
  intros He H. induction H as [key p Hp Hn|key p k l Hp Hn _ IH]; rewrite He in Hp; [apply g_last; done|eapply g_more; done].
Qed.

Section world.
Variable E : env.
Variable ck : bytes → nat → bool.
Variable decode : text → option bytes.
Variable valid_denom : text → bool.
Notation all_balances := (q_all_balances ck decode).
Notation balance := (q_balance decode).

Lemma held_elem w a c : c ∈ held w a ↔ (a, c) ∈ w_stores w.
Proof.
  unfold held. rewrite elem_of_list_fmap. split.
  - intros ([x y] & -> & H). apply elem_of_list_filter in H as [Hx H]. cbn in *. subst. apply elem_of_elements. done.
  - intros H. exists (a, c). split; [done|]. apply elem_of_list_filter. split; [done|]. apply elem_of_elements. done.
Qed.
Lemma held_nodup w a : NoDup (held w a).
Proof.
  unfold held. apply NoDup_fmap_2_strong; [|apply NoDup_filter, NoDup_elements].
  intros [x y] [x' y'] H H'. apply elem_of_list_filter in H as [Hx _], H' as [Hx' _]. cbn in *. congruence.
Qed.
Lemma not_nil_addr (c : bytes) : addr_ok c → c <> [].
Proof. intros [Hl _] ->. done. Qed.

(** Gathering all pages of an account's balances ends and gives every nonzero balance of a
    registered token, no denomination twice, and each coin is the answer of the Balance query for
    its denomination, or 0 for a contract that does not answer balanceOf. *)
Theorem C104_all_balances w addr o a m n limit rev :
  reachable E w → addr <> [] → decode addr = Some o → convert_to_evm (w_accts w) (w_nextnum w) o false = Some (a, m, n) →
  (∃ l, gathers (all_balances w addr) limit rev [] l) ∧
  ∀ l, gathers (all_balances w addr) limit rev [] l →
    (∀ c t, is_token w c t → c ∈ w_reg w → bal t a ≠ 0 → Coin (contract_to_denom ck w c) (bal t a) ∈ l) ∧
    NoDup (c_denom <$> l) ∧
    ∀ x, x ∈ l → ∃ c, c ∈ w_reg w ∧ c_denom x = contract_to_denom ck w c ∧
      (c_denom x <> [] → balance w addr (c_denom x) = Some x ∨ c_amt x = 0 ∧ balance_of w c a = None ∧ balance w addr (c_denom x) = None).
Proof.
  intros Hr Hne Hd Hcv. pose proof (inv_reachable E w Hr) as Hi.
  assert (Hask : ∀ r, all_balances w addr r = option_map sorted_page (paginate (held w a) (coin_of ck w a) r)).
  { intros r. unfold q_all_balances, paginated_balances. destruct addr as [|x0 addr0]; [done|]. rewrite Hd. cbn [mbind option_bind]. rewrite Hcv.
    destruct (paginate _ _ r); done. }
  assert (Hok : ∀ c, c ∈ held w a → c ∈ w_reg w ∧ addr_ok c).
  { intros c Hc. apply held_elem in Hc. assert (c ∈ w_reg w) by (eapply (iv_stores E w Hi); done). split; [done|]. apply (iv_addr E w Hi). done. }
  assert (Hnil : [] ∉ held w a) by (intros Hc; destruct (Hok [] Hc) as [_ H]; exact (not_nil_addr [] H eq_refl)).
  destruct (gathers_sorted _ _ limit rev Hask) as [G1 G2]. split.
  - destruct (G2 [] (map (coin_of ck w a) (merge_sort (key_order rev) (held w a)))) as [l Hl]; [|eauto].
    apply C104_pages; [apply held_nodup|done|]. exists (merge_sort (key_order rev) (held w a)). split; [apply merge_sort_Permutation|]. split; [apply (StronglySorted_merge_sort _ _)|done].
  - intros l Hl. destruct (G1 _ _ Hl) as (l' & Hl' & Hp).
    apply C104_pages in Hl' as (L & HL & _ & ->); [|apply held_nodup|done].
    assert (HpL : l ≡ₚ map (coin_of ck w a) (held w a)) by (rewrite Hp, HL; done).
    split; [|split].
    + intros c t Ht Hc Hb. rewrite HpL. apply elem_of_list_fmap. exists c. split.
      * unfold coin_of, balance_of. unfold is_token in Ht. rewrite Ht. done.
      * apply held_elem. eapply (iv_list E w Hi); done.
    + rewrite HpL, <- list_fmap_compose. apply NoDup_fmap_2_strong; [|apply held_nodup].
      intros c1 c2 H1 H2 He. cbn in He. eapply (contract_denom_inj E ck w); [done|apply Hok; done|apply Hok; done|done].
    + intros x Hx. rewrite HpL in Hx. apply elem_of_list_fmap in Hx as (c & -> & Hc). destruct (Hok c Hc) as [Hreg Hca].
      exists c. split; [done|]. split; [done|]. cbn [c_denom c_amt coin_of].
      intros Hnd.
      assert (Hb : balance w addr (contract_to_denom ck w c) = z ← balance_of w c a; Some (Coin (contract_to_denom ck w c) z)).
      { unfold q_balance. destruct addr as [|x0 addr0]; [done|].
        pose proof (contract_denom_resolves E ck w c Hi Hca) as Hres.
        destruct (contract_to_denom ck w c) as [|y d] eqn:Ed.
        - done.
        - rewrite Hd. cbn [mbind option_bind]. unfold k_balance. rewrite Hcv, Hres. done. }
      rewrite Hb. unfold coin_of. destruct (balance_of w c a); [left|right]; done.
Qed.
(** Gathering all pages of the supplies (in ascending order) ends and gives every registered token
    exactly once, with the answer of the SupplyOf query for its denomination, or 0 for a
    contract that does not answer. *)
Theorem C104_total_supply w limit : reachable E w →
  (∃ l, gathers (q_total_supply ck w) limit false [] l) ∧
  ∀ l, gathers (q_total_supply ck w) limit false [] l →
    (c_denom <$> l) ≡ₚ (contract_to_denom ck w <$> elements (w_reg w)) ∧ NoDup (c_denom <$> l) ∧
    (∀ c t, is_token w c t → c ∈ w_reg w → Coin (contract_to_denom ck w c) (t_supply t) ∈ l) ∧
    ∀ x, x ∈ l → c_denom x <> [] → q_supply_of w (c_denom x) = Some x ∨ c_amt x = 0 ∧ q_supply_of w (c_denom x) = None.
Proof.
  intros Hr. pose proof (inv_reachable E w Hr) as Hi.
  assert (Hask : ∀ r, q_total_supply ck w r = option_map sorted_page (paginate (elements (w_reg w)) (supply_coin ck w) r)).
  { intros r. unfold q_total_supply. destruct (paginate _ _ r); done. }
  assert (Hok : ∀ c, c ∈ elements (w_reg w) → addr_ok c) by (intros c Hc; apply (iv_addr E w Hi), elem_of_elements; done).
  assert (Hnil : [] ∉ elements (w_reg w)) by (intros Hc; exact (not_nil_addr [] (Hok [] Hc) eq_refl)).
  pose proof (NoDup_elements (w_reg w)) as Hnd.
  destruct (gathers_sorted _ _ limit false Hask) as [G1 G2]. split.
  - destruct (G2 [] (map (supply_coin ck w) (merge_sort (key_order false) (elements (w_reg w))))) as [l Hl]; [|eauto].
    apply C104_pages; [done|done|]. exists (merge_sort (key_order false) (elements (w_reg w))).
    split; [apply merge_sort_Permutation|]. split; [apply (StronglySorted_merge_sort _ _)|done].
  - intros l Hl. destruct (G1 _ _ Hl) as (l' & Hl' & Hp).
    apply C104_pages in Hl' as (L & HL & _ & ->); [|done|done].
    assert (HpL : l ≡ₚ map (supply_coin ck w) (elements (w_reg w))) by (rewrite Hp, HL; done).
    assert (Hden : (c_denom <$> l) ≡ₚ (contract_to_denom ck w <$> elements (w_reg w))) by (rewrite HpL, <- list_fmap_compose; done).
    split; [done|]. split; [|split].
    + rewrite Hden. apply NoDup_fmap_2_strong; [|done]. intros c1 c2 H1 H2 He. eapply (contract_denom_inj E ck w); auto.
    + intros c t Ht Hc. rewrite HpL. apply elem_of_list_fmap. exists c. split; [|apply elem_of_elements; done].
      unfold supply_coin. unfold is_token in Ht. rewrite Ht. done.
    + intros x Hx Hne. rewrite HpL in Hx. apply elem_of_list_fmap in Hx as (c & -> & Hc). cbn [c_denom supply_coin] in *.
      pose proof (contract_denom_resolves E ck w c Hi (Hok c Hc)) as Hres. unfold q_supply_of.
      destruct (contract_to_denom ck w c) as [|y d] eqn:Ed; [done|]. unfold k_supply. rewrite Hres. unfold supply_coin. rewrite Ed.
      destruct (w_code w !! c) as [[t|]|]; [left|right|right]; done.
Qed.
(** Spendable balances are the balances: nothing is ever locked. *)
Theorem C104_spendable w addr d r :
  (addr <> [] → q_spendable_balances ck decode w addr r = all_balances w addr r) ∧
  (addr <> [] → d <> [] → valid_denom d = true → q_spendable_by_denom decode valid_denom w addr d = balance w addr d).
Proof.
  split.
  - intros Ha. unfold q_spendable_balances, q_all_balances. destruct addr; done.
  - intros Ha Hd Hv. unfold q_spendable_by_denom, q_balance. destruct addr as [|x0 addr0]; [done|]. destruct d as [|y d0]; [done|].
    destruct (decode _) as [o|]; cbn [mbind option_bind]; [|done]. rewrite Hv.
    destruct (k_balance w o _) as [z|]; cbn [mbind option_bind]; [|done]. rewrite Z.sub_0_r. done.
Qed.
Section metadata.
Variable describe : world → bytes → option (text * text * N).
(** Only the authority stores metadata; then both metadata queries answer it, and no other
    denomination is affected. *)
Theorem C104_set_metadata authority valid md w from m md' : valid_denom (dm_base m) = true →
  set_metadata authority valid md from m = Some md' →
  from = authority ∧ q_metadata valid_denom describe md' w (dm_base m) = Some m ∧ q_metadata_by_string valid_denom md' (dm_base m) = Some m ∧
  ∀ d, d <> dm_base m → q_metadata valid_denom describe md' w d = q_metadata valid_denom describe md w d.
Proof.
  intros Hv H. unfold set_metadata in H. case_bool_decide; [|done]. cbn in H. destruct (valid m); [|done]. injection H as <-.
  split; [done|]. unfold q_metadata, q_metadata_by_string. rewrite Hv, lookup_insert. split; [done|]. split; [done|].
  intros d Hd. rewrite lookup_insert_ne by done. done.
Qed.
(** What DenomMetadata answers without stored metadata: name and symbol of the contract, the
    denomination as base, and one unit unless the token has no decimals and the denomination
    starts with u or m. *)
Theorem C104_token_metadata md w d c name symbol decimals : valid_denom d = true → md !! d = None →
  denom_to_contract w d = Some c → describe w c = Some (name, symbol, decimals) →
  ∃ m, q_metadata valid_denom describe md w d = Some m ∧ dm_name m = name ∧ dm_symbol m = symbol ∧ dm_base m = d ∧
    (dm_display m = d ∧ dm_units m = [(d, 0%N)] ∧ (decimals = 0%N → slash ∈ d ∨ d !! 0%nat <> Some letter_u ∧ d !! 0%nat <> Some letter_m) ∨
     decimals = 0%N ∧ slash ∉ d ∧ (d = letter_u :: dm_display m ∧ dm_units m = [(d, 0%N); (dm_display m, 6%N)] ∨
                       d = letter_m :: dm_display m ∧ dm_units m = [(d, 0%N); (dm_display m, 3%N)])).
Proof.
  intros Hv Hm Hc Hd. unfold q_metadata. rewrite Hv, Hm. unfold token_metadata. rewrite Hc. cbn [mbind option_bind]. rewrite Hd. cbn [mbind option_bind].
  cbv zeta. eexists. split; [reflexivity|]. destruct d as [|x rest].
  { cbn. repeat split. left. repeat split. intros _. right. split; done. }
  match goal with |- context [?a && (x =? letter_u)%N] => destruct a eqn:Ep end.
  2: { change (false && (x =? letter_u)%N) with false. change (false && (x =? letter_m)%N) with false. cbv iota.
       split; [done|]. split; [done|]. split; [done|]. left. split; [done|]. split; [done|]. intros ->. rewrite N.eqb_refl in Ep.
       case_bool_decide; [tauto|done]. }
  change (true && (x =? letter_u)%N) with (x =? letter_u)%N. change (true && (x =? letter_m)%N) with (x =? letter_m)%N.
  apply andb_prop in Ep as [E1 E2]. apply N.eqb_eq in E1. case_bool_decide as Hs; [done|].
  destruct (N.eqb_spec x letter_u) as [->|]; [|destruct (N.eqb_spec x letter_m) as [->|]];
    cbn [dm_name dm_symbol dm_base dm_display dm_units]; (split; [done|]); (split; [done|]); (split; [done|]).
  - right. tauto.
  - right. tauto.
  - left. split; [done|]. split; [done|]. intros _. right. cbn. split; congruence.
Qed.
(** ** C105, refuted expectations *)
(** The two metadata queries differ for every token without stored metadata. *)
Theorem C105_metadata_by_string_refuted md w d c name symbol decimals : valid_denom d = true → md !! d = None →
  denom_to_contract w d = Some c → describe w c = Some (name, symbol, decimals) →
  q_metadata valid_denom describe md w d <> None ∧ q_metadata_by_string valid_denom md d = None.
Proof.
  intros Hv Hm Hc Hd. destruct (C104_token_metadata md w d c name symbol decimals Hv Hm Hc Hd) as (m & -> & _).
  split; [done|]. unfold q_metadata_by_string. rewrite Hv, Hm. done.
Qed.
(** A token with decimals has only the unit of exponent 0, whatever its decimals. *)
Theorem C105_decimals_refuted md w d c name symbol decimals : valid_denom d = true → md !! d = None →
  denom_to_contract w d = Some c → describe w c = Some (name, symbol, decimals) → decimals <> 0%N →
  ∃ m, q_metadata valid_denom describe md w d = Some m ∧ dm_units m = [(d, 0%N)] ∧ dm_display m = d.
Proof.
  intros Hv Hm Hc Hd Hz. destruct (C104_token_metadata md w d c name symbol decimals Hv Hm Hc Hd) as (m & Hq & _ & _ & _ & [(H1 & H2 & _)|[H1 _]]); [eauto|done].
Qed.
End metadata.
(** The supply of a denomination without token is an error, the balance is zero. *)
Theorem C105_unknown_denom_refuted w addr o a m n d : addr <> [] → decode addr = Some o →
  convert_to_evm (w_accts w) (w_nextnum w) o false = Some (a, m, n) → d <> [] → is_erc20_denom d = false → w_addr_of w !! d = None →
  q_supply_of w d = None ∧ balance w addr d = Some (Coin d 0).
Proof.
  intros Ha Hd Hcv Hne He Hno. assert (denom_to_contract w d = None) as Hc by (rewrite plain_denom by done; done).
  unfold q_supply_of, q_balance, k_supply, k_balance. destruct d as [|y d0]; [done|]. destruct addr as [|x0 addr0]; [done|].
  rewrite Hd. cbn [mbind option_bind]. rewrite Hcv, Hc, He. done.
Qed.
End world.

(** Refuted: an account that once held a token is listed with 0 (by AllBalances; the keeper's own
    listing leaves zeros out), and a registered contract without balanceOf is listed with 0
    although the Balance query fails for its denomination. *)
Theorem C105_zero_listed_refuted E ck decode w addr o a m n limit rev l l' c :
  reachable E w → addr <> [] → decode addr = Some o → convert_to_evm (w_accts w) (w_nextnum w) o false = Some (a, m, n) →
  (a, c) ∈ w_stores w → default 0 (balance_of w c a) = 0 → gathers (q_all_balances ck decode w addr) limit rev [] l →
  k_account_balances ck w o = Some l' →
  Coin (contract_to_denom ck w c) 0 ∈ l ∧ Coin (contract_to_denom ck w c) 0 ∉ l'.
Proof.
  intros Hr Hne Hd Hcv Hin Hz Hl Hl'. pose proof (inv_reachable E w Hr) as Hi.
  assert (Hask : ∀ r, q_all_balances ck decode w addr r = option_map sorted_page (paginate (held w a) (coin_of ck w a) r)).
  { intros r. unfold q_all_balances, paginated_balances. destruct addr as [|x0 addr0]; [done|]. rewrite Hd. cbn [mbind option_bind]. rewrite Hcv.
    destruct (paginate _ _ r); done. }
  assert (Hnil : [] ∉ held w a).
  { intros Hc. apply held_elem in Hc. apply (iv_stores E w Hi) in Hc. apply (iv_addr E w Hi) in Hc. exact (not_nil_addr [] Hc eq_refl). }
  split.
  - destruct (proj1 (gathers_sorted _ _ limit rev Hask) _ _ Hl) as (l1 & Hl1 & Hp).
    apply C104_pages in Hl1 as (L & HL & _ & ->); [|apply held_nodup|done]. rewrite Hp, HL.
    apply elem_of_list_fmap. exists c. split; [unfold coin_of; rewrite Hz; done|apply held_elem; done].
  - intros Hx. destruct (C32_account_listing E ck w o a m n l' Hr Hcv Hl') as (_ & _ & H).
    destruct (H _ Hx) as (c' & t & _ & _ & Hb & Heq). injection Heq as _ Heq. congruence.
Qed.

(** ** Concrete cases *)
Definition ex_decode (t : text) : option bytes := Some t.
Definition ex_ck (_ : bytes) (_ : nat) : bool := false.
Definition bq_w1 : world := snd (call_tok x_env x_w2 x_stake_at x_alice (OTransfer x_bob 60)).
Definition bq_w2 : world := match deploy bq_w1 x_contract CCustom with Some w => w | None => bq_w1 end.
Definition bq_w3 : world := register_store (snd (register bq_w2 x_contract)) x_alice x_contract.
Lemma bq_reachable : reachable x_env bq_w3.
Proof.
  apply x_reachable. etrans; [apply x_w2_steps|].
  eapply rtc_l; [left; apply (ext_call _ _ x_stake_at x_alice (OTransfer x_bob 60))|].
  { discriminate. }
  { vm_compute. split; [discriminate|reflexivity]. }
  change (rtc (step x_env) bq_w1 bq_w3).
  eapply rtc_l; [left; eapply (ext_deploy_custom _ _ x_contract bq_w2)|].
  { split; [done|]. repeat constructor. }
  { vm_compute. reflexivity. }
  assert (Hno : ∀ w, w_code w !! x_contract = Some CCustom → ∀ t, ¬ is_token w x_contract t) by (intros w H t Ht; unfold is_token in Ht; congruence).
  eapply rtc_l; [left; apply (ext_register _ _ x_contract)|].
  { split; [done|]. repeat constructor. }
  { apply Hno. vm_compute. reflexivity. }
  { discriminate. }
  apply rtc_once. left. apply ext_register_store. apply Hno. vm_compute. reflexivity.
Qed.
Example C104_example :
  reachable x_env bq_w3 ∧
  (∀ a, a ∈ [x_module; x_bob] → ∃ p, q_all_balances ex_ck ex_decode x_w2 a (PageReq [] 0 1 false false) = Some p ∧ length (ps_items p) = (if decide (a = x_module) then 1 else 0)%nat) ∧
  q_all_balances ex_ck ex_decode x_w2 x_module (PageReq [] 0 1 true false) = Some (PageRes [Coin x_foo 40] (Some x_stake_at) 2%N) ∧
  q_all_balances ex_ck ex_decode x_w2 x_module (PageReq x_stake_at 0 1 false false) = Some (PageRes [Coin x_stake 40] None 0%N) ∧
  q_all_balances ex_ck ex_decode x_w2 x_module (PageReq [] 0 1 false true) = Some (PageRes [Coin x_stake 40] (Some x_foo_at) 0%N) ∧
  q_total_supply ex_ck x_w2 (PageReq [] 0 0 false false) = Some (PageRes [Coin x_foo 40; Coin x_stake 100] None 2%N) ∧
  q_balance ex_decode x_w2 x_module x_stake = Some (Coin x_stake 40) ∧ q_supply_of x_w2 x_stake = Some (Coin x_stake 100).
Proof.
  split; [apply bq_reachable|]. split.
  - intros a Ha. repeat (apply elem_of_cons in Ha as [->|Ha]); [| |inversion Ha]; eexists; (split; [vm_compute; reflexivity|vm_compute; reflexivity]).
  - vm_compute. done.
Qed.
Example C105_example :
  (x_alice, x_stake_at) ∈ w_stores bq_w3 ∧ balance_of bq_w3 x_stake_at x_alice = Some 0 ∧
  (x_alice, x_contract) ∈ w_stores bq_w3 ∧ balance_of bq_w3 x_contract x_alice = None ∧
  option_map ps_items (q_all_balances ex_ck ex_decode bq_w3 x_alice (PageReq [] 0 0 false false)) =
    Some [Coin (contract_to_denom ex_ck bq_w3 x_contract) 0; Coin x_stake 0] ∧
  k_account_balances ex_ck bq_w3 x_alice = Some [] ∧
  q_balance ex_decode bq_w3 x_alice (contract_to_denom ex_ck bq_w3 x_contract) = None ∧
  q_metadata (fun _ => true) (fun _ _ => Some (txt "USD", txt "USD", 18%N)) ∅ x_w2 x_stake = Some (DMeta (txt "USD") (txt "USD") x_stake x_stake [(x_stake, 0%N)]) ∧
  q_metadata_by_string (fun _ => true) ∅ x_stake = None ∧
  q_supply_of x_w2 (txt "nope") = None ∧ q_balance ex_decode x_w2 x_alice (txt "nope") = Some (Coin (txt "nope") 0).
Proof.
  split; [refine (bool_decide_unpack ((x_alice, x_stake_at) ∈ w_stores bq_w3) _); vm_compute; exact I|]. split; [vm_compute; done|].
  split; [refine (bool_decide_unpack ((x_alice, x_contract) ∈ w_stores bq_w3) _); vm_compute; exact I|]. vm_compute. done.
Qed.
