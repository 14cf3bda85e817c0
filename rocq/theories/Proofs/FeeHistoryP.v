(** Proofs about the fee history request (FeeHistory.v). *)
From Verif.Base Require Import Prelude.
From Verif.Model Require Import FeeHistory.
From Coq Require Import Sorting.Sorted Sorting.Permutation.
Open Scope N_scope.

(** ** Rewards *)
Definition tip_le (x y : Z * N) : Prop := (fst x <= fst y)%Z.
Lemma ins_reward_perm x l : ins_reward x l ≡ₚ x :: l.
Proof.
  induction l as [|y l IH]; [done|]. cbn. destruct (fst x <=? fst y)%Z; [done|].
  rewrite IH. apply Permutation_swap.
Qed.
Lemma sort_rewards_perm l : sort_rewards l ≡ₚ l.
Proof. induction l as [|x l IH]; [done|]. cbn. by rewrite ins_reward_perm, IH. Qed.
Lemma ins_reward_sorted x l : StronglySorted tip_le l → StronglySorted tip_le (ins_reward x l).
Proof.
  induction 1 as [|y l Hs IH Hf]; [repeat constructor|]. cbn.
  destruct (Z.leb_spec (fst x) (fst y)).
  - constructor; [by constructor|]. constructor; [done|].
    eapply Forall_impl; [exact Hf|]. unfold tip_le. intros; lia.
  - constructor; [done|]. rewrite Forall_forall. intros z.
    rewrite ins_reward_perm, elem_of_cons. intros [->|Hz]; [unfold tip_le; lia|].
    rewrite Forall_forall in Hf. by apply Hf.
Qed.
Lemma sort_rewards_sorted l : StronglySorted tip_le (sort_rewards l).
Proof. induction l as [|x l IH]; [constructor|]. by apply ins_reward_sorted. Qed.

Definition sum_gas (l : list (Z * N)) : N := foldr (λ x acc, snd x + acc) 0 l.
Definition gas_upto (v : Z) (l : list (Z * N)) : N := sum_gas (base.filter (λ x, (fst x <= v)%Z) l).
Lemma sum_gas_app l1 l2 : sum_gas (l1 ++ l2) = sum_gas l1 + sum_gas l2.
Proof. induction l1 as [|x l1 IH]; [done|]. cbn. fold sum_gas in *. unfold sum_gas in IH |- *. cbn. lia. Qed.
Lemma sum_gas_cons x l : sum_gas (x :: l) = snd x + sum_gas l.
Proof. done. Qed.
Lemma sum_gas_perm l1 l2 : l1 ≡ₚ l2 → sum_gas l1 = sum_gas l2.
Proof.
  induction 1 as [|x l1 l2 _ IH|x y l| ]; [done| | |congruence]; rewrite ?sum_gas_cons; [by rewrite IH|lia].
Qed.
Lemma gas_upto_perm v l1 l2 : l1 ≡ₚ l2 → gas_upto v l1 = gas_upto v l2.
Proof. intros H. apply sum_gas_perm. by rewrite H. Qed.
Lemma gas_upto_app v l1 l2 : gas_upto v (l1 ++ l2) = gas_upto v l1 + gas_upto v l2.
Proof. unfold gas_upto. by rewrite filter_app, sum_gas_app. Qed.
Lemma gas_upto_le v l : gas_upto v l <= sum_gas l.
Proof.
  unfold gas_upto. induction l as [|x l IH]; [done|]. rewrite filter_cons.
  destruct (decide _); rewrite ?sum_gas_cons; lia.
Qed.
Lemma gas_upto_all v l : (∀ x, x ∈ l → (fst x <= v)%Z) → gas_upto v l = sum_gas l.
Proof.
  unfold gas_upto. intros H. f_equal. induction l as [|x l IH]; [done|].
  rewrite filter_cons, decide_True by (apply H; left). f_equal. apply IH. intros. apply H. by right.
Qed.
Lemma gas_upto_none v l : (∀ x, x ∈ l → (v < fst x)%Z) → gas_upto v l = 0.
Proof.
  unfold gas_upto. intros H. induction l as [|x l IH]; [done|].
  rewrite filter_cons, decide_False.
  - apply IH. intros. apply H. by right.
  - specialize (H x ltac:(left)). lia.
Qed.

(** The reward a percentile should show: the smallest tip such that the transactions paying at
    most that tip used the threshold gas; the largest tip if all together do not. *)
Definition reward_spec (txs : list (Z * N)) (t : N) (v : Z) : Prop :=
  (∃ g, (v, g) ∈ txs) ∧
  (t <= gas_upto v txs ∨ ∀ x, x ∈ txs → (fst x <= v)%Z) ∧
  (∀ x, x ∈ txs → (fst x < v)%Z → gas_upto (fst x) txs < t).

(** State of the loops: [done ++ (cur) :: rest] is the sorted list. *)
Definition pick_inv (l dn : list (Z * N)) (cur : Z) (g : N) (rest : list (Z * N)) (sum t : N) : Prop :=
  l = dn ++ (cur, g) :: rest ∧ sum = sum_gas (dn ++ [(cur, g)]) ∧ (dn = [] ∨ sum_gas dn < t).

Lemma advance_ok l t : StronglySorted tip_le l → sum_gas l < two64 → ∀ rest dn cur g sum,
  pick_inv l dn cur g rest sum t →
  ∃ dn' cur' g' rest' sum', advance t sum cur rest = (sum', cur', rest') ∧
    pick_inv l dn' cur' g' rest' sum' t ∧ (cur <= cur')%Z ∧ (t <= sum' ∨ rest' = []).
Proof.
  intros Hs Hb. induction rest as [|[r g2] rest IH]; intros dn cur g sum (E & Es & Hd); cbn.
  - exists dn, cur, g, [], sum. split; [done|]. split; [by split_and!|]. split; [lia|by right].
  - destruct (N.ltb_spec sum t) as [Hlt|Hge].
    + assert (Hsum : u64_add sum g2 = sum_gas ((dn ++ [(cur, g)]) ++ [(r, g2)])).
      { rewrite sum_gas_app, <- Es. unfold u64_add, u64. rewrite N.mod_small; cbn; [lia|].
        apply N.le_lt_trans with (2 := Hb). rewrite E, Es.
        change ((cur, g) :: (r, g2) :: rest) with ([(cur, g)] ++ [(r, g2)] ++ rest).
        rewrite app_assoc, !sum_gas_app. cbn. lia. }
      edestruct (IH (dn ++ [(cur, g)]) r g2 (u64_add sum g2)) as (dn' & cur' & g' & rest' & sum' & H1 & H2 & H3 & H4).
      { split_and!; [by rewrite <- app_assoc|done|right; congruence]. }
      exists dn', cur', g', rest', sum'. split; [done|]. split; [done|]. split; [|done].
      assert (Hle : (cur <= r)%Z); [|lia].
      rewrite E in Hs. clear -Hs. induction dn as [|d dn IHd].
      * cbn in Hs. inversion Hs as [|? ? ? Hf]; subst. inversion Hf; subst. done.
      * cbn in Hs. inversion Hs; subst. by apply IHd.
    + exists dn, cur, g, ((r, g2) :: rest), sum. split; [done|]. split; [by split_and!|]. split; [lia|by left].
Qed.

Lemma sorted_before l dn cur g rest :
  StronglySorted tip_le l → l = dn ++ (cur, g) :: rest →
  (∀ x, x ∈ dn → (fst x <= cur)%Z) ∧ (∀ x, x ∈ rest → (cur <= fst x)%Z).
Proof.
  intros Hs ->. induction dn as [|d dn IH]; cbn in Hs.
  - inversion Hs as [|? ? _ Hf]; subst. split; [intros x Hx; by apply elem_of_nil in Hx|].
    intros x Hx. rewrite Forall_forall in Hf. by apply (Hf x).
  - inversion Hs as [|? ? Hs' Hf]; subst. destruct (IH Hs') as [H1 H2]. split; [|done].
    intros x. rewrite elem_of_cons. intros [->|Hx]; [|by apply H1].
    rewrite Forall_forall in Hf. apply (Hf (cur, g)). set_solver.
Qed.

Lemma pick_inv_spec l dn cur g rest sum t :
  StronglySorted tip_le l → pick_inv l dn cur g rest sum t → (t <= sum ∨ rest = []) →
  reward_spec l t cur.
Proof.
  intros Hs (E & Es & Hd) Hstop. destruct (sorted_before _ _ _ _ _ Hs E) as [H1 H2].
  split_and!.
  - exists g. rewrite E. set_solver.
  - destruct Hstop as [Hle| ->].
    + left. rewrite E. change ((cur, g) :: rest) with ([(cur, g)] ++ rest). rewrite app_assoc, gas_upto_app.
      rewrite (gas_upto_all cur (dn ++ [(cur, g)])); [lia|].
      intros x. rewrite elem_of_app, elem_of_list_singleton. intros [?| ->]; [by apply H1|cbn; lia].
    + right. rewrite E. intros x. rewrite elem_of_app, elem_of_list_singleton. intros [?| ->]; [by apply H1|cbn; lia].
  - intros x Hx Hlt.
    assert (Hr : gas_upto (fst x) ((cur, g) :: rest) = 0).
    { apply gas_upto_none. intros y. rewrite elem_of_cons. intros [->|Hy]; [cbn; lia|]. specialize (H2 _ Hy). lia. }
    rewrite E, gas_upto_app, Hr. pose proof (gas_upto_le (fst x) dn). destruct Hd as [-> |?]; [|lia].
    exfalso. rewrite E in Hx. cbn in Hx. apply elem_of_cons in Hx as [->|Hx]; [cbn in Hlt; lia|].
    specialize (H2 _ Hx). lia.
Qed.

Lemma pick_rewards_ok l thr : StronglySorted tip_le l → sum_gas l < two64 → ∀ ps t0 dn cur g rest sum,
  StronglySorted N.le (t0 :: (thr <$> ps)) → pick_inv l dn cur g rest sum t0 →
  length (pick_rewards thr ps sum cur rest) = length ps ∧
  (∀ i p v, ps !! i = Some p → pick_rewards thr ps sum cur rest !! i = Some v → reward_spec l (thr p) v).
Proof.
  intros Hs Hb. induction ps as [|p ps IH]; intros t0 dn cur g rest sum Ht Hi; cbn; [done|].
  cbn in Ht. inversion Ht as [|? ? Ht' Hf]; subst. inversion Hf as [|? ? Hle _]; subst.
  assert (Hi' : pick_inv l dn cur g rest sum (thr p)).
  { destruct Hi as (?&?&Hd). split_and!; [done|done|]. destruct Hd; [by left|right; lia]. }
  destruct (advance_ok l (thr p) Hs Hb rest dn cur g sum Hi')
    as (dn' & cur' & g' & rest' & sum' & Ea & Hi2 & _ & Hstop).
  rewrite Ea. destruct (IH (thr p) dn' cur' g' rest' sum' Ht' Hi2) as [Hlen Hspec]. split; [cbn; by rewrite Hlen|].
  intros [|i] q v; cbn; [|by apply Hspec].
  intros [= <-] [= <-]. by eapply pick_inv_spec.
Qed.
Lemma advance_mono t : ∀ rest sum cur l g,
  StronglySorted tip_le ((cur, g) :: rest) → advance t sum cur rest = l →
  ∃ g', (cur <= snd (fst l))%Z ∧ StronglySorted tip_le ((snd (fst l), g') :: snd l).
Proof.
  induction rest as [|[r g2] rest IH]; intros sum cur l g Hs; cbn.
  - intros <-. exists g. cbn. split; [lia|done].
  - inversion Hs as [|? ? Hs' Hf]; subst. inversion Hf as [|? ? Hc _]; subst. unfold tip_le in Hc; cbn in Hc.
    destruct (sum <? t).
    + intros H. destruct (IH _ _ _ _ Hs' H) as (g' & ? & ?). exists g'. split; [lia|done].
    + intros <-. exists g. cbn. split; [lia|done].
Qed.
Lemma pick_rewards_sorted thr : ∀ ps sum cur g rest,
  StronglySorted tip_le ((cur, g) :: rest) →
  StronglySorted Z.le (pick_rewards thr ps sum cur rest) ∧
  Forall (λ v, cur <= v)%Z (pick_rewards thr ps sum cur rest).
Proof.
  induction ps as [|p ps IH]; intros sum cur g rest Hs; cbn; [split; constructor|].
  destruct (advance (thr p) sum cur rest) as [[sum' cur'] rest'] eqn:E.
  destruct (advance_mono _ _ _ _ _ _ Hs E) as (g' & Hle & Hs'). cbn [fst snd] in *.
  destruct (IH sum' cur' g' rest' Hs') as [H1 H2]. split; constructor; try done.
  eapply Forall_impl; [exact H2|]. cbn. intros; lia.
Qed.

(** ** Fetching and the cache *)
Lemma header_nonneg nd n : header_by_number nd (Z.of_N n) = fb_head <$> fn_index nd !! N.max 1 n.
Proof.
  unfold header_by_number, resolve_nr. destruct (Z.ltb_spec (Z.of_N n) 0); [lia|].
  destruct (Z.eqb_spec (Z.of_N n) 0); do 2 f_equal; lia.
Qed.
Lemma fetch_some e nd n ps r :
  fetch e nd n ps = Some r ↔
  ∃ b, fn_index nd !! N.max 1 n = Some b ∧
    r = process_block e (fb_head b) match fn_index nd !! n with Some b => fb_txs b | None => [] end ps.
Proof.
  unfold fetch. rewrite header_nonneg. destruct (fn_index nd !! N.max 1 n) as [b|]; cbn.
  - split; [intros [= <-]; by exists b|]. by intros (? & [= <-] & ->).
  - split; [done|]. by intros (? & ? & ?).
Qed.
Lemma fetch_none e nd n ps : fetch e nd n ps = None ↔ fn_index nd !! N.max 1 n = None.
Proof. unfold fetch. rewrite header_nonneg. by destruct (fn_index nd !! N.max 1 n). Qed.
Lemma fetch_grows e nd nd' n ps r :
  fnode_ok nd → grows nd nd' → fetch e nd n ps = Some r → fetch e nd' n ps = Some r.
Proof.
  intros Hok (Hok' & _ & Hsub). rewrite !fetch_some. intros (b & Hb & ->).
  exists b. split; [by eapply lookup_weaken|]. f_equal.
  destruct (decide (n = 0)) as [->|Hn].
  - destruct (fn_index nd !! 0) as [x|] eqn:E1; [destruct (Hok _ _ E1); lia|].
    destruct (fn_index nd' !! 0) as [x|] eqn:E2; [destruct (Hok' _ _ E2); lia|done].
  - replace (N.max 1 n) with n in Hb by lia. rewrite Hb.
    by rewrite (lookup_weaken _ _ _ _ Hb Hsub).
Qed.
Definition cache_ok (e : fenv) (nd : fnode) (c : fcache) : Prop :=
  ∀ n ps r, c !! fkey n ps = Some r → fetch e nd n ps = Some r.
Lemma qkey_inj p q : qkey p = qkey q → p = q.
Proof. destruct p, q. unfold qkey. cbn. congruence. Qed.
Lemma fkey_inj n ps n' ps' : fkey n ps = fkey n' ps' → n = n' ∧ ps = ps'.
Proof.
  unfold fkey. intros H. split; [by apply (f_equal fst) in H|]. apply (f_equal snd) in H. cbn [snd] in H.
  revert ps' H. induction ps as [|p ps IH]; intros [|p' ps']; cbn; try done.
  intros H. injection H as H1 H2 H3. f_equal; [apply qkey_inj; unfold qkey; congruence|by apply IH].
Qed.
Lemma fetch_cached_ok e nd c n ps :
  cache_ok e nd c → fst (fetch_cached e nd c n ps) = fetch e nd n ps ∧ cache_ok e nd (snd (fetch_cached e nd c n ps)).
Proof.
  intros Hc. unfold fetch_cached. destruct (c !! fkey n ps) as [r|] eqn:E; cbn.
  - split; [symmetry; by apply Hc|done].
  - split; [done|]. destruct (fetch e nd n ps) as [r|] eqn:Ef; [|done].
    intros n' ps' r' H. destruct (decide (fkey n' ps' = fkey n ps)) as [Hk|Hk].
    + rewrite Hk, lookup_insert in H. apply fkey_inj in Hk as [-> ->]. congruence.
    + rewrite lookup_insert_ne in H by congruence. by apply Hc.
Qed.
Lemma cache_ok_grows e nd nd' c : fnode_ok nd → grows nd nd' → cache_ok e nd c → cache_ok e nd' c.
Proof. intros Hok Hg Hc n ps r H. eapply fetch_grows; [done|done|by apply Hc]. Qed.
Lemma cache_ok_sub e nd c c' : c' ⊆ c → cache_ok e nd c → cache_ok e nd c'.
Proof. intros Hs Hc n ps r H. apply Hc. by eapply lookup_weaken. Qed.

(** ** The columns, from the results in order of arrival (newest first) *)
Notation arrivals := (list (nat * option fres)).
Definition rows_of (blocks : nat) (got : arrivals) : frows :=
  foldr (λ x w, receive w (fst x) (snd x)) (rows0 blocks) got.
Lemma rows_of_cons blocks i q got :
  rows_of blocks ((i, q) :: got) = receive (rows_of blocks got) i q.
Proof. done. Qed.
Local Arguments rows_of : simpl never.
Local Opaque rows0.
Lemma rows_lengths blocks got :
  length (w_reward (rows_of blocks got)) = blocks ∧
  length (w_base (rows_of blocks got)) = S blocks ∧
  length (w_ratio (rows_of blocks got)) = blocks.
Proof.
  induction got as [|[i [r|]] got (H1 & H2 & H3)]; rewrite ?rows_of_cons; cbn -[insert replicate].
  - unfold rows_of. Transparent rows0. cbn -[replicate]. by rewrite !replicate_length.
  - by rewrite !insert_length.
  - done.
Qed.
Lemma rows_own blocks got i r :
  NoDup got.*1 → (i < blocks)%nat → (i, Some r) ∈ got →
  w_ratio (rows_of blocks got) !! i = Some (Some (fr_ratio r)) ∧
  w_reward (rows_of blocks got) !! i = Some (fr_reward r).
Proof.
  intros Hnd Hi. induction got as [|[j q] got IH]; [intros H; by apply elem_of_nil in H|].
  cbn in Hnd. apply NoDup_cons in Hnd as [Hj Hnd]. rewrite elem_of_cons. intros [[= <- <-]|Hin].
  - rewrite rows_of_cons. cbn. destruct (rows_lengths blocks got) as (L1 & L2 & L3).
    rewrite !list_lookup_insert by lia. done.
  - assert (Hne : j ≠ i).
    { intros ->. apply Hj. apply elem_of_list_fmap. by exists (i, Some r). }
    destruct (IH Hnd Hin). rewrite rows_of_cons. cbn. rewrite ?rows_of_cons; destruct q as [q|]; cbn; [|done].
    rewrite !list_lookup_insert_ne by done. done.
Qed.
Lemma rows_base_own blocks got i r :
  NoDup got.*1 → (i < blocks)%nat → (i, Some r) ∈ got →
  w_base (rows_of blocks got) !! i = Some (Some (fr_base r)) ∨
  ∃ j r', i = S j ∧ (j, Some r') ∈ got ∧ w_base (rows_of blocks got) !! i = Some (Some (fr_next r')).
Proof.
  intros Hnd Hi. induction got as [|[j q] got IH]; [intros H; by apply elem_of_nil in H|].
  cbn in Hnd. apply NoDup_cons in Hnd as [Hj Hnd].
  destruct (rows_lengths blocks got) as (L1 & L2 & L3).
  rewrite elem_of_cons. intros [[= <- <-]|Hin].
  - left. rewrite rows_of_cons. cbn. rewrite list_lookup_insert_ne by lia. rewrite list_lookup_insert by lia. done.
  - assert (Hne : j ≠ i).
    { intros ->. apply Hj. apply elem_of_list_fmap. by exists (i, Some r). }
    rewrite ?rows_of_cons; destruct q as [q|]; cbn.
    + destruct (decide (i = S j)) as [->|Hs].
      * right. exists j, q. split_and!; [done|set_solver|]. rewrite list_lookup_insert; [done|].
        rewrite insert_length. lia.
      * rewrite !list_lookup_insert_ne by lia. destruct (IH Hnd Hin) as [|(j' & r' & ? & ? & ?)]; [by left|].
        right. exists j', r'. set_solver.
    + destruct (IH Hnd Hin) as [|(j' & r' & ? & ? & ?)]; [by left|]. right. exists j', r'. set_solver.
Qed.
Lemma rows_base_next blocks got i r :
  NoDup got.*1 → (i < blocks)%nat → (i, Some r) ∈ got → (∀ r', (S i, Some r') ∉ got) →
  w_base (rows_of blocks got) !! S i = Some (Some (fr_next r)).
Proof.
  intros Hnd Hi. induction got as [|[j q] got IH]; [intros H; by apply elem_of_nil in H|].
  cbn in Hnd. apply NoDup_cons in Hnd as [Hj Hnd].
  destruct (rows_lengths blocks got) as (L1 & L2 & L3).
  rewrite elem_of_cons. intros [[= <- <-]|Hin] Hno.
  - rewrite rows_of_cons. cbn. rewrite list_lookup_insert; [done|]. rewrite insert_length. lia.
  - assert (Hne : j ≠ i).
    { intros ->. apply Hj. apply elem_of_list_fmap. by exists (i, Some r). }
    assert (IH' : w_base (rows_of blocks got) !! S i = Some (Some (fr_next r))).
    { apply IH; [done|done|]. intros r' Hr'. apply (Hno r'). set_solver. }
    rewrite ?rows_of_cons; destruct q as [q|]; cbn; [|done].
    assert (j ≠ S i). { intros ->. apply (Hno q). set_solver. }
    rewrite !list_lookup_insert_ne by lia. done.
Qed.
Lemma rows_missing blocks got :
  (w_missing (rows_of blocks got) ≤ blocks)%nat ∧
  (∀ i, (i, None) ∈ got → (w_missing (rows_of blocks got) ≤ i)%nat) ∧
  (w_missing (rows_of blocks got) = blocks ∨ (w_missing (rows_of blocks got), None) ∈ got).
Proof.
  induction got as [|[j q] got (H1 & H2 & H3)]; cbn -[replicate].
  - unfold rows_of; cbn -[replicate]. split_and!; [lia| |by left]. intros i H. by apply elem_of_nil in H.
  - rewrite ?rows_of_cons; destruct q as [q|]; cbn -[replicate].
    + split_and!; [done| |].
      * intros i. rewrite elem_of_cons. intros [?|?]; [done|auto].
      * destruct H3; [by left|right; set_solver].
    + split_and!; [lia| |].
      * intros i. rewrite elem_of_cons. intros [[= ->]|Hi]; [lia|]. specialize (H2 _ Hi). lia.
      * destruct (Nat.le_ge_cases j (w_missing (rows_of blocks got))) as [Hm|Hm].
        -- rewrite Nat.min_l by done. right. set_solver.
        -- rewrite Nat.min_r by done. destruct H3; [by left|right; set_solver].
Qed.
(** Arrival order does not matter when neighbouring rows agree on the base fee between them. *)
Lemma rows_base_agree blocks got i r :
  NoDup got.*1 → (i < blocks)%nat → (i, Some r) ∈ got →
  (∀ j r', i = S j → (j, Some r') ∈ got → fr_next r' = fr_base r) →
  w_base (rows_of blocks got) !! i = Some (Some (fr_base r)).
Proof.
  intros Hnd Hi Hin Hag. destruct (rows_base_own blocks got i r Hnd Hi Hin) as [|(j & r' & E & Hj & H)]; [done|].
  rewrite H. do 2 f_equal. by apply (Hag j r').
Qed.

(** ** Schedules of the fetchers *)
Definition num (oldest : N) (i : nat) : N := oldest + N.of_nat i.
Record stage_inv (e : fenv) (ps : list Q) (oldest last : N) (blocks : nat) (nd0 nd : fnode)
    (s : fstage) (got : arrivals) : Prop := {
  si_ok : fnode_ok nd;
  si_grow : grows nd0 nd;
  si_cache : cache_ok e nd (fs_cache s);
  si_rows : fs_rows s = rows_of blocks got;
  si_nodup : NoDup ((num oldest <$> got.*1) ++ fs_busy s);
  si_range : ∀ n, n ∈ (num oldest <$> got.*1) ++ fs_busy s ↔ oldest <= n < fs_next s;
  si_next : oldest <= fs_next s <= last + 1;
  si_len : N.of_nat (length got + length (fs_busy s)) = fs_next s - oldest;
  si_left : (length got + fs_left s)%nat = blocks;
  si_some : ∀ i r, (i, Some r) ∈ got → fetch e nd (num oldest i) ps = Some r;
  si_none : ∀ i, (i, None) ∈ got → fetch e nd0 (num oldest i) ps = None }.
Lemma grows_refl nd : fnode_ok nd → grows nd nd.
Proof. done. Qed.
Lemma grows_trans a b c : grows a b → grows b c → grows a c.
Proof. intros (?&?&?) (?&?&?). split_and!; [done|lia|by etrans]. Qed.

Lemma fstep_inv e ps oldest last W blocks nd0 nd s nd' s' got :
  fstep e ps oldest last W (nd, s) (nd', s') → stage_inv e ps oldest last blocks nd0 nd s got →
  ∃ got', stage_inv e ps oldest last blocks nd0 nd' s' got'.
Proof.
  intros Hstep I. inversion Hstep as [nd1 s1 Hb Hn|nd1 s1 n b1 b2 left Hb Hl|nd1 nd2 s1 Hg|nd1 s1 n ps'|nd1 s1 c Hc]; subst.
  - exists got. destruct I as [I1 I2 I3 I4 I5 I6 I7 I8 I9 I10 I11]. constructor; cbn; try done.
    + rewrite NoDup_app in I5 |- *. destruct I5 as (N1 & N2 & N3). split_and!; [done| |].
      * intros x Hx. rewrite elem_of_cons. intros [->|Hb']; [|by apply (N2 x)].
        assert (fs_next s ∈ (num oldest <$> got.*1) ++ fs_busy s) as Hin by (apply elem_of_app; by left).
        apply I6 in Hin. lia.
      * apply NoDup_cons. split; [|done]. intros Hx.
        assert (fs_next s ∈ (num oldest <$> got.*1) ++ fs_busy s) as Hin by (apply elem_of_app; by right).
        apply I6 in Hin. lia.
    + intros n. specialize (I6 n). rewrite elem_of_app in I6 |- *. rewrite elem_of_cons.
      split.
      * intros [H|[->|H]]; [|lia|]; [apply or_introl with (B := n ∈ fs_busy s) in H|apply or_intror with (A := n ∈ num oldest <$> got.*1) in H]; apply I6 in H; lia.
      * intros H. destruct (decide (n = fs_next s)) as [->|Hne]; [by right; left|].
        destruct I6 as [_ I6]. assert (Hr : oldest <= n < fs_next s) by lia. destruct (I6 Hr) as [?|?]; [by left|by right; right].
    + lia.
    + lia.
  - destruct (fetch_cached_ok e nd' (fs_cache s) n ps (si_cache _ _ _ _ _ _ _ _ _ I)) as [Hf Hco].
    destruct I as [I1 I2 I3 I4 I5 I6 I7 I8 I9 I10 I11].
    assert (Hn : oldest <= n < fs_next s).
    { apply I6. rewrite Hb. set_solver. }
    set (i := N.to_nat (n - oldest)).
    assert (Hnum : num oldest i = n). { unfold num, i. lia. }
    exists ((i, fetch e nd' n ps) :: got). constructor; cbn; try done.
    + by rewrite rows_of_cons, I4, Hf.
    + rewrite Hnum. rewrite Hb in I5. eapply NoDup_Permutation_proper; [|exact I5].
      rewrite (app_assoc _ b1 b2), (app_assoc _ b1 (n :: b2)). apply Permutation_middle.
    + intros m. rewrite <- (I6 m), Hnum, Hb. set_solver.
    + rewrite Hb in I8. rewrite app_length in *. cbn in I8. lia.
    + rewrite Hl in I9. lia.
    + intros j r. rewrite elem_of_cons. intros [[= -> Hr]|Hj]; [|by apply I10]. by rewrite Hnum.
    + intros j. rewrite elem_of_cons. intros [[= -> Hr]|Hj]; [|by apply I11]. rewrite Hnum.
      destruct (fetch e nd0 n ps) as [r|] eqn:E; [|done]. exfalso.
      symmetry in Hr. apply fetch_none in Hr. apply fetch_some in E as (b & Eb & _).
      destruct I2 as (_ & _ & Hsub). rewrite (lookup_weaken _ _ _ _ Eb Hsub) in Hr. done.
  - exists got. destruct I as [I1 I2 I3 I4 I5 I6 I7 I8 I9 I10 I11].
    constructor; try done.
    + by destruct Hg.
    + by eapply grows_trans.
    + by eapply cache_ok_grows.
    + intros i r Hr. eapply fetch_grows; [done|done|by apply I10].
  - exists got. destruct (fetch_cached_ok e nd' (fs_cache s) n ps' (si_cache _ _ _ _ _ _ _ _ _ I)) as [_ Hco].
    destruct I. by constructor.
  - exists got. destruct I. constructor; try done. by eapply cache_ok_sub.
Qed.
Lemma frun_inv e ps oldest last W blocks nd0 x y got :
  rtc (fstep e ps oldest last W) x y → stage_inv e ps oldest last blocks nd0 (fst x) (snd x) got →
  ∃ got', stage_inv e ps oldest last blocks nd0 (fst y) (snd y) got'.
Proof.
  intros H. revert got. induction H as [x|[nd s] [nd1 s1] y Hst _ IH]; intros got Hi; [by exists got|].
  destruct (fstep_inv _ _ _ _ _ _ _ _ _ _ _ _ Hst Hi) as [got' Hi']. by apply (IH got').
Qed.

(** What a finished request has received: one result for each block of the range. *)
Lemma request_got e ps oldest n nd c nd' s' :
  fnode_ok nd → cache_ok e nd c → 0 < n →
  rtc (fstep e ps oldest (oldest + n - 1) (workers n))
    (nd, FStage oldest [] (rows0 (N.to_nat n)) c (N.to_nat n)) (nd', s') →
  fs_left s' = 0%nat →
  fnode_ok nd' ∧ grows nd nd' ∧ cache_ok e nd' (fs_cache s') ∧
  ∃ got, fs_rows s' = rows_of (N.to_nat n) got ∧ NoDup got.*1 ∧
    (∀ i, i ∈ got.*1 ↔ (i < N.to_nat n)%nat) ∧
    (∀ i r, (i, Some r) ∈ got → fetch e nd' (num oldest i) ps = Some r) ∧
    (∀ i, (i, None) ∈ got → fetch e nd (num oldest i) ps = None).
Proof.
  intros Hok Hc Hn Hrun Hl.
  destruct (frun_inv e ps oldest (oldest + n - 1) (workers n) (N.to_nat n) nd _ _ [] Hrun) as [got I].
  { cbn. constructor; cbn; try done.
    - apply NoDup_nil_2.
    - intros m. rewrite elem_of_nil. lia.
    - lia.
    - lia.
    - intros i r H. by apply elem_of_nil in H.
    - intros i H. by apply elem_of_nil in H. }
  cbn in I. destruct I as [I1 I2 I3 I4 I5 I6 I7 I8 I9 I10 I11].
  split; [done|]. split; [done|]. split; [done|]. exists got. split; [done|].
  rewrite Hl in I9.
  assert (Hb : fs_busy s' = []). { destruct (fs_busy s'); [done|]. cbn in I8. lia. }
  rewrite Hb in *. rewrite app_nil_r in *. cbn in I8.
  split; [by eapply NoDup_fmap_1|]. split; [|done].
  intros i. split.
  - intros Hi. assert (num oldest i ∈ num oldest <$> got.*1) as H by (apply elem_of_list_fmap; eauto).
    apply I6 in H. unfold num in H. lia.
  - intros Hi. assert (num oldest i ∈ num oldest <$> got.*1) as H by (apply I6; unfold num; lia).
    apply elem_of_list_fmap in H as (j & Ej & Hj). unfold num in Ej. replace i with j by lia. done.
Qed.

Lemma request_ok e blocks reqEnd ps nd c a nd' c' :
  fee_history e blocks reqEnd ps (nd, c) a (nd', c') → fnode_ok nd → cache_ok e nd c →
  fnode_ok nd' ∧ grows nd nd' ∧ cache_ok e nd' c'.
Proof.
  intros H Hok Hc. inversion H as [| | |nd1 c1 last n nd2 s' Hp Hn Hrun Hl]; subst; try done.
  assert (Hle : n <= last + 1).
  { revert Hp. unfold plan, resolve_block_range. repeat (case_match; try done); intros [= <- <-]; lia. }
  replace last with (last + 1 - n + n - 1) in Hrun at 2 by lia.
  destruct (request_got _ _ _ _ _ _ _ _ Hok Hc Hn Hrun Hl) as (? & ? & ? & _). done.
Qed.
Lemma reach_ok e x : fnode_reach e x → fnode_ok (fst x) ∧ cache_ok e (fst x) (snd x).
Proof.
  induction 1 as [nd|nd nd' c _ [H1 H2] Hg|nd c c' _ [H1 H2] Hs|nd c blocks reqEnd ps a nd' c' _ [H1 H2] Hr]; cbn in *.
  - split; [done|]. intros n ps r H1. by rewrite lookup_empty in H1.
  - split; [by destruct Hg|by eapply cache_ok_grows].
  - split; [done|by eapply cache_ok_sub].
  - by destruct (request_ok _ _ _ _ _ _ _ _ _ Hr H1 H2) as (? & _ & ?).
Qed.
