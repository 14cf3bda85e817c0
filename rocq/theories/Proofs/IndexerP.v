(** Proofs about the indexer model. *)
From Verif.Base Require Import Prelude.
From Verif.Model Require Import EthLog Indexer.
From Verif.Spec Require Import IndexerSpec.
From stdpp Require Import sorting.
Open Scope N_scope.

Definition ee (es : list ientry) : list (itx * ientry) :=
  omap (fun e => match ie_conv e with IEth t => Some (t, e) | _ => None end) es.
Definition entry_ok (e : ientry) : Prop :=
  ie_conv e ≠ IConvErr ∧
    ∀ t, ie_conv e = IEth t → ie_code e = 0 →
      match ie_resp e with IRCall _ => it_creates t = false | IRCreate _ _ => it_creates t = true | IRNone => False end.

Lemma extract_some ok resp creates ls c :
  extract_logs ok resp creates = Some (ls, c) →
  ls = (if ok then match resp with IRCall ls => ls | IRCreate ls _ => ls | IRNone => [] end else []) ∧
  c = (if ok then match resp with IRCreate _ c => Some c | _ => None end else None) ∧
  (ok = true → match resp with IRCall _ => creates = false | IRCreate _ _ => creates = true | IRNone => False end).
Proof. destruct ok, resp, creates; cbn; intros H; simplify_eq; (split; [reflexivity|split; [reflexivity|intros; reflexivity || discriminate]]). Qed.

Lemma extract_ok e t : entry_ok e → ie_conv e = IEth t →
  extract_logs (ie_code e =? 0) (ie_resp e) (it_creates t) = Some (e_logs e, e_contract e).
Proof.
  intros [_ H] Ht. specialize (H t Ht). unfold e_logs, e_contract, e_ok.
  destruct (N.eqb_spec (ie_code e) 0) as [E|E]; cbn; [|done].
  specialize (H E). destruct (ie_resp e); try (rewrite H; done). done.
Qed.

Section p.
Variable bloom_bits : bytes → list N.
Variable header_hash : header → bytes.
Notation lbloom := (logs_bloom bloom_bits).

Fixpoint receipts_from (idx cum : N) (l : list (itx * ientry)) : list receipt :=
  match l with
  | [] => []
  | (t, e) :: l' =>
      let cum' := u64_add cum (e_gas e) in
      mkReceipt (e_ok e) cum' (e_gas e) (lbloom (e_logs e)) (e_logs e) (idx + 1) (it_price t) (e_contract e)
        :: receipts_from (idx + 1) cum' l'
  end.

Definition to_cosmos_all (l : list (itx * ientry)) (m : gmap bytes bytes) : gmap bytes bytes :=
  fold_left (fun m te => <[it_hash te.1 := ie_cosmos_hash te.2]> m) l m.
Definition of_cosmos_all (l : list (itx * ientry)) (m : gmap bytes bytes) : gmap bytes bytes :=
  fold_left (fun m te => <[ie_cosmos_hash te.2 := it_hash te.1]> m) l m.

Lemma index_loop_ok es st idx cum txs rs :
  (∀ e, e ∈ es → entry_ok e) →
  index_loop bloom_bits es st idx cum txs rs =
  (mkI (i_tx st) (i_receipt st) (i_header st) (i_by_index st) (i_number st)
       (to_cosmos_all (ee es) (i_to_cosmos st)) (of_cosmos_all (ee es) (i_of_cosmos st)),
   Some (txs ++ map fst (ee es), rs ++ receipts_from idx cum (ee es))).
Proof.
  revert st idx cum txs rs. induction es as [|e es IH]; intros st idx cum txs rs Hok.
  - cbn. rewrite !app_nil_r. destruct st; done.
  - assert (He : entry_ok e) by (apply Hok; left).
    assert (Hes : ∀ e0, e0 ∈ es → entry_ok e0) by (intros; apply Hok; right; done).
    cbn [index_loop]. unfold ee. cbn [omap list_omap]. destruct (ie_conv e) as [| | |t] eqn:Ec.
    + rewrite IH by done. done.
    + destruct He as [He _]. congruence.
    + rewrite IH by done. done.
    + rewrite (extract_ok e t He Ec). rewrite IH by done. cbn. rewrite <- !app_assoc. done.
Qed.

Lemma index_loop_some es st idx cum txs rs r :
  (index_loop bloom_bits es st idx cum txs rs).2 = Some r → ∀ e, e ∈ es → entry_ok e.
Proof.
  revert st idx cum txs rs. induction es as [|e es IH]; intros st idx cum txs rs H e0 Hin.
  { inversion Hin. }
  cbn [index_loop] in H. apply elem_of_cons in Hin as [->|Hin].
  - destruct (ie_conv e) as [| | |t] eqn:Ec.
    + split; rewrite Ec; done.
    + done.
    + split; rewrite Ec; done.
    + destruct (extract_logs (ie_code e =? 0) (ie_resp e) (it_creates t)) as [[ls c]|] eqn:Ex; [|done].
      split; [rewrite Ec; done|]. intros t' Ht' H0. rewrite Ec in Ht'. injection Ht' as <-.
      apply extract_some in Ex as (_ & _ & Hx). apply Hx. apply N.eqb_eq. done.
  - destruct (ie_conv e) as [| | |t] eqn:Ec; try (eapply IH; eassumption); try done.
    destruct (extract_logs (ie_code e =? 0) (ie_resp e) (it_creates t)) as [[ls c]|] eqn:Ex; [|done].
    eapply IH; eassumption.
Qed.

Lemma receipts_from_lookup idx cum l i t e :
  l !! i = Some (t, e) →
  receipts_from idx cum l !! i =
  Some (mkReceipt (e_ok e) (u64 (cum + nsum (map (fun te => e_gas te.2) (take (S i) l)))) (e_gas e)
     (lbloom (e_logs e)) (e_logs e) (idx + N.of_nat i + 1) (it_price t) (e_contract e)).
Proof.
  revert idx cum i. induction l as [|[t0 e0] l IH]; intros idx cum i H; [done|].
  destruct i as [|i]; cbn [lookup list_lookup receipts_from] in *.
  - injection H as -> ->. f_equal. f_equal.
    + cbn. rewrite N.add_0_r. done.
    + lia.
  - rewrite (IH _ _ _ H). f_equal. f_equal.
    + change (take (S (S i)) ((t0, e0) :: l)) with ((t0, e0) :: take (S i) l).
      cbn [map nsum snd]. unfold u64_add, u64.
      rewrite N.add_mod_idemp_l by done. f_equal. lia.
    + lia.
Qed.

Lemma receipts_from_length idx cum l : length (receipts_from idx cum l) = length l.
Proof. revert idx cum. induction l as [|[t e] l IH]; intros; cbn; [done|]. rewrite IH. done. Qed.

(** the second loop *)
Lemma store_loop_other txs rs bh n st :
  let st' := store_loop txs rs bh n st in
  i_header st' = i_header st ∧ i_number st' = i_number st ∧
  i_to_cosmos st' = i_to_cosmos st ∧ i_of_cosmos st' = i_of_cosmos st.
Proof.
  revert rs st. induction txs as [|t txs IH]; intros [|r rs] st; cbn; auto.
  destruct (IH rs (mkI (<[it_hash t := mkRtx t bh n (rc_index r)]> (i_tx st))
             (<[it_hash t := r]> (i_receipt st)) (i_header st)
             (<[(n, rc_index r) := it_hash t]> (i_by_index st))
             (i_number st) (i_to_cosmos st) (i_of_cosmos st))) as (H1 & H2 & H3 & H4).
  auto.
Qed.

Lemma store_loop_tx_ne txs rs bh n st h :
  h ∉ map it_hash txs →
  i_tx (store_loop txs rs bh n st) !! h = i_tx st !! h ∧
  i_receipt (store_loop txs rs bh n st) !! h = i_receipt st !! h.
Proof.
  revert rs st. induction txs as [|t txs IH]; intros [|r rs] st Hh; cbn; auto.
  cbn in Hh. apply not_elem_of_cons in Hh as [Hh1 Hh2].
  edestruct IH as [H1 H2]; [exact Hh2|]. rewrite H1, H2. cbn.
  rewrite !lookup_insert_ne by done. done.
Qed.

Lemma store_loop_tx txs rs bh n st i t r :
  NoDup (map it_hash txs) → txs !! i = Some t → rs !! i = Some r →
  i_tx (store_loop txs rs bh n st) !! it_hash t = Some (mkRtx t bh n (rc_index r)) ∧
  i_receipt (store_loop txs rs bh n st) !! it_hash t = Some r.
Proof.
  revert rs st i. induction txs as [|t0 txs IH]; intros [|r0 rs] st i Hnd Ht Hr; try done.
  cbn in Hnd. apply NoDup_cons in Hnd as [Hni Hnd]. destruct i as [|i]; cbn in Ht, Hr.
  - injection Ht as ->. injection Hr as ->. cbn [store_loop].
    edestruct (store_loop_tx_ne txs rs bh n) as [H1 H2]; [exact Hni|]. rewrite H1, H2. cbn.
    rewrite !lookup_insert. done.
  - cbn [store_loop]. eapply IH; eauto.
Qed.

Lemma store_loop_ix_ne txs rs bh n st m k :
  (m ≠ n ∨ k ∉ map rc_index rs) →
  i_by_index (store_loop txs rs bh n st) !! (m, k) = i_by_index st !! (m, k).
Proof.
  revert rs st. induction txs as [|t txs IH]; intros [|r rs] st H; cbn [store_loop]; auto.
  rewrite IH.
  - cbn. rewrite lookup_insert_ne; [done|]. intros [= <- <-]. destruct H as [H|H]; [done|].
    apply H. cbn. left.
  - destruct H as [H|H]; [left; done|right]. cbn in H. apply not_elem_of_cons in H as [_ H]. done.
Qed.

Lemma store_loop_ix txs rs bh n st i t r :
  NoDup (map rc_index rs) → txs !! i = Some t → rs !! i = Some r →
  i_by_index (store_loop txs rs bh n st) !! (n, rc_index r) = Some (it_hash t).
Proof.
  revert rs st i. induction txs as [|t0 txs IH]; intros [|r0 rs] st i Hnd Ht Hr; try done.
  cbn in Hnd. apply NoDup_cons in Hnd as [Hni Hnd]. destruct i as [|i]; cbn in Ht, Hr.
  - injection Ht as ->. injection Hr as ->. cbn [store_loop].
    rewrite store_loop_ix_ne by auto. cbn. rewrite lookup_insert. done.
  - cbn [store_loop]. eapply IH; eauto.
Qed.

Lemma receipts_index_in idx cum l k :
  k ∈ map rc_index (receipts_from idx cum l) ↔ ∃ i, (i < length l)%nat ∧ k = idx + N.of_nat i + 1.
Proof.
  revert idx cum. induction l as [|[t e] l IH]; intros idx cum; cbn.
  - rewrite elem_of_nil. split; [done|]. intros (i & Hi & _). lia.
  - rewrite elem_of_cons, IH. split.
    + intros [->|(i & Hi & ->)]; [exists 0%nat; lia | exists (S i); lia].
    + intros (i & Hi & ->). destruct i as [|i]; [left; lia | right; exists i; lia].
Qed.
Lemma receipts_index_nodup idx cum l : NoDup (map rc_index (receipts_from idx cum l)).
Proof.
  revert idx cum. induction l as [|[t e] l IH]; intros idx cum; cbn; [constructor|].
  constructor; [|apply IH]. rewrite receipts_index_in. intros (i & _ & Hi). lia.
Qed.

(** the walk over the block's index entries *)
Lemma NoDup_omap_inj {A B} (f : A → option B) l :
  NoDup l → (∀ x y z, x ∈ l → y ∈ l → f x = Some z → f y = Some z → x = y) → NoDup (omap f l).
Proof.
  induction 1 as [|x l Hx Hnd IH]; intros Hinj; cbn; [constructor|].
  assert (NoDup (omap f l)).
  { apply IH. intros a b z Ha Hb. apply Hinj; right; done. }
  destruct (f x) as [z|] eqn:E; [|done]. constructor; [|done].
  rewrite elem_of_list_omap. intros (y & Hy & Ey).
  assert (x = y) as -> by (eapply Hinj; eauto; [left|right; done]). done.
Qed.

Lemma block_hashes_spec st n (l : list bytes) :
  (∀ k h, i_by_index st !! (n, k) = Some h ↔ ∃ i, l !! i = Some h ∧ k = N.of_nat i + 1) →
  block_hashes st n = l.
Proof.
  intros H. unfold block_hashes.
  set (R := fun x y : N * bytes => Is_true (x.1 <=? y.1)).
  set (l0 := omap _ _).
  set (l1 := imap (fun i h => (N.of_nat i + 1, h)) l).
  assert (E : merge_sort R l0 = l1).
  { assert (Hl1 : ∀ x, x ∈ l1 ↔ x ∈ l0).
    { intros [k h]. unfold l1, l0. rewrite elem_of_lookup_imap, elem_of_list_omap. split.
      - intros (i & y & [= -> ->] & Hi). exists ((n, N.of_nat i + 1), y). rewrite elem_of_map_to_list.
        split; [apply H; eauto|]. cbn. rewrite N.eqb_refl. done.
      - intros ([[m k'] h'] & Hin & Hx). rewrite elem_of_map_to_list in Hin. cbn in Hx.
        destruct (N.eqb_spec m n) as [->|]; [|done]. injection Hx as -> ->.
        apply H in Hin as (i & Hi & ->). eauto. }
    assert (Hnd0 : NoDup l0).
    { apply NoDup_omap_inj; [apply NoDup_map_to_list|].
      intros [[m k] h] [[m' k'] h'] z _ _. cbn.
      destruct (N.eqb_spec m n), (N.eqb_spec m' n); intros; simplify_eq; done. }
    assert (Hss1 : StronglySorted (fun x y : N * bytes => x.1 < y.1) l1).
    { unfold l1. clear. change (fun i h => (N.of_nat i + 1, h)) with (fun (i : nat) (h : bytes) => (N.of_nat (0 + i) + 1, h)).
      generalize 0%nat. induction l as [|h l IH]; intros b; cbn; [constructor|].
      constructor.
      - specialize (IH (S b)).
        erewrite imap_ext; [exact IH|]. intros i x _. cbn. f_equal. lia.
      - apply Forall_forall. intros x Hx. apply elem_of_lookup_imap in Hx as (i & y & -> & _). cbn. lia. }
    assert (Hnd1 : NoDup l1).
    { clear -Hss1. induction Hss1 as [|a l9 Hs IH Hf]; constructor; [|done].
      intros Hin. rewrite Forall_forall in Hf. specialize (Hf a Hin). lia. }
    assert (Hp : merge_sort R l0 ≡ₚ l1).
    { rewrite merge_sort_Permutation. apply NoDup_Permutation; [done..|]. intros x. symmetry. apply Hl1. }
    assert (Hsort : StronglySorted R (merge_sort R l0)).
    { assert (Total R).
      { intros x y. unfold R. destruct (N.leb_spec x.1 y.1); [left; done|right].
        apply Is_true_eq_left. apply N.leb_le. lia. }
      assert (Transitive R).
      { intros x y z. unfold R. intros H1 H2. apply Is_true_eq_true in H1, H2.
        apply Is_true_eq_left. apply N.leb_le. apply N.leb_le in H1, H2. lia. }
      apply StronglySorted_merge_sort; done. }
    (* a strictly sorted list is the only sorted permutation of itself *)
    assert (Huniq : ∀ a b : list (N * bytes), StronglySorted R a → StronglySorted (fun x y : N * bytes => x.1 < y.1) b →
              a ≡ₚ b → a = b).
    { clear. intros a b Ha. revert b. induction Ha as [|x a Ha IH Hf]; intros b Hb Hab.
      - apply Permutation_nil in Hab. done.
      - destruct Hb as [|y b Hb Hfb]; [symmetry in Hab; apply Permutation_nil in Hab; done|].
        assert (x = y) as ->.
        { assert (Hy : y ∈ x :: a) by (rewrite Hab; left).
          assert (Hx : x ∈ y :: b) by (rewrite <- Hab; left).
          apply elem_of_cons in Hy as [->|Hy]; [done|]. apply elem_of_cons in Hx as [->|Hx]; [done|].
          rewrite Forall_forall in Hf, Hfb. specialize (Hf y Hy). specialize (Hfb x Hx).
          apply Is_true_eq_true in Hf. apply N.leb_le in Hf. lia. }
        f_equal. apply IH; [done|]. eapply Permutation_cons_inv. exact Hab. }
    apply Huniq; done. }
  rewrite E. unfold l1. clear.
  change (fun i h => (N.of_nat i + 1, h)) with (fun (i : nat) (h : bytes) => (N.of_nat (0 + i) + 1, h)).
  generalize 0%nat. induction l as [|h l IH]; intros b; cbn; [done|]. f_equal.
  transitivity (map snd (imap (fun (i : nat) (h : bytes) => (N.of_nat (S b + i) + 1, h)) l)); [|apply IH].
  f_equal. apply imap_ext. intros i x _. cbn. f_equal. lia.
Qed.

(** ** What the state says about one block of the chain *)
Definition tx_place (st : istate) (bh : bytes) (n : N) (i : nat) (t : itx) (e : ientry) (cum : N) : Prop :=
  i_tx st !! it_hash t = Some (mkRtx t bh n (N.of_nat i + 1)) ∧
  i_by_index st !! (n, N.of_nat i + 1) = Some (it_hash t) ∧
  i_receipt st !! it_hash t =
    Some (mkReceipt (e_ok e) (u64 cum) (e_gas e) (lbloom (e_logs e)) (e_logs e) (N.of_nat i + 1) (it_price t) (e_contract e)).

Definition block_view (st : istate) (b : iblock) (h : header) : Prop :=
  i_header st !! ib_height b = Some h ∧
  hd_number h = ib_height b ∧
  hd_bloom h = ⋃ (map (fun te => lbloom (e_logs te.2)) (eth_entries b)) ∧
  i_number st !! header_hash h = Some (ib_height b) ∧
  (∀ i t e, eth_entries b !! i = Some (t, e) →
    tx_place st (header_hash h) (ib_height b) i t e
      (nsum (map (fun te => e_gas te.2) (take (S i) (eth_entries b))))) ∧
  (∀ k x, i_by_index st !! (ib_height b, k) = Some x →
     ∃ i t e, eth_entries b !! i = Some (t, e) ∧ k = N.of_nat i + 1).

Lemma create_bloom_eq idx cum l :
  create_bloom bloom_bits (receipts_from idx cum l) = ⋃ (map (fun te => lbloom (e_logs te.2)) l).
Proof.
  unfold create_bloom. revert idx cum. induction l as [|[t e] l IH]; intros; cbn; [done|].
  rewrite IH. done.
Qed.

Lemma indexable_entry b : indexable b ↔ ∀ e, e ∈ ib_entries b → entry_ok e.
Proof. done. Qed.

Lemma index_block_ok b st :
  indexable b →
  index_block bloom_bits header_hash b st =
  (let l := eth_entries b in
   let rs := receipts_from 0 0 l in
   let h := mkHeader (ib_height b) (create_bloom bloom_bits rs) (parent_hash header_hash st (ib_height b)) (ib_rest b) in
   let st2 := store_loop (map fst l) rs (header_hash h) (ib_height b)
      (mkI (i_tx st) (i_receipt st) (i_header st) (i_by_index st) (i_number st)
       (to_cosmos_all l (i_to_cosmos st)) (of_cosmos_all l (i_of_cosmos st))) in
   (mkI (i_tx st2) (i_receipt st2) (<[ib_height b := h]> (i_header st)) (i_by_index st2)
           (<[header_hash h := ib_height b]> (i_number st)) (to_cosmos_all l (i_to_cosmos st)) (of_cosmos_all l (i_of_cosmos st)),
    Some (h, emit_loop 0 (map fst l) rs (header_hash h) (ib_height b)))).
Proof.
  intros Hix. unfold index_block. rewrite index_loop_ok by exact Hix. cbn [app].
  change (ee (ib_entries b)) with (eth_entries b). cbn zeta. cbv zeta.
  set (st1 := mkI (i_tx st) (i_receipt st) (i_header st) (i_by_index st) (i_number st) (to_cosmos_all _ _) (of_cosmos_all _ _)).
  change (parent_hash header_hash st1 (ib_height b)) with (parent_hash header_hash st (ib_height b)).
  set (h := mkHeader (ib_height b) _ _ _).
  destruct (store_loop_other (map fst (eth_entries b)) (receipts_from 0 0 (eth_entries b)) (header_hash h) (ib_height b) st1)
    as (E1 & E2 & E3 & E4). rewrite E1, E2, E3, E4. done.
Qed.

(** Keys of the state belong to blocks up to [n] and to the transactions [hs]. *)
Definition within (st : istate) (n : N) (hs : list bytes) : Prop :=
  (∀ m k x, i_by_index st !! (m, k) = Some x → m ≤ n) ∧
  (∀ m h, i_header st !! m = Some h → m ≤ n ∧ hd_number h = m) ∧
  (∀ h x, i_tx st !! h = Some x → h ∈ hs) ∧
  (∀ bh m, i_number st !! bh = Some m → ∃ h, i_header st !! m = Some h ∧ header_hash h = bh).


Lemma index_block_new b st n hs :
  indexable b → NoDup (map (fun te => it_hash te.1) (eth_entries b)) →
  within st n hs → ib_height b = n + 1 →
  ∃ h, index_block bloom_bits header_hash b st =
         ((index_block bloom_bits header_hash b st).1,
          Some (h, emit_loop 0 (map fst (eth_entries b)) (receipts_from 0 0 (eth_entries b)) (header_hash h) (ib_height b))) ∧
       block_view (index_block bloom_bits header_hash b st).1 b h ∧
       hd_parent h = parent_hash header_hash st (ib_height b) ∧
       within (index_block bloom_bits header_hash b st).1 (n + 1)
          (hs ++ map (fun te => it_hash te.1) (eth_entries b)).
Proof.
  intros Hix Hnd (W1 & W2 & W3 & W4) Hn.
  rewrite (index_block_ok b st Hix). cbv zeta. cbn [fst snd].
  set (l := eth_entries b) in *.
  set (rs := receipts_from 0 0 l).
  set (h := mkHeader (ib_height b) _ _ _).
  set (st1 := mkI (i_tx st) (i_receipt st) (i_header st) (i_by_index st) (i_number st) (to_cosmos_all _ _) (of_cosmos_all _ _)).
  exists h. split; [done|].
  assert (Hnd' : NoDup (map it_hash (map fst l))).
  { rewrite map_map. done. }
  assert (Hrs : ∀ i t e, l !! i = Some (t, e) → ∃ r, rs !! i = Some r ∧ rc_index r = N.of_nat i + 1 ∧
     r = mkReceipt (e_ok e) (u64 (nsum (map (fun te => e_gas te.2) (take (S i) l)))) (e_gas e)
     (lbloom (e_logs e)) (e_logs e) (N.of_nat i + 1) (it_price t) (e_contract e)).
  { intros i t e Hi. unfold rs. rewrite (receipts_from_lookup _ _ _ _ _ _ Hi).
    eexists; split; [reflexivity|]. cbn -[nsum take]. rewrite !N.add_0_l.
    split; [lia|reflexivity]. }
  assert (Hkeys : ∀ k, k ∈ map rc_index rs → ∃ i t e, l !! i = Some (t, e) ∧ k = N.of_nat i + 1).
  { intros k Hk. unfold rs in Hk. apply receipts_index_in in Hk as (i & Hi & ->).
    apply lookup_lt_is_Some in Hi as [[t e] Hi]. exists i, t, e. split; [done|lia]. }
  split; [|split].
  - split; [|split; [|split; [|split; [|split]]]]; cbn [i_header i_number i_tx i_receipt i_by_index].
    + rewrite lookup_insert. done.
    + done.
    + cbn. unfold rs. rewrite create_bloom_eq. done.
    + rewrite lookup_insert. done.
    + intros i t e Hi. fold l in Hi. fold l. destruct (Hrs i t e Hi) as (r & Hr & Hri & Er).
      assert (Ht : map fst l !! i = Some t) by (rewrite list_lookup_fmap, Hi; done).
      destruct (store_loop_tx (map fst l) rs (header_hash h) (ib_height b) st1 i t r Hnd' Ht Hr) as [H1 H2].
      pose proof (store_loop_ix (map fst l) rs (header_hash h) (ib_height b) st1 i t r
                    (receipts_index_nodup _ _ _) Ht Hr) as H3.
      rewrite Hri in H1, H3. split; [|split]; cbn [i_tx i_receipt i_by_index].
      * exact H1.
      * exact H3.
      * rewrite H2, Er. reflexivity.
    + intros k x Hx.
      destruct (decide (k ∈ map rc_index rs)) as [Hk|Hk]; [auto|].
      rewrite store_loop_ix_ne in Hx by auto. cbn in Hx. apply W1 in Hx. lia.
  - done.
  - split; [|split; [|split]]; cbn [i_header i_number i_tx i_receipt i_by_index].
    + intros m k x Hx. destruct (decide (m = ib_height b)) as [->|Hm]; [lia|].
      rewrite store_loop_ix_ne in Hx by auto. cbn in Hx. apply W1 in Hx. lia.
    + intros m h' Hh. destruct (decide (m = ib_height b)) as [->|Hm].
      * rewrite lookup_insert in Hh. injection Hh as <-. cbn. lia.
      * rewrite lookup_insert_ne in Hh by done. apply W2 in Hh. lia.
    + intros x y Hx. rewrite elem_of_app.
      destruct (decide (x ∈ map it_hash (map fst l))) as [Hin|Hin].
      * right. rewrite map_map in Hin. done.
      * destruct (store_loop_tx_ne (map fst l) rs (header_hash h) (ib_height b) st1 x Hin) as [H1 _].
        rewrite H1 in Hx. left. eapply W3. exact Hx.
    + intros bh m Hm. destruct (decide (header_hash h = bh)) as [<-|Hb].
      * rewrite lookup_insert in Hm. injection Hm as <-. exists h. rewrite lookup_insert. done.
      * rewrite lookup_insert_ne in Hm by done. apply W4 in Hm as (h' & Hh' & <-).
        exists h'. split; [|done]. rewrite lookup_insert_ne; [done|].
        intros <-. apply W2 in Hh'. lia.
Qed.

Lemma index_block_frame b st n hs b0 h0 :
  indexable b → within st n hs → ib_height b = n + 1 →
  (∀ x, x ∈ hs → x ∉ map (fun te => it_hash te.1) (eth_entries b)) →
  (∀ te, te ∈ eth_entries b0 → it_hash te.1 ∈ hs) →
  (∀ h, i_header (index_block bloom_bits header_hash b st).1 !! ib_height b = Some h → header_hash h = header_hash h0 → h = h0) →
  block_view st b0 h0 →
  block_view (index_block bloom_bits header_hash b st).1 b0 h0.
Proof.
  intros Hix (W1 & W2 & W3 & W4) Hn Hdis Hin Hcol (V1 & V2 & V3 & V4 & V5 & V6).
  rewrite (index_block_ok b st Hix) in Hcol |- *. cbv zeta in Hcol |- *. cbn [fst snd] in Hcol |- *.
  set (l := eth_entries b) in *.
  set (rs := receipts_from 0 0 l).
  set (h := mkHeader (ib_height b) _ _ _).
  set (st1 := mkI (i_tx st) (i_receipt st) (i_header st) (i_by_index st) (i_number st) (to_cosmos_all _ _) (of_cosmos_all _ _)).
  assert (Hlt : ib_height b0 ≤ n) by (apply W2 in V1; lia).
  split; [|split; [|split; [|split; [|split]]]]; cbn [i_header i_number i_tx i_receipt i_by_index].
  - rewrite lookup_insert_ne by lia. done.
  - done.
  - done.
  - rewrite lookup_insert_ne; [done|]. intros E. apply Hcol in E; [|cbn [i_header]; by rewrite lookup_insert]. subst h0. cbn in V2. lia.
  - intros i t e Hi. destruct (V5 i t e Hi) as (P1 & P2 & P3).
    assert (Ht : it_hash t ∉ map it_hash (map fst l)).
    { rewrite map_map. apply Hdis. apply (Hin (t, e)). eapply elem_of_list_lookup_2; eauto. }
    destruct (store_loop_tx_ne (map fst l) rs (header_hash h) (ib_height b) st1 _ Ht) as [E1 E2].
    split; [|split]; cbn [i_tx i_receipt i_by_index].
    + rewrite E1. exact P1.
    + rewrite store_loop_ix_ne by (left; lia). exact P2.
    + rewrite E2. exact P3.
  - intros k x Hx. rewrite store_loop_ix_ne in Hx by (left; lia). eapply V6. exact Hx.
Qed.

Definition chain_hashes (bs : list iblock) : list bytes :=
  bs ≫= fun b => map (fun te => it_hash te.1) (eth_entries b).

Lemma bind_app {A B} (l1 l2 : list A) (f : A → list B) : (l1 ++ l2) ≫= f = (l1 ≫= f) ++ (l2 ≫= f).
Proof. induction l1; cbn; [done|]. rewrite IHl1, app_assoc. done. Qed.

Lemma plain_chain_snoc bs b : chain (bs ++ [b]) →
  chain bs ∧ ib_height b = N.of_nat (length bs) + 1 ∧ indexable b ∧
  NoDup (map (fun te => it_hash te.1) (eth_entries b)) ∧
  (∀ x, x ∈ chain_hashes bs → x ∉ map (fun te => it_hash te.1) (eth_entries b)).
Proof.
  intros [H1 H2 H3]. rewrite bind_app in H3. cbn in H3. rewrite app_nil_r in H3.
  apply NoDup_app in H3 as (N1 & N2 & N3). split; [|split; [|split; [|split]]].
  - split.
    + intros i b0 Hi. apply H1. rewrite lookup_app_l; [done|]. eapply lookup_lt_Some; eauto.
    + intros b0 Hb. apply H2. apply elem_of_app. auto.
    + done.
  - apply H1. rewrite lookup_app_r by lia. rewrite Nat.sub_diag. done.
  - apply H2. apply elem_of_app. right. left.
  - done.
  - exact N2.
Qed.

Definition chain_view (bs : list iblock) (st : istate) : Prop :=
  within st (N.of_nat (length bs)) (chain_hashes bs) ∧
  (∀ (i : nat) b, bs !! i = Some b → ∃ h, block_view st b h ∧
     hd_parent h = match i with O => zero_hash
                   | S i' => match i_header st !! N.of_nat i with Some p => header_hash p | None => zero_hash end end).

Lemma index_blocks_snoc bs b :
  index_blocks bloom_bits header_hash (bs ++ [b]) =
  (index_block bloom_bits header_hash b (index_blocks bloom_bits header_hash bs)).1.
Proof. unfold index_blocks. rewrite fold_left_app. done. Qed.

Lemma headers_below bs : chain bs → ∀ m h, i_header (index_blocks bloom_bits header_hash bs) !! m = Some h → m ≤ N.of_nat (length bs).
Proof.
  induction bs as [|b bs IH] using rev_ind; intros Hc m h Hh; [done|].
  destruct (plain_chain_snoc _ _ Hc) as (Hc' & Hb & Hix & _). rewrite index_blocks_snoc, (index_block_ok _ _ Hix) in Hh.
  cbv zeta in Hh. cbn [fst i_header] in Hh. rewrite app_length. cbn [length]. destruct (decide (m = ib_height b)) as [->|Hm]; [lia|].
  rewrite lookup_insert_ne in Hh by done. specialize (IH Hc' m h Hh). lia.
Qed.
Lemma headers_kept bs b m h : chain (bs ++ [b]) → i_header (index_blocks bloom_bits header_hash bs) !! m = Some h →
  i_header (index_blocks bloom_bits header_hash (bs ++ [b])) !! m = Some h.
Proof.
  intros Hc Hh. destruct (plain_chain_snoc _ _ Hc) as (Hc' & Hb & Hix & _). pose proof (headers_below bs Hc' m h Hh).
  rewrite index_blocks_snoc, (index_block_ok _ _ Hix). cbv zeta. cbn [fst i_header]. by rewrite lookup_insert_ne by lia.
Qed.
Notation sound := (sound_chain bloom_bits header_hash).
Lemma chain_snoc bs b : sound (bs ++ [b]) →
  sound bs ∧ ib_height b = N.of_nat (length bs) + 1 ∧ indexable b ∧
  NoDup (map (fun te => it_hash te.1) (eth_entries b)) ∧
  (∀ x, x ∈ chain_hashes bs → x ∉ map (fun te => it_hash te.1) (eth_entries b)).
Proof.
  intros [Hc Hs]. destruct (plain_chain_snoc _ _ Hc) as (Hc' & H). split; [|exact H]. split; [exact Hc'|].
  intros n m h h' Hn Hm. apply (Hs n m); by apply headers_kept.
Qed.

Lemma chain_view_ok bs : sound bs → chain_view bs (index_blocks bloom_bits header_hash bs).
Proof.
  induction bs as [|b bs IH] using rev_ind; intros Hc.
  - split; [|intros i b Hi; done]. unfold index_blocks; cbn.
    split; [|split; [|split]]; intros; done.
  - destruct (chain_snoc _ _ Hc) as (Hc' & Hh & Hix & Hnd & Hdis).
    destruct (IH Hc') as [HW HV]. pose proof (sc_hashes _ _ _ Hc) as Hcol.
    assert (Hkept := fun m h => headers_kept bs b m h Hc). rewrite index_blocks_snoc in Hcol, Hkept. rewrite index_blocks_snoc.
    set (st := index_blocks bloom_bits header_hash bs) in *.
    destruct (index_block_new b st _ _ Hix Hnd HW Hh) as (h & _ & Hview & Hpar & HW').
    split.
    + unfold chain_hashes. rewrite bind_app. cbn [mbind list_bind]. rewrite app_nil_r.
      rewrite app_length. cbn [length].
      replace (N.of_nat (length bs + 1)) with (N.of_nat (length bs) + 1) by lia. exact HW'.
    + intros i b0 Hi. destruct (decide (i < length bs)%nat) as [Hlt|Hge].
      * rewrite lookup_app_l in Hi by done. destruct (HV i b0 Hi) as (h0 & Hv & Hp).
        exists h0. split.
        -- eapply index_block_frame; eauto.
           2: { intros h1 Hh1 E. eapply (Hcol _ _ _ _ Hh1); [apply Hkept, Hv|exact E]. }
           intros te Hte. unfold chain_hashes. apply elem_of_list_bind. exists b0.
           split; [|eapply elem_of_list_lookup_2; eauto].
           apply elem_of_list_fmap. exists te. done.
        -- rewrite Hp. destruct i as [|i']; [done|].
           rewrite (index_block_ok b st Hix). cbv zeta. cbn [fst i_header].
           rewrite lookup_insert_ne; [done|]. lia.
      * assert (i = length bs) as ->.
        { apply lookup_lt_Some in Hi. rewrite app_length in Hi. cbn in Hi. lia. }
        rewrite lookup_app_r, Nat.sub_diag in Hi by lia. injection Hi as <-.
        exists h. split; [done|]. rewrite Hpar, Hh. unfold parent_hash.
        destruct (length bs) as [|k] eqn:El.
        -- cbn. done.
        -- destruct (N.ltb_spec 1 (N.of_nat (S k) + 1)) as [_|]; [|lia].
           replace (N.of_nat (S k) + 1 - 1) with (N.of_nat (S k)) by lia.
           rewrite (index_block_ok b st Hix). cbv zeta. cbn [fst i_header].
           rewrite lookup_insert_ne by lia. done.
Qed.

(** ** Readers on a block that is in view *)
Local Arguments tx_by_hash : simpl never.
Local Arguments receipt_by_hash : simpl never.
Lemma view_hashes st b h : block_view st b h →
  block_hashes st (ib_height b) = map (fun te => it_hash te.1) (eth_entries b).
Proof.
  intros (V1 & V2 & V3 & V4 & V5 & V6). apply block_hashes_spec. intros k x. split.
  - intros Hx. destruct (V6 k x Hx) as (i & t & e & Hi & ->). exists i. split; [|done].
    destruct (V5 i t e Hi) as (_ & P & _). rewrite P in Hx. injection Hx as <-.
    rewrite list_lookup_fmap, Hi. done.
  - intros (i & Hi & ->). rewrite list_lookup_fmap in Hi.
    destruct (eth_entries b !! i) as [[t e]|] eqn:E; [|done]. injection Hi as <-.
    apply (V5 i t e E).
Qed.

Lemma mapM_lookup {A B} (f : A → option B) (l : list A) (g : nat → A → B) :
  (∀ i x, l !! i = Some x → f x = Some (g i x)) → mapM f l = Some (imap g l).
Proof.
  revert g. induction l as [|x l IH]; intros g H; cbn; [done|].
  rewrite (H 0%nat x eq_refl). cbn. rewrite (IH (fun i => g (S i))); [done|].
  intros i y Hy. apply (H (S i) y). exact Hy.
Qed.

Lemma imap_map {A B C} (f : nat → B → C) (g : A → B) l : imap f (map g l) = imap (fun i x => f i (g x)) l.
Proof. revert f. induction l as [|x l IH]; intros f; cbn; [done|]. f_equal. rewrite IH. done. Qed.
Lemma map_imap_ {A B C} (f : nat → A → B) (g : B → C) l : map g (imap f l) = imap (fun i x => g (f i x)) l.
Proof. revert f. induction l as [|x l IH]; intros f; cbn; [done|]. f_equal. rewrite IH. done. Qed.

Lemma view_txs st b h : block_view st b h →
  block_txs st (ib_height b) =
  Some (imap (fun i te => mkRtx te.1 (header_hash h) (ib_height b) (N.of_nat i + 1)) (eth_entries b)).
Proof.
  intros V. unfold block_txs. rewrite (view_hashes _ _ _ V). destruct V as (V1 & V2 & V3 & V4 & V5 & V6).
  revert V5. generalize (eth_entries b) at 1 2 3 4. intros l V5.
  assert (G : ∀ k (l' : list (itx * ientry)), (∀ i t e, l' !! i = Some (t, e) →
             tx_by_hash st (it_hash t) = Some (mkRtx t (header_hash h) (ib_height b) (N.of_nat (k + i) + 1))) →
     mapM (tx_by_hash st) (map (fun te => it_hash te.1) l') =
     Some (imap (fun i te => mkRtx te.1 (header_hash h) (ib_height b) (N.of_nat (k + i) + 1)) l')).
  { intros k l'. revert k. induction l' as [|[t e] l' IH]; intros k H; cbn; [done|].
    rewrite (H 0%nat t e eq_refl). cbn. rewrite (IH (S k)).
    - cbn. f_equal. f_equal. apply imap_ext. intros i x _. cbn. f_equal. lia.
    - intros i t' e' Hi. rewrite (H (S i) t' e' Hi). f_equal. f_equal. lia. }
  apply (G 0%nat). intros i t e Hi. apply (V5 i t e Hi).
Qed.

Definition view_receipt (b : iblock) (i : nat) (te : itx * ientry) : receipt :=
  mkReceipt (e_ok te.2) (u64 (nsum (map (fun te => e_gas te.2) (take (S i) (eth_entries b))))) (e_gas te.2)
    (lbloom (e_logs te.2)) (e_logs te.2) (N.of_nat i + 1) (it_price te.1) (e_contract te.2).

Lemma view_receipts st b h : block_view st b h →
  block_receipts st (ib_height b) = Some (imap (view_receipt b) (eth_entries b)).
Proof.
  intros V. unfold block_receipts. rewrite (view_hashes _ _ _ V). destruct V as (V1 & V2 & V3 & V4 & V5 & V6).
  assert (H : ∀ i t e, eth_entries b !! i = Some (t, e) →
             receipt_by_hash st (it_hash t) = Some (view_receipt b i (t, e))).
  { intros i t e Hi. apply (V5 i t e Hi). }
  clear -H. revert H. generalize (view_receipt b). generalize (eth_entries b).
  intros l. induction l as [|[t e] l IH]; intros g H; cbn; [done|].
  rewrite (H 0%nat t e eq_refl). cbn. rewrite (IH (fun i => g (S i))); [done|].
  intros i t' e' Hi. apply (H (S i)). exact Hi.
Qed.

Lemma view_logs st b h : block_view st b h →
  logs_by_height header_hash st (ib_height b) = Some (chain_logs 1 (header_hash h) b).
Proof.
  intros V. unfold logs_by_height, header_by_number. rewrite (view_txs _ _ _ V).
  destruct V as (V1 & V2 & V3 & V4 & V5 & V6). rewrite V1.
  assert (H : ∀ i t e, eth_entries b !! i = Some (t, e) →
             ∃ r, receipt_by_hash st (it_hash t) = Some r ∧ rc_logs r = e_logs e ∧ rc_index r = N.of_nat i + 1).
  { intros i t e Hi. destruct (V5 i t e Hi) as (_ & _ & P). eexists; split; [exact P|]. done. }
  unfold chain_logs. clear -H. revert H.
  generalize (eth_entries b). intros l H.
  set (g := fun i (te : itx * ientry) => place_logs (e_logs te.2) (header_hash h) (ib_height b) (it_hash te.1) (N.of_nat i + 1)).
  assert (E : mapM (fun t : rtx => (fun r => place_logs (rc_logs r) (header_hash h) (ib_height b) (it_hash (rt_tx t)) (rc_index r))
               <$> receipt_by_hash st (it_hash (rt_tx t)))
      (imap (fun i te => mkRtx te.1 (header_hash h) (ib_height b) (N.of_nat i + 1)) l) = Some (imap g l)).
  { unfold g. clear g. revert H.
    assert (G : ∀ k, (∀ i t e, l !! i = Some (t, e) →
             ∃ r, receipt_by_hash st (it_hash t) = Some r ∧ rc_logs r = e_logs e ∧ rc_index r = N.of_nat (k + i) + 1) →
       mapM (fun t : rtx => (fun r => place_logs (rc_logs r) (header_hash h) (ib_height b) (it_hash (rt_tx t)) (rc_index r))
               <$> receipt_by_hash st (it_hash (rt_tx t)))
        (imap (fun i te => mkRtx te.1 (header_hash h) (ib_height b) (N.of_nat (k + i) + 1)) l) =
        Some (imap (fun i te => place_logs (e_logs te.2) (header_hash h) (ib_height b) (it_hash te.1) (N.of_nat (k + i) + 1)) l)).
    { induction l as [|[t e] l IH]; intros k H; cbn; [done|].
      destruct (H 0%nat t e eq_refl) as (r & Hr & Hl & Hi). rewrite Hr. cbn. rewrite Hl, Hi.
      assert (Ht : ∀ i, N.of_nat (k + S i) + 1 = N.of_nat (S k + i) + 1) by (intros; lia).
      erewrite (imap_ext (_ ∘ S)); [|intros i x _; cbn; rewrite Ht; reflexivity].
      rewrite (IH (S k)).
      - cbn. f_equal. f_equal. apply imap_ext. intros i x _. cbn. rewrite Ht. done.
      - intros i t' e' Hx. destruct (H (S i) t' e' Hx) as (r' & A1 & A2 & A3).
        exists r'. rewrite A3. split; [done|split; [done|]]. lia. }
    apply (G 0%nat). }
  etransitivity; [|].
  { apply (f_equal (fun o => mjoin <$> o) E). }
  cbn. f_equal.
Qed.
End p.
