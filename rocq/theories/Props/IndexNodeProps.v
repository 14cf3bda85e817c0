(** C110, C111: the index over stops, restarts and rollbacks of a node. *)
From stdpp Require Import sorting.
From Verif.Base Require Import Prelude.
From Verif.Model Require Import EthLog Indexer IndexNode.
From Verif.Spec Require Import IndexerSpec.
From Verif.Proofs Require Import IndexerP.
From Verif.Props Require Import LogProps.
Open Scope N_scope.

Section props.
(** For every Bloom hash and every block hash function. *)
Variable bloom_bits : bytes → list N.
Variable header_hash : header → bytes.
Notation sound := (sound_chain bloom_bits header_hash).
Notation indexed := (index_blocks bloom_bits header_hash).
Notation step := (nstep bloom_bits header_hash).
Notation safe := (nstep_safe bloom_bits header_hash).

(** The safe steps are steps. *)
Lemma safe_step n n' : safe n n' → step n n'.
Proof. destruct 1; econstructor; eauto. Qed.

Lemma index_some b st st' ev : index_block bloom_bits header_hash b st = (st', Some ev) → indexable b.
Proof.
  unfold index_block. pose proof (index_loop_some bloom_bits (ib_entries b) st 0 0 [] []) as H.
  destruct (index_loop bloom_bits (ib_entries b) st 0 0 [] []) as [st1 [[txs rs]|]]; [|done]. intros _. exact (H _ eq_refl).
Qed.
Lemma index_fst b st st' ev : index_block bloom_bits header_hash b st = (st', Some ev) → st' = (index_block bloom_bits header_hash b st).1.
Proof. by intros ->. Qed.

(** What is in memory and on disk in each phase. *)
Definition in_step (n : inode) : Prop :=
  (∀ (i : nat) b, in_app n !! i = Some b → ib_height b = N.of_nat i + 1 ∧ indexable b) ∧
  match in_phase n with
  | PIdle => in_mem n = indexed (in_app n) ∧ in_disk n = indexed (in_app n)
  | PFinal b => in_mem n = indexed (in_app n ++ [b]) ∧ in_disk n = indexed (in_app n) ∧
                ib_height b = N.of_nat (length (in_app n)) + 1 ∧ indexable b
  | PCommitted => ∃ bs b, in_app n = bs ++ [b] ∧ in_mem n = indexed (in_app n) ∧ in_disk n = indexed bs
  end.
Lemma in_step_ok n : rtc safe in_start n → in_step n.
Proof.
  revert n. apply (rtc_ind_r in_step in_start); [split; done|]. intros n1 n2 _ H2 IH.
  destruct H2 as [app d m dec b m' ev Hh _ Hi|app d m dec b|app d m dec|app d m ph dec Hp]; destruct IH as [I1 I2]; unfold in_step; cbn [in_app in_mem in_disk in_phase in_decided] in *.
  - destruct I2 as [-> ->]. split; [done|]. rewrite index_blocks_snoc. apply index_fst in Hi as E. apply index_some in Hi. subst m'. done.
  - destruct I2 as (-> & -> & Hh & Hb). split; [|eauto]. intros i b0 Hi. apply lookup_app_Some in Hi as [Hi|[Hi Hb0]]; [auto|].
    apply list_lookup_singleton_Some in Hb0 as [E <-]. split; [rewrite Hh; lia|done].
  - destruct I2 as (bs & b & -> & -> & _). done.
  - destruct ph as [|b|]; [| |done].
    + destruct I2 as [-> ->]. done.
    + destruct I2 as (_ & -> & _). done.
Qed.

(** ** C110 *)
(** The blocks a reader may expect: the committed ones, and the one being finalised. *)
Definition seen (n : inode) : list iblock := match in_phase n with PFinal b => in_app n ++ [b] | _ => in_app n end.

(** After any history of blocks and stops that avoids the gap between the application's
    commit and the index write, every transaction of every block is found by hash and by
    position with its own block and receipt, provided no transaction is in the chain twice. *)
Theorem C110_index_follows_chain n (i : nat) b (j : nat) t e : rtc safe in_start n → NoDup (seen n ≫= λ b, map (λ te, it_hash te.1) (eth_entries b)) →
  no_collisions header_hash (in_mem n) →
  seen n !! i = Some b → eth_entries b !! j = Some (t, e) →
  let here := mkRtx t (hash_at header_hash (in_mem n) (N.of_nat i + 1)) (N.of_nat i + 1) (N.of_nat j + 1) in
  tx_by_hash (in_mem n) (it_hash t) = Some here ∧
  tx_by_block_index (in_mem n) (N.of_nat i + 1) (N.of_nat j + 1) = Some here ∧
  (∃ r, receipt_by_hash (in_mem n) (it_hash t) = Some r ∧ rc_ok r = (ie_code e =? 0) ∧ rc_gas r = Z.to_N (ie_gas e mod 2 ^ 64) ∧ rc_logs r = e_logs e) ∧
  (∃ h, header_by_number (in_mem n) (N.of_nat i + 1) = Some h ∧ hd_number h = N.of_nat i + 1).
Proof.
  intros Hr Hnd Hcol Hi Hj. pose proof (in_step_ok n Hr) as [I1 I2].
  assert (Hc0 : chain (seen n)).
  { assert (∀ (i0 : nat) b0, seen n !! i0 = Some b0 → ib_height b0 = N.of_nat i0 + 1 ∧ indexable b0) as K.
    { unfold seen. destruct (in_phase n) as [|b'|]; try done. destruct I2 as (_ & _ & Hh & Hb). intros i0 b0 Hi0.
      apply lookup_app_Some in Hi0 as [Hi0|[Hi0 Hb0]]; [auto|]. apply list_lookup_singleton_Some in Hb0 as [E <-]. split; [rewrite Hh; lia|done]. }
    split; [intros; by apply K| |exact Hnd]. intros b0 Hb0. apply elem_of_list_lookup in Hb0 as [i0 Hi0]. by eapply K. }
  assert (Em : in_mem n = indexed (seen n)).
  { unfold seen. destruct (in_phase n); [by destruct I2|by destruct I2|]. destruct I2 as (? & ? & _ & ? & _). done. }
  assert (Hc : sound (seen n)) by (split; [exact Hc0|by rewrite <- Em]).
  rewrite Em. pose proof (ch_heights _ Hc _ _ Hi) as Hh.
  destruct (C42_retrieval bloom_bits header_hash _ i b j t e Hc Hi Hj) as (A & B & _ & r & R & _ & R2 & R3 & _ & R5 & _).
  destruct (view_at bloom_bits header_hash _ i b Hc Hi) as (h & V & _). destruct V as (V1 & V2 & _).
  rewrite Hh in *. cbv zeta. split; [exact A|]. split; [exact B|]. split; [eauto 10|]. eauto.
Qed.
(** A stop before the application's commit loses nothing: the block comes again, and the
    index is then the one of a node that was never stopped. *)
Theorem C110_stop_before_commit n n1 n2 b : rtc safe in_start n → in_phase n = PFinal b → safe n n1 → in_phase n1 = PIdle →
  safe n1 n2 → in_phase n2 = PFinal b ∨ in_phase n2 = PIdle ∧ in_mem n2 = in_mem n1.
Proof.
  intros Hr Hp H1 Hp1 H2. pose proof (in_step_ok n Hr) as I. destruct H1; cbn in *; try congruence. subst ph.
  assert (dec = Some b) as ->.
  { clear -Hr. pose (P := λ n, ∀ b0, in_phase n = PFinal b0 → in_decided n = Some b0).
    assert (P (INode app d m (PFinal b) dec)) as K; [|by apply K]. revert Hr. generalize (INode app d m (PFinal b) dec).
    apply (rtc_ind_r P in_start); [done|]. intros y z _ Hb IH. unfold P. destruct Hb; cbn; try done. by intros ? [= <-]. }
  inversion H2; subst; cbn.
  - left. match goal with H : Some _ = None ∨ Some _ = Some _ |- _ => destruct H as [|[= <-]]; done end.
  - right. done.
Qed.
Theorem C110_stops_do_not_show n n' : rtc safe in_start n → rtc safe in_start n' → in_phase n = PIdle → in_phase n' = PIdle →
  in_app n = in_app n' → in_mem n = in_mem n' ∧ in_disk n = in_disk n'.
Proof.
  intros H1 H2 P1 P2 E. pose proof (in_step_ok n H1) as [_ I1]. pose proof (in_step_ok n' H2) as [_ I2]. rewrite P1 in I1. rewrite P2 in I2.
  destruct I1 as [-> ->], I2 as [-> ->]. by rewrite E.
Qed.

(** ** C111 *)
Lemma step_app_mono n n' : step n n' → (∀ h : nat, in_app n' ≠ take h (in_app n) ∨ (length (in_app n) ≤ h)%nat) → (length (in_app n) ≤ length (in_app n'))%nat.
Proof. intros H. destruct H; cbn; rewrite ?app_length; try lia. intros Hn. destruct (Hn h) as [Hx|Hx]; [done|lia]. Qed.

(** Everything but a rollback. *)
Definition forward (n n' : inode) : Prop := step n n' ∧ (length (in_app n) ≤ length (in_app n'))%nat.
(** The block of height [k] is committed and not in the index. *)
Definition missing (k : N) (n : inode) : Prop :=
  k ≤ N.of_nat (length (in_app n)) ∧ i_header (in_mem n) !! k = None ∧ i_header (in_disk n) !! k = None.
Lemma index_header_ne b st k : k ≠ ib_height b → i_header (index_block bloom_bits header_hash b st).1 !! k = i_header st !! k.
Proof.
  intros Hk. unfold index_block.
  assert (∀ es st idx cum txs rs, i_header (index_loop bloom_bits es st idx cum txs rs).1 = i_header st) as Hl.
  { clear. induction es as [|e es IH]; intros; cbn; [done|]. destruct (ie_conv e); try done; try apply IH.
    destruct (extract_logs _ _ _) as [[? ?]|]; [|done]. by rewrite IH. }
  specialize (Hl (ib_entries b) st 0 0 [] []). destruct (index_loop _ _ _ _ _ _ _) as [st1 [[txs rs]|]]; cbn [fst snd] in *; [|by rewrite Hl].
  cbn. rewrite lookup_insert_ne by done. destruct (store_loop_other txs rs (header_hash (mkHeader (ib_height b) (create_bloom bloom_bits rs) (parent_hash header_hash st1 (ib_height b)) (ib_rest b))) (ib_height b) st1) as (E & _).
  by rewrite E, Hl.
Qed.
Lemma missing_forward k n n' : forward n n' → missing k n → missing k n'.
Proof.
  intros [H Hlen] (M1 & M2 & M3). destruct H as [app d m dec b m' ev Hh _ Hi|app d m dec b|app d m dec|app d m ph dec Hp|app d m dec|app d m dec i x Hx|app d m dec h Hh]; cbn in *; unfold missing; cbn.
  - apply index_fst in Hi. subst m'. rewrite index_header_ne by lia. done.
  - rewrite app_length. cbn. split; [lia|done].
  - done.
  - done.
  - done.
  - assert (i_header x !! k = None) as E; [|done]. destruct Hx as (H0 & _). unfold cut in H0. destruct i as [|i]; cbn in H0.
    + destruct (H0 k) as [-> | ->]; done.
    + by rewrite H0.
  - rewrite take_length in Hlen. lia.
Qed.
Lemma range_stops st c from k n : from ≤ k → header_by_number st k = None → (N.to_nat (k - from) ≤ n)%nat →
  range_logs bloom_bits header_hash st c from n = range_logs bloom_bits header_hash st c from (N.to_nat (k - from)).
Proof.
  revert from. induction n as [|n IH]; intros from Hk Hh Hn.
  { by replace (N.to_nat (k - from)) with 0%nat by lia. }
  destruct (decide (from = k)) as [->|Hne].
  - rewrite N.sub_diag. cbn. by rewrite Hh.
  - replace (N.to_nat (k - from)) with (S (N.to_nat (k - (from + 1)))) by lia. cbn [range_logs].
    destruct (header_by_number st from) as [h|]; [|done]. destruct (block_logs bloom_bits header_hash st c h); [|done].
    f_equal. apply IH; [lia|done|lia].
Qed.
Lemma committed_gap n : rtc safe in_start n → in_phase n = PCommitted →
  i_header (in_disk n) !! N.of_nat (length (in_app n)) = None.
Proof.
  intros Hr Hp. pose proof (in_step_ok n Hr) as [I1 I2]. rewrite Hp in I2. destruct I2 as (bs & b & E & _ & ->).
  rewrite E in *. rewrite app_length. cbn [length].
  assert (∀ l : list iblock, (∀ (i : nat) b, l !! i = Some b → ib_height b = N.of_nat i + 1) → ∀ k, N.of_nat (length l) < k → i_header (indexed l) !! k = None) as K.
  { clear. intros l. induction l as [|b l IH] using rev_ind; intros Hl k Hk; [done|]. rewrite app_length in Hk. cbn in Hk.
    rewrite index_blocks_snoc, index_header_ne.
    - apply IH; [|lia]. intros i b0 Hi. apply Hl. by apply lookup_app_l_Some.
    - rewrite (Hl (length l) b); [lia|]. by rewrite lookup_app_r, Nat.sub_diag by lia. }
  apply K; [|lia]. intros i b0 Hi. apply I1. by apply lookup_app_l_Some.
Qed.

(** A node stopped between the application's commit and the index write: whatever happens
    afterwards, short of a rollback, the block is never found, and every log query over a
    range that reaches it ends there, without an error, as if the chain did. *)
Theorem C111_block_lost_refuted n n1 n2 c from (len : nat) : rtc safe in_start n → in_phase n = PCommitted →
  let k := N.of_nat (length (in_app n)) in
  n1 = INode (in_app n) (in_disk n) (in_disk n) PIdle (in_decided n) →
  rtc forward n1 n2 →
  step n n1 ∧
  header_by_number (in_mem n2) k = None ∧
  (from ≤ k → (N.to_nat (k - from) ≤ len)%nat →
   range_logs bloom_bits header_hash (in_mem n2) c from len = range_logs bloom_bits header_hash (in_mem n2) c from (N.to_nat (k - from))).
Proof.
  intros Hr Hp k E1 Hf.
  assert (missing k n2) as (M1 & M2 & M3).
  { assert (missing k n1) as M.
    { subst n1. pose proof (committed_gap n Hr Hp) as G. unfold missing. cbn. subst k. done. }
    clear -Hf M. induction Hf as [|x y z Hxy _ IH]; [done|]. apply IH. by eapply missing_forward. }
  split; [subst n1; destruct n as [app d m ph dec]; cbn in *; subst ph; apply n_stop_after|]. split; [done|]. intros Hle Hlen. by apply range_stops.
Qed.
(** The index is written key by key: a stop in the middle can leave any set of the block's numbers
    and hashes written and the rest not. [hs]: heights whose header is as in the buffer. *)
Theorem C111_written_in_part_refuted n (hs : N → bool) : in_phase n = PCommitted →
  ∃ x, step n (INode (in_app n) x x PIdle (in_decided n)) ∧
    (∀ k, header_by_number x k = header_by_number (if hs k then in_mem n else in_disk n) k) ∧
    i_number x = i_number (in_disk n) ∧ i_tx x = i_tx (in_disk n) ∧ i_receipt x = i_receipt (in_disk n) ∧ i_by_index x = i_by_index (in_disk n).
Proof.
  destruct n as [app d m ph dec]. cbn. intros ->.
  set (hd := filter (λ kv, hs kv.1 = true) (i_header m) ∪ filter (λ kv, hs kv.1 = false) (i_header d)).
  assert (Hh : ∀ k, hd !! k = if hs k then i_header m !! k else i_header d !! k).
  { intros k. subst hd. rewrite lookup_union. destruct (hs k) eqn:Ek.
    - rewrite (map_filter_lookup_None_2 _ (i_header d)) by (right; intros ? _ ?; cbn in *; congruence).
      destruct (i_header m !! k) as [v|] eqn:Em.
      + rewrite (map_filter_lookup_Some_2 _ _ k v) by done. done.
      + rewrite (map_filter_lookup_None_2 _ (i_header m)) by (by left). done.
    - rewrite (map_filter_lookup_None_2 _ (i_header m)) by (right; intros ? _ ?; cbn in *; congruence).
      destruct (i_header d !! k) as [v|] eqn:Em.
      + rewrite (map_filter_lookup_Some_2 _ _ k v) by done. done.
      + rewrite (map_filter_lookup_None_2 _ (i_header d)) by (by left). done. }
  exists (mkI (i_tx d) (i_receipt d) hd (i_by_index d) (i_number d) (i_to_cosmos d) (i_of_cosmos d)).
  split; [|split; [|done]].
  - apply (n_stop_writing _ _ _ _ _ _ 0). unfold partly_written, cut. cbn. split_and!; try done.
    intros k. rewrite Hh. destruct (hs k); [by right|by left].
  - intros k. unfold header_by_number. cbn. rewrite Hh. by destruct (hs k).
Qed.
(** ... and none of its transactions is found by hash. *)
Theorem C111_transactions_lost_refuted n te : rtc safe in_start n → in_phase n = PCommitted →
  NoDup (in_app n ≫= λ b, map (λ te, it_hash te.1) (eth_entries b)) → no_collisions header_hash (in_mem n) →
  (∃ b, last (in_app n) = Some b ∧ te ∈ eth_entries b) →
  let n1 := INode (in_app n) (in_disk n) (in_disk n) PIdle (in_decided n) in
  step n n1 ∧ is_Some (tx_by_hash (in_mem n) (it_hash te.1)) ∧ tx_by_hash (in_mem n1) (it_hash te.1) = None.
Proof.
  intros Hr Hp Hnd Hcol (b & Hlast & Hte) n1. pose proof (in_step_ok n Hr) as I. pose proof I as [I1 I2]. rewrite Hp in I2.
  destruct I2 as (bs & b' & E & Em & Ed). rewrite E, last_snoc in Hlast. injection Hlast as ->.
  split; [subst n1; destruct n as [app d m ph dec]; cbn in *; subst ph; apply n_stop_after|]. split.
  - destruct te as [t e]. apply elem_of_list_lookup in Hte as [j Hj].
    assert (seen n = in_app n) as Es by (unfold seen; by rewrite Hp).
    destruct (C110_index_follows_chain n (length bs) b j t e Hr) as (A & _); [by rewrite Es|done| |done|cbn [fst]; rewrite A; eauto].
    by rewrite Es, E, lookup_app_r, Nat.sub_diag by lia.
  - subst n1. cbn [in_mem]. rewrite Ed. rewrite E in Hnd, I1.
    assert (Hc : sound (bs ++ [b])).
    { split; [|by rewrite <- E, <- Em]. split; [intros; by apply I1| |exact Hnd]. intros b0 Hb0. apply elem_of_list_lookup in Hb0 as [i0 Hi0]. by eapply I1. }
    destruct (chain_snoc _ _ _ _ Hc) as (Hc' & _ & _ & _ & Hdis). destruct (chain_view_ok bloom_bits header_hash bs Hc') as [(_ & _ & W3 & _) _].
    unfold tx_by_hash. destruct (i_tx (indexed bs) !! it_hash te.1) as [x|] eqn:Ex; [|done].
    apply W3 in Ex. apply Hdis in Ex. destruct Ex. apply elem_of_list_fmap. by exists te.
Qed.
(** A node stopped while it writes the index: the block may be there, its header filter
    naming its logs, and be shown without any transaction. *)
Theorem C111_empty_block_refuted n : rtc safe in_start n → in_phase n = PCommitted →
  NoDup (in_app n ≫= λ b, map (λ te, it_hash te.1) (eth_entries b)) → no_collisions header_hash (in_mem n) →
  let k := N.of_nat (length (in_app n)) in
  ∃ n1, step n n1 ∧ in_app n1 = in_app n ∧ header_by_number (in_mem n1) k = header_by_number (in_mem n) k ∧
        is_Some (header_by_number (in_mem n1) k) ∧ block_txs (in_mem n1) k = Some [].
Proof.
  intros Hr Hp Hnd Hcol k. pose proof (in_step_ok n Hr) as [I1 I2]. rewrite Hp in I2. destruct I2 as (bs & b & E & Em & Ed).
  assert (Hc : sound (bs ++ [b])).
  { rewrite E in *. split; [|by rewrite <- Em]. split; [intros; by apply I1| |exact Hnd]. intros b0 Hb0. apply elem_of_list_lookup in Hb0 as [i0 Hi0]. by eapply I1. }
  destruct n as [app d m ph dec]. cbn in *. subst ph app d m.
  set (d := indexed bs). set (m := indexed (bs ++ [b])).
  exists (INode (bs ++ [b]) (mkI (i_tx d) (i_receipt d) (i_header m) (i_by_index d) (i_number m) (i_to_cosmos d) (i_of_cosmos d))
                            (mkI (i_tx d) (i_receipt d) (i_header m) (i_by_index d) (i_number m) (i_to_cosmos d) (i_of_cosmos d)) PIdle dec).
  split.
  { apply n_stop_writing with (n := 2%nat). unfold partly_written, cut. cbn. split_and!; try done. intros x. by left. }
  split; [done|]. split; [done|]. destruct (chain_snoc _ _ _ _ Hc) as (Hc' & Hh & _). split.
  - destruct (view_at bloom_bits header_hash (bs ++ [b]) (length bs) b Hc) as (h & V & _); [by rewrite lookup_app_r, Nat.sub_diag by lia|].
    destruct V as (V1 & _). rewrite Hh in V1. subst k. rewrite app_length. cbn [length in_mem]. unfold header_by_number. cbn.
    replace (N.of_nat (length bs + 1)) with (N.of_nat (length bs) + 1) by lia. exists h. exact V1.
  - cbn [in_mem]. destruct (chain_view_ok bloom_bits header_hash bs Hc') as [(W1 & _) _]. unfold block_txs.
    replace (block_hashes _ k) with (@nil bytes); [done|]. symmetry. unfold block_hashes. cbn [i_by_index].
    replace (omap _ _) with (@nil (N * bytes)); [done|]. symmetry.
    assert (∀ l : list (N * N * bytes), (∀ a q x, (a, q, x) ∈ l → a < k) → omap (λ kv : N * N * bytes, if kv.1.1 =? k then Some (kv.1.2, kv.2) else None) l = []) as K.
    { clear. induction l as [|[[a q] x] l IH]; intros Hl; [done|]. cbn. assert (a < k) by (eapply Hl; left). destruct (N.eqb_spec a k); [lia|]. apply IH. intros. eapply Hl. right. done. }
    apply K. intros a q x Hx. apply elem_of_map_to_list in Hx. apply W1 in Hx. subst k. rewrite app_length. cbn. lia.
Qed.

(** ** Rollback *)
Lemma store_ix_stays txs rs bh h st i : (length txs < N.to_nat i)%nat → (∀ r, r ∈ rs → rc_index r ≤ N.of_nat (length txs)) →
  i_by_index (store_loop txs rs bh h st) !! (h, i) = i_by_index st !! (h, i).
Proof.
  intros Hi Hrs. apply store_loop_ix_ne. right. intros Hin. apply elem_of_list_fmap in Hin as (r & -> & Hr). apply Hrs in Hr. lia.
Qed.
(** A transaction of a removed block is still found after the rollback, and it stays, as
    part of the removed block, whatever blocks follow that do not contain it. *)
Theorem C111_rolled_back_found_refuted n h x r cs : in_phase n = PIdle → in_mem n = in_disk n → (0 < h < length (in_app n))%nat → 
  tx_by_hash (in_mem n) x = Some r →
  (∀ c te, c ∈ cs → te ∈ eth_entries c → it_hash te.1 ≠ x) →
  ∃ n1, step n n1 ∧ in_app n1 = take h (in_app n) ∧
    tx_by_hash (fold_left (λ st c, (index_block bloom_bits header_hash c st).1) cs (in_mem n1)) x = Some r.
Proof.
  destruct n as [app d m ph dec]. cbn. intros -> -> Hh Hx Hcs. eexists. split; [by apply n_rollback|]. split; [done|]. cbn.
  revert d Hx. induction cs as [|c cs IH]; intros d Hx; [done|]. cbn. apply IH; [intros; eapply Hcs; eauto; by right|].
  unfold tx_by_hash. unfold index_block.
  assert (∀ es st idx cum txs rs, (∀ t, t ∈ txs → it_hash t ≠ x) → (∀ te, te ∈ ee es → it_hash te.1 ≠ x) →
    i_tx (index_loop bloom_bits es st idx cum txs rs).1 = i_tx st ∧
    ∀ txs' rs', (index_loop bloom_bits es st idx cum txs rs).2 = Some (txs', rs') → ∀ t, t ∈ txs' → it_hash t ≠ x) as Hl.
  { clear. induction es as [|e es IH]; intros st idx cum txs rs Ht Hes; cbn [index_loop]; [split; [done|]; cbn; by intros ? ? [= <- <-]|].
    unfold ee in Hes. cbn in Hes. destruct (ie_conv e) as [| | |t]; try (apply IH; [done|exact Hes]); [done|].
    destruct (extract_logs _ _ _) as [[? ?]|]; [|done]. 
    match goal with |- context [index_loop _ es ?s ?i ?cu ?tt ?rr] => destruct (IH s i cu tt rr) as [A B] end.
    - intros t0 Ht0. apply elem_of_app in Ht0 as [|Ht0]; [auto|]. apply elem_of_list_singleton in Ht0 as ->. apply (Hes (t, e)). left.
    - intros te Hte. apply Hes. right. exact Hte.
    - rewrite A. split; [done|exact B]. }
  destruct (Hl (ib_entries c) d 0 0 [] []) as [A B]; [intros ? H0; inversion H0|intros te Hte; eapply (Hcs c); [left|exact Hte]|].
  destruct (index_loop bloom_bits (ib_entries c) d 0 0 [] []) as [st1 [[txs rs]|]]; cbn [fst snd] in *; [|by rewrite A].
  cbn. specialize (B _ _ eq_refl).
  match goal with |- context [store_loop txs rs ?bh ?hh st1] => destruct (store_loop_tx_ne txs rs bh hh st1 x) as [S1 _] end.
  { intros Hin. apply elem_of_list_fmap in Hin as (t & Et & Ht). by apply (B t Ht). }
  rewrite S1, A. exact Hx.
Qed.
(** The last block is rolled back and replaced by one with fewer Ethereum transactions: the
    new block is shown with transactions of the old one. *)
Theorem C111_ghost_refuted bs b c d0 (j : nat) te n : sound (bs ++ [b]) → (0 < length bs)%nat → ib_height c = ib_height b → indexable c →
  n = INode (bs ++ [b]) (indexed (bs ++ [b])) (indexed (bs ++ [b])) PIdle d0 →
  eth_entries b !! j = Some te → (length (eth_entries c) ≤ j)%nat →
  ∃ n1 n2 n3 n4, step n n1 ∧ step n1 n2 ∧ step n2 n3 ∧ step n3 n4 ∧ in_app n4 = bs ++ [c] ∧ in_phase n4 = PIdle ∧
    it_hash te.1 ∈ block_hashes (in_mem n4) (ib_height c).
Proof.
  intros Hc Hlen Hh Hix -> Hj Hle. set (st := indexed (bs ++ [b])).
  destruct (chain_snoc _ _ _ _ Hc) as (Hc' & Hhb & _).
  pose proof (index_block_ok bloom_bits header_hash c st Hix) as Hok. cbv zeta in Hok.
  set (ev := Some _) in Hok. destruct (index_block bloom_bits header_hash c st) as [st' ev'] eqn:Ei. injection Hok as Est Eev. subst ev.
  exists (INode bs st st PIdle None), (INode bs st st' (PFinal c) (Some c)), (INode (bs ++ [c]) st st' PCommitted None), (INode (bs ++ [c]) st' st' PIdle None).
  split. { pose proof (n_rollback bloom_bits header_hash (bs ++ [b]) st st d0 (length bs)) as Hrb. rewrite take_app in Hrb. apply Hrb. rewrite app_length. cbn. lia. }
  split. { eapply n_finalize; [by rewrite Hh|by left|]. rewrite Ei, Eev. done. }
  split; [apply n_commit|]. split; [apply n_write|]. split; [done|]. split; [done|]. cbn [in_mem].
  destruct te as [t e]. cbn [fst].
  assert (i_by_index st !! (ib_height c, N.of_nat j + 1) = Some (it_hash t)) as Hold.
  { destruct (view_at bloom_bits header_hash (bs ++ [b]) (length bs) b Hc) as (h & V & _); [by rewrite lookup_app_r, Nat.sub_diag by lia|].
    destruct V as (_ & _ & _ & _ & V5 & _). destruct (V5 j t e Hj) as (_ & P2 & _). rewrite Hh. exact P2. }
  assert (i_by_index st' !! (ib_height c, N.of_nat j + 1) = Some (it_hash t)) as Hnew.
  { rewrite Est. cbn [i_by_index]. rewrite store_loop_ix_ne; [exact Hold|]. right. intros Hin.
    apply receipts_index_in in Hin as (i & Hi & E). lia. }
  unfold block_hashes. apply elem_of_list_fmap. exists (N.of_nat j + 1, it_hash t). split; [done|].
  rewrite merge_sort_Permutation. apply elem_of_list_omap. exists (ib_height c, N.of_nat j + 1, it_hash t).
  split; [by apply elem_of_map_to_list|]. cbn. by rewrite N.eqb_refl.
Qed.

(** Every chain without repeated transactions is reached, at rest and just committed. *)
Theorem C110_reachable bs : chain bs → rtc safe in_start (INode bs (indexed bs) (indexed bs) PIdle None).
Proof.
  induction bs as [|b bs IH] using rev_ind; intros Hc; [done|].
  destruct (plain_chain_snoc _ _ Hc) as (Hc' & Hh & Hix & _). eapply rtc_transitive; [by apply IH|].
  pose proof (index_block_ok bloom_bits header_hash b (indexed bs) Hix) as Hok. cbv zeta in Hok.
  eapply rtc_l; [eapply ns_finalize; [exact Hh|by left|exact Hok]|]. eapply rtc_l; [apply ns_commit|].
  assert (E : indexed (bs ++ [b]) = (index_block bloom_bits header_hash b (indexed bs)).1) by apply index_blocks_snoc.
  rewrite Hok in E. cbn [fst] in E. rewrite <- E. apply rtc_once, ns_write.
Qed.
Theorem C111_reachable bs b : chain (bs ++ [b]) → rtc safe in_start (INode (bs ++ [b]) (indexed bs) (indexed (bs ++ [b])) PCommitted None).
Proof.
  intros Hc. destruct (plain_chain_snoc _ _ Hc) as (Hc' & Hh & Hix & _). eapply rtc_transitive; [by apply C110_reachable|].
  pose proof (index_block_ok bloom_bits header_hash b (indexed bs) Hix) as Hok. cbv zeta in Hok.
  assert (E : indexed (bs ++ [b]) = (index_block bloom_bits header_hash b (indexed bs)).1) by apply index_blocks_snoc.
  rewrite Hok in E. cbn [fst] in E.
  eapply rtc_l; [eapply ns_finalize; [exact Hh|by left|exact Hok]|]. rewrite <- E. apply rtc_once, ns_commit.
Qed.
End props.

(** ** Concrete: the chain of C42, stopped after the commit of its second block *)
Definition xn_c : inode := INode ex_chain (index_blocks ex_bits ex_hash [ex_b1]) (index_blocks ex_bits ex_hash ex_chain) PCommitted None.
Example C110_example_collisions : no_collisions ex_hash (in_mem xn_c).
Proof. intros ? ? ? ? _ _. apply ex_hash_inj. Qed.
Theorem C110_example : rtc (nstep_safe ex_bits ex_hash) in_start xn_c ∧ in_phase xn_c = PCommitted ∧
  NoDup (in_app xn_c ≫= λ b, map (λ te, it_hash te.1) (eth_entries b)) ∧
  NoDup (seen xn_c ≫= λ b, map (λ te, it_hash te.1) (eth_entries b)).
Proof.
  split; [apply (C111_reachable ex_bits ex_hash [ex_b1] ex_b2), ex_chain_ok|]. split; [done|]. split; apply ex_chain_ok.
Qed.
(** The second block's log of contract 10 is in the answer before the stop and not after it,
    even when a third block has followed; a rollback of block 2 and an empty replacement. *)
Definition ex_b3 : iblock := mkBlock 3 [mkEntry (IEth (mkITx [5] false 7 [])) [106] 0 21000 (IRCall [ex_l 10 20])] [].
Definition ex_empty2 : iblock := mkBlock 2 [] [1].
Theorem C111_example :
  let q st n := match range_logs ex_bits ex_hash st (mkCrit [[10]] [[[20]]]) 1 n with
                | Some l => Some (map (λ p, (pl_number p, pl_tx_index p)) l) | None => None end in
  q (in_mem xn_c) 2%nat = Some [(1, 1); (2, 1)] ∧
  q (in_disk xn_c) 2%nat = Some [(1, 1)] ∧
  q ((index_block ex_bits ex_hash ex_b3 (in_disk xn_c)).1) 3%nat = Some [(1, 1)] ∧
  q (index_blocks ex_bits ex_hash (ex_chain ++ [ex_b3])) 3%nat = Some [(1, 1); (2, 1); (3, 1)] ∧
  block_hashes ((index_block ex_bits ex_hash ex_empty2 (index_blocks ex_bits ex_hash ex_chain)).1) 2 = [[4]].
Proof. vm_compute. done. Qed.
