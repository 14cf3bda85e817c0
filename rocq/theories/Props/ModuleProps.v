(** Block hashes, deployment, genesis: C34, C37, C35, C60. *)
From Verif.Base Require Import Prelude Hex.
From Verif.Model Require Import Token Bank Params BlockHash Deploy Genesis.
From Verif.Spec Require Import TokenSpec BankSpec AccountSpec.
From Verif.Proofs Require Import HexP TokenP BankP BankMore TokenMore.
From Verif.Props Require Import BankProps.

(** * C34: block hashes *)
Section c34.
Open Scope N_scope.

(** After block [h] with a constant number of retained hashes, the store holds
    exactly the last [n] completed heights (all if [n] is zero), each with the hash
    handed over together with the following block. *)
Theorem C34_window n hdr h k :
  run_blocks (fun _ => n) hdr h !! k =
  if decide (1 <= k ∧ k + 1 <= N.of_nat h ∧ (n = 0 ∨ N.of_nat h <= k + n)) then Some (hdr (k + 1)) else None.
Proof.
  induction h as [|h IH].
  - rewrite decide_False by lia. done.
  - cbn [run_blocks]. unfold pre_block. destruct (N.leb_spec (N.of_nat (S h)) 1) as [Hle|Hgt].
    + rewrite IH. rewrite !decide_False by lia. done.
    + unfold track_block_hash.
      destruct (decide (k = N.of_nat (S h) - 1)) as [->|Hk].
      { rewrite lookup_insert. rewrite decide_True by lia. f_equal. f_equal. lia. }
      rewrite lookup_insert_ne by done.
      destruct (N.eqb_spec n 0) as [->|Hn]; cbn [negb andb].
      { rewrite IH. destruct (decide _) as [H1|H1], (decide _) as [H2|H2]; try done; lia. }
      destruct (N.ltb_spec n (N.of_nat (S h) - 1)) as [Hlt|Hge].
      * destruct (decide (k = N.of_nat (S h) - 1 - n)) as [->|Hk2].
        { rewrite lookup_delete, decide_False by lia. done. }
        rewrite lookup_delete_ne by done. rewrite IH.
        destruct (decide _) as [H1|H1], (decide _) as [H2|H2]; try done; lia.
      * rewrite IH. destruct (decide _) as [H1|H1], (decide _) as [H2|H2]; try done; lia.
Qed.

(** With parameters that pass validation, BLOCKHASH answers for each of the 256
    most recent heights and gives zero for every other number. *)
Theorem C34_opcode n hdr h k :
  n = 0 ∨ 256 <= n → (1 <= h)%nat →
  op_blockhash (run_blocks (fun _ => n) hdr h) (N.of_nat h) k =
  if decide (1 <= k ∧ k < N.of_nat h ∧ N.of_nat h <= k + 256) then hdr (k + 1) else zero_hash.
Proof.
  intros Hn Hh. unfold op_blockhash, get_hash. rewrite C34_window.
  destruct (N.ltb_spec (N.of_nat h) 257) as [H1|H1].
  - destruct (N.leb_spec 0 k), (N.ltb_spec k (N.of_nat h)); cbn [andb];
      repeat destruct (decide _); try done; lia.
  - destruct (N.leb_spec (N.of_nat h - 256) k), (N.ltb_spec k (N.of_nat h)); cbn [andb];
      repeat destruct (decide _); try done; lia.
Qed.

(** The hash stored for a height is not that height's own hash when the node hands
    over the hash of the block being processed, as CometBFT's FinalizeBlock does:
    then it is the hash of the next block. *)
Theorem C66_own_hash_refuted : ∃ (block_hash : N → bytes) h k,
  run_blocks (fun _ => 256) block_hash h !! k = Some (block_hash (k + 1)) ∧ block_hash (k + 1) ≠ block_hash k.
Proof. exists (fun n => [n]), 3%nat, 2. split; [vm_compute; reflexivity|done]. Qed.

(** When the number is lowered, hashes between the old and the new window stay for
    good (only a constant number is promised). *)
Example C34_lowered : 
  let num h := if h <? 6 then 4 else 2 in
  run_blocks num (fun h => [h]) 9 !! 2 = Some [3] ∧ run_blocks (fun _ => 2) (fun h => [h]) 9 !! 2 = None.
Proof. vm_compute. repeat split. Qed.
Example C34_example :
  run_blocks (fun _ => 2) (fun h => [h]) 9 !! 7 = Some [8] ∧ run_blocks (fun _ => 2) (fun h => [h]) 9 !! 8 = Some [9] ∧
  run_blocks (fun _ => 2) (fun h => [h]) 9 !! 6 = None ∧ run_blocks (fun _ => 0) (fun h => [h]) 9 !! 1 = Some [2].
Proof. vm_compute. repeat split. Qed.
End c34.

(** * C37: deployment *)

(** A successful Create or Create2: the allow list is empty or names the sender, the
    code text is there and hexadecimal, and the sender's EVM account has made exactly
    one more step (the constructor cannot act for it, [run_keeps]). *)
Definition seq_of (m : accounts) (a : bytes) : N := match m !! a with Some x => ac_seq x | None => 0%N end.
Definition run_keeps {X} (run : evm_run X) : Prop :=
  ∀ s c bz v salt s', run s c bz v salt = Some s' → seq_of (d_accts s') c = seq_of (d_accts s) c.
Theorem C37_only_allowed_publishers {X} ac (run : evm_run X) s sender code value salt s' :
  run_keeps run → msg_create ac run s sender code value salt = Some s' →
  (ep_publishers (d_params s) = [] ∨ sender ∈ ep_publishers (d_params s)) ∧
  code ≠ [] ∧ (∃ bz, hexutil_decode code = Some bz) ∧
  ∃ a, ac sender = Some a ∧
    (length a = 20%nat → seq_of (d_accts s') a = (seq_of (d_accts s) a + 1)%N).
Proof.
  intros Hk. unfold msg_create. destruct (ac sender) as [a|] eqn:Ha; [|done].
  destruct (convert_to_evm _ _ a true) as [[[c m] n]|] eqn:Hc; [|done].
  case_bool_decide as He; [done|]. destruct (hexutil_decode code) as [bz|]; [|done].
  case_bool_decide; [done|]. destruct (publisher_allowed _ _) eqn:Hp; [|done].
  destruct (inc_seq m n c) as [m1 n1] eqn:Hi. intros Hr.
  split; [|split; [done|split; [eauto|]]].
  { unfold publisher_allowed in Hp. apply orb_prop in Hp as [Hp|Hp]; apply bool_decide_eq_true in Hp; eauto. }
  exists a. split; [done|]. intros Hl. rewrite convert_20 in Hc by done. injection Hc as <- <- <-.
  rewrite (Hk _ _ _ _ _ _ Hr). simpl. unfold inc_seq in Hi. unfold seq_of.
  destruct (d_accts s !! a) as [x|] eqn:Hx; injection Hi as <- <-; rewrite lookup_insert; simpl; lia.
Qed.
(** What an allowed deployment runs: the given code, value and salt as the sender, in a state in
    which only the sender's account is changed: its nonce is one more and the rest of it is kept;
    a sender without an account gets a fresh one, without key, numbered next. *)
Theorem C37_what_runs {X} (ac : text → option bytes) (run : evm_run X) s sender (a : bytes) (code : text) bz value salt :
  ac sender = Some a → length a = 20%nat → code ≠ [] → hexutil_decode code = Some bz → (value < 2 ^ 256)%Z →
  ep_publishers (d_params s) = [] ∨ sender ∈ ep_publishers (d_params s) →
  ∃ s1, msg_create ac run s sender code value salt = run s1 a bz value salt ∧
    d_params s1 = d_params s ∧ d_rest s1 = d_rest s ∧ (∀ b, b ≠ a → d_accts s1 !! b = d_accts s !! b) ∧
    match d_accts s !! a with
    | Some x => d_next s1 = d_next s ∧ d_accts s1 !! a = Some (Acct (ac_num x) (ac_seq x + 1)%N (ac_pub x) (ac_kind x))
    | None => d_next s1 = (d_next s + 1)%N ∧ d_accts s1 !! a = Some (Acct (d_next s) 1 false KBase)
    end.
Proof.
  intros Ha Hl Hc Hb Hv Hp. unfold msg_create. rewrite Ha, convert_20 by done.
  rewrite bool_decide_eq_false_2 by done. rewrite Hb. rewrite bool_decide_eq_false_2 by (unfold two256; lia).
  assert (publisher_allowed (d_params s) sender = true) as ->.
  { unfold publisher_allowed. destruct Hp as [Hp|Hp]; [by rewrite (bool_decide_eq_true_2 _ Hp)|]. rewrite (bool_decide_eq_true_2 _ Hp). apply orb_true_r. }
  unfold inc_seq. destruct (d_accts s !! a) as [x|] eqn:Hx; eexists; (split; [reflexivity|]); cbn [d_params d_rest d_accts d_next];
    (split; [done|split; [done|split; [intros b Hne; by apply lookup_insert_ne|split; [done|apply lookup_insert]]]]).
Qed.
(** A sender that is not on a non-empty list cannot deploy, whatever else it sends. *)
Theorem C37_others_refused {X} ac (run : evm_run X) s sender code value salt :
  ep_publishers (d_params s) ≠ [] → sender ∉ ep_publishers (d_params s) →
  msg_create ac run s sender code value salt = None.
Proof.
  intros H1 H2. unfold msg_create. repeat case_match; try done.
  unfold publisher_allowed in *. by rewrite !bool_decide_eq_false_2 in * by done.
Qed.
Theorem C37_empty_text_refused {X} ac (run : evm_run X) s sender value salt :
  msg_create ac run s sender [] value salt = None.
Proof. unfold msg_create. repeat case_match; try done. Qed.
(** Empty code is not always refused: the text "0x" is accepted and reaches the EVM
    with no init code at all. *)
Theorem C67_empty_code_refuted {X} ac (run : evm_run X) s sender a m1 n1 salt :
  ac sender = Some a → length a = 20%nat → ep_publishers (d_params s) = [] →
  inc_seq (d_accts s) (d_next s) a = (m1, n1) →
  msg_create ac run s sender (txt "0x") 0 salt = run (DState m1 n1 (d_params s) (d_rest s)) a [] 0%Z salt.
Proof.
  intros Ha Hl Hp Hi. unfold msg_create. rewrite Ha, convert_20 by done.
  rewrite bool_decide_eq_false_2 by done. change (hexutil_decode (txt "0x")) with (Some ([] : bytes)). cbv beta iota.
  rewrite bool_decide_eq_false_2 by (unfold two256; lia). unfold publisher_allowed. rewrite Hp.
  rewrite bool_decide_eq_true_2 by done. simpl. by rewrite Hi.
Qed.
Example C37_example :
  let ac t := if bool_decide (t = txt "init1a") then Some x_alice else if bool_decide (t = txt "init1b") then Some x_bob else None in
  let run : evm_run unit := fun s _ _ _ _ => Some s in
  let s := DState ∅ 3 (EvmParams [] [txt "init1a"] true [] x_stake 0 0) tt in
  is_Some (msg_create ac run s (txt "init1a") (txt "0x6001") 0 None) ∧
  msg_create ac run s (txt "init1b") (txt "0x6001") 0 None = None ∧
  msg_create ac run s (txt "init1a") (txt "") 0 (Some 7%N) = None.
Proof. split; [eexists; vm_compute; reflexivity|]. split; vm_compute; reflexivity. Qed.


(** * C35: genesis of the EVM module *)

(** What every reachable store satisfies: the two denom maps and the two class maps
    are inverse to each other, every class contract has a class URI and nothing else
    has one, contract code exists and the two system contracts are known. *)
Record wf_evm (s : evm_state) : Prop := WfEvm {
  we_denoms : ∀ d a, s_addr_of s !! d = Some a ↔ s_denom_of s !! a = Some d;
  we_classes : ∀ c a, s_class_addr s !! c = Some a ↔ s_class_id s !! a = Some c;
  we_uris : ∀ a, is_Some (s_uri s !! a) ↔ ∃ c, s_class_addr s !! c = Some a;
  we_vm : s_vm s ≠ ∅;
  we_factory : is_Some (s_factory s);
  we_wrapper : is_Some (s_wrapper s) }.

Lemma foldl_insert_list `{Countable K} {V} (l : list (K * V)) (m0 : gmap K V) :
  NoDup l.*1 → (∀ k, k ∈ l.*1 → m0 !! k = None) →
  foldl (fun m kv => <[fst kv := snd kv]> m) m0 l = list_to_map l ∪ m0.
Proof.
  revert m0. induction l as [|[k v] l IH]; intros m0 Hnd H0; simpl.
  - by rewrite (left_id_L ∅ (∪)).
  - apply NoDup_cons in Hnd as [Hk Hnd]. rewrite IH; [|done|].
    + apply map_eq. intros j. destruct (decide (j = k)) as [->|Hj].
      * rewrite lookup_union_r by (by apply not_elem_of_list_to_map). rewrite lookup_insert.
        symmetry. apply lookup_union_Some_l. apply lookup_insert.
      * rewrite !lookup_union, !lookup_insert_ne by done. done.
    + intros j Hj. destruct (decide (j = k)) as [->|Hjk]; [done|]. rewrite lookup_insert_ne by done.
      apply H0. simpl. set_solver.
Qed.
Lemma foldl_insert_map_to_list `{Countable K} {V} (m : gmap K V) :
  foldl (fun m kv => <[fst kv := snd kv]> m) ∅ (map_to_list m) = m.
Proof.
  rewrite foldl_insert_list.
  - by rewrite list_to_map_to_list, (right_id_L ∅ (∪)).
  - apply NoDup_fst_map_to_list.
  - intros. apply lookup_empty.
Qed.
(** Inserting a list of pairs gives the map of those pairs when keys determine values. *)
Lemma foldl_insert_spec `{Countable K} {V A} (f : A → K) (g : A → V) (l : list A) (m0 m : gmap K V) :
  (∀ x, x ∈ l → m !! f x = Some (g x)) →
  (∀ k v, m !! k = Some v → m0 !! k = Some v ∨ ∃ x, x ∈ l ∧ f x = k) →
  (∀ k v, m0 !! k = Some v → m !! k = Some v) →
  foldl (fun m e => <[f e := g e]> m) m0 l = m.
Proof.
  revert m0. induction l as [|x l IH]; intros m0 H1 H2 H3; simpl.
  - apply map_eq. intros k. destruct (m !! k) as [v|] eqn:E.
    + destruct (H2 _ _ E) as [?|(x&Hx&_)]; [done|]. by apply elem_of_nil in Hx.
    + destruct (m0 !! k) eqn:E0; [|done]. apply H3 in E0. congruence.
  - apply IH.
    + intros y Hy. apply H1. by right.
    + intros k v Hk. destruct (decide (k = f x)) as [->|Hne].
      * left. rewrite lookup_insert. rewrite (H1 x) in Hk by (by left). done.
      * rewrite lookup_insert_ne by done. destruct (H2 _ _ Hk) as [?|(y&Hy&<-)]; [by left|].
        apply elem_of_cons in Hy as [->|Hy]; [done|]. right. eauto.
    + intros k v. destruct (decide (k = f x)) as [->|Hne].
      * rewrite lookup_insert. intros [= <-]. apply H1. by left.
      * rewrite lookup_insert_ne by done. apply H3.
Qed.
Lemma foldl_set_union `{Countable A} (l : list A) (s : gset A) :
  foldl (fun m c => {[c]} ∪ m) s l = list_to_set l ∪ s.
Proof. revert s. induction l as [|x l IH]; intros s; simpl; [set_solver|]. rewrite IH. set_solver. Qed.
Lemma foldl_groups (l : list (bytes * bytes)) (s : gset (bytes * bytes)) :
  foldl (fun m e => foldl (fun m c => {[(fst e, c)]} ∪ m) m (snd e)) s (group_stores l) = list_to_set l ∪ s.
Proof.
  assert (Hin : ∀ (a : bytes) (cs : list bytes) (s : gset (bytes * bytes)),
    foldl (fun m c => {[(a, c)]} ∪ m) s cs = list_to_set ((fun c => (a, c)) <$> cs) ∪ s).
  { intros a cs. induction cs as [|c cs IH]; intros s0; simpl; [set_solver|]. rewrite IH. set_solver. }
  assert (Hall : ∀ (g : list (bytes * list bytes)) (s : gset (bytes * bytes)),
    foldl (fun m e => foldl (fun m c => {[(fst e, c)]} ∪ m) m (snd e)) s g =
    list_to_set (g ≫= fun e => (fun c => (fst e, c)) <$> snd e) ∪ s).
  { induction g as [|[a cs] g IH]; intros s0; simpl; [set_solver|]. rewrite IH, Hin. simpl.
    rewrite list_to_set_app_L. set_solver. }
  rewrite Hall. f_equal. f_equal.
  induction l as [|[a c] l IH]; simpl; [done|].
  destruct (group_stores l) as [|[a' cs] r]; simpl in *.
  - by rewrite <- IH.
  - case_bool_decide as Ha; simpl; rewrite <- IH; simpl; [subst a'|]; done.
Qed.

Lemma export_classes_spec s : wf_evm s →
  ∃ cls, export_classes s = Some cls ∧
    ∀ c a u, (c, a, u) ∈ cls ↔ s_class_addr s !! c = Some a ∧ s_uri s !! a = Some u.
Proof.
  intros Hwf. unfold export_classes.
  assert (Hall : ∀ l : list (text * bytes), (∀ c a, (c, a) ∈ l → is_Some (s_uri s !! a)) →
    ∃ cls, mapM (fun p : text * bytes => u ← s_uri s !! snd p; Some (fst p, snd p, u)) l = Some cls ∧
      ∀ c a u, (c, a, u) ∈ cls ↔ (c, a) ∈ l ∧ s_uri s !! a = Some u).
  { induction l as [|[c a] l IH]; intros Hl.
    - exists []. split; [done|]. intros. split; [intros H%elem_of_nil; done|intros [H%elem_of_nil _]; done].
    - destruct IH as (cls&E&Hc). { intros c1 a1 H1. apply (Hl c1 a1). by right. }
      destruct (Hl c a) as [u Hu]; [by left|].
      exists ((c, a, u) :: cls). simpl. rewrite Hu. simpl. rewrite E. split; [done|].
      intros c1 a1 u1. rewrite !elem_of_cons, Hc. split.
      + intros [[= -> -> ->]|[H1 H2]]; eauto.
      + intros [[[= -> ->]|H1] H2]; [left; congruence|right; done]. }
  destruct (Hall (map_to_list (s_class_addr s))) as (cls&E&Hc).
  { intros c a H. apply elem_of_map_to_list in H. apply (we_uris s Hwf). eauto. }
  exists cls. split; [done|]. intros c a u. rewrite Hc, elem_of_map_to_list. done.
Qed.

(** Exporting never fails on such a store, and importing the result into an empty
    store gives the same store back, entry for entry; exporting again gives the same
    genesis. Holds for any visiting order of the holder index. *)
Theorem C35_round_trip walk init s p0 :
  wf_evm s → (∀ x, walk x ≡ₚ elements x) →
  ∃ g, export_genesis walk s = Some g ∧
       import_genesis init (empty_state p0) g = Some s.
Proof.
  intros Hwf Hw. destruct (export_classes_spec s Hwf) as (cls&Ec&Hc).
  destruct (we_factory s Hwf) as [f Hf]. destruct (we_wrapper s Hwf) as [wr Hwr].
  unfold export_genesis. rewrite Ec, Hf, Hwr. simpl.
  eexists. split; [reflexivity|]. unfold import_genesis. cbn [g_kvs g_params g_factory g_wrapper g_erc20s g_stores g_denoms g_classes g_hashes].
  rewrite bool_decide_eq_false_2.
  2: { intros H%map_to_list_empty_iff. by apply (we_vm s Hwf). }
  cbn [mbind option_bind]. unfold set_contracts, set_params, empty_state. cbn.
  rewrite !foldl_insert_map_to_list, foldl_set_union, foldl_groups.
  rewrite list_to_set_elements_L, !(right_id_L ∅ (∪)).
  assert (Hst : list_to_set (walk (s_stores s)) = s_stores s).
  { apply set_eq. intros x. rewrite elem_of_list_to_set, (Hw _). apply elem_of_elements. }
  rewrite Hst.
  rewrite (foldl_insert_spec (fun e : text * bytes => snd e) fst (map_to_list (s_addr_of s)) ∅ (s_denom_of s)).
  2: { intros [d a] H. apply elem_of_map_to_list in H. by apply (we_denoms s Hwf). }
  2: { intros a d H. right. exists (d, a). split; [|done]. apply elem_of_map_to_list. by apply (we_denoms s Hwf). }
  2: { intros k v H. by rewrite lookup_empty in H. }
  rewrite (foldl_insert_spec (fun e : text * bytes * text => fst (fst e)) (fun e => snd (fst e)) cls ∅ (s_class_addr s)).
  2: { intros [[c a] u] H. by apply Hc in H as [H _]. }
  2: { intros c a H. right. destruct (proj2 (we_uris s Hwf a)) as [u Hu]; [eauto|]. exists (c, a, u). split; [|done]. by apply Hc. }
  2: { intros k v H. by rewrite lookup_empty in H. }
  rewrite (foldl_insert_spec (fun e : text * bytes * text => snd (fst e)) (fun e => fst (fst e)) cls ∅ (s_class_id s)).
  2: { intros [[c a] u] H. apply Hc in H as [H _]. by apply (we_classes s Hwf). }
  2: { intros a c H. apply (we_classes s Hwf) in H. right. destruct (proj2 (we_uris s Hwf a)) as [u Hu]; [eauto|].
       exists (c, a, u). split; [|done]. by apply Hc. }
  2: { intros k v H. by rewrite lookup_empty in H. }
  rewrite (foldl_insert_spec (fun e : text * bytes * text => snd (fst e)) snd cls ∅ (s_uri s)).
  2: { intros [[c a] u] H. by apply Hc in H as [_ H]. }
  2: { intros a u H. right. destruct (proj1 (we_uris s Hwf a)) as [c Hca]; [eauto|].
       exists (c, a, u). split; [|done]. by apply Hc. }
  2: { intros k v H. by rewrite lookup_empty in H. }
  destruct s. simpl in *. congruence.
Qed.
Theorem C35_export_again walk init s p0 g s' :
  wf_evm s → (∀ x, walk x ≡ₚ elements x) →
  export_genesis walk s = Some g → import_genesis init (empty_state p0) g = Some s' →
  s' = s ∧ export_genesis walk s' = Some g.
Proof.
  intros Hwf Hw Hg Hi. destruct (C35_round_trip walk init s p0 Hwf Hw) as (g'&Hg'&Hi').
  assert (g' = g) as -> by congruence. assert (s' = s) as -> by congruence. done.
Qed.
(** Without contract code the import deploys the system contracts afresh instead of
    taking the listed addresses. *)
Theorem C35_no_code_runs_initialize init s0 g s2 :
  g_kvs g = [] → init (set_params s0 (g_params g)) = Some s2 →
  ∃ s', import_genesis init s0 g = Some s' ∧ s_factory s' = s_factory s2 ∧ s_wrapper s' = s_wrapper s2 ∧ s_vm s' = s_vm s2.
Proof.
  intros Hk Hi. unfold import_genesis. rewrite Hk. rewrite bool_decide_eq_true_2 by done. rewrite Hi. simpl. eauto.
Qed.
(** The default genesis (parameters only) gives exactly what Initialize makes of the empty
    store. *)
Theorem C35_default_genesis init s0 g :
  g_kvs g = [] → g_erc20s g = [] → g_stores g = [] → g_denoms g = [] → g_classes g = [] → g_hashes g = [] →
  import_genesis init s0 g = init (set_params s0 (g_params g)).
Proof.
  intros H1 H2 H3 H4 H5 H6. unfold import_genesis. rewrite H1, H2, H3, H4, H5, H6. rewrite bool_decide_eq_true_2 by done.
  destruct (init _) as [[]|]; done.
Qed.
(** A class contract without URI, or a missing wrapper, makes the export panic. *)
Theorem C35_export_needs_wrapper walk s : s_wrapper s = None → export_genesis walk s = None.
Proof. intros H. unfold export_genesis. destruct (export_classes s); [|done]. simpl. destruct (s_factory s); [|done]. simpl. by rewrite H. Qed.

Definition x_evm : evm_state :=
  EvmState (EvmParams [] [] true [] x_stake 0 0) {[ x_alice := [96%N; 1%N] ]} {[ x_alice ]}
    {[ (x_bob, x_alice); (x_alice, x_alice) ]} {[ x_stake := x_alice ]} {[ x_alice := x_stake ]}
    {[ txt "nft" := x_bob ]} {[ x_bob := txt "nft" ]} {[ x_bob := txt "uri" ]} {[ 4%N := [7%N] ]} (Some x_alice) (Some x_bob).
Lemma singleton_pair `{Countable K, Countable V} (k : K) (v : V) :
  ∀ a b, ({[ k := v ]} : gmap K V) !! a = Some b ↔ ({[ v := k ]} : gmap V K) !! b = Some a.
Proof. intros a b. rewrite !lookup_singleton_Some. split; intros [-> ->]; done. Qed.
Example C35_example : wf_evm x_evm ∧
  ∃ g, export_genesis elements x_evm = Some g ∧ import_genesis (fun _ => None) (empty_state (EvmParams [] [] true [] x_stake 0 0)) g = Some x_evm ∧
    g_classes g = [(txt "nft", x_bob, txt "uri")].
Proof.
  assert (Hwf : wf_evm x_evm).
  { constructor.
    - intros d a. apply singleton_pair.
    - intros d a. apply singleton_pair.
    - intros a. unfold x_evm. cbn [s_uri s_class_addr]. split.
      + intros [u Hu]. apply lookup_singleton_Some in Hu as [<- _]. exists (txt "nft"). apply lookup_singleton.
      + intros [c Hc]. apply lookup_singleton_Some in Hc as [_ <-]. exists (txt "uri"). apply lookup_singleton.
    - apply map_non_empty_singleton.
    - by eexists.
    - by eexists. }
  split; [exact Hwf|].
  destruct (C35_round_trip elements (fun _ => None) x_evm (EvmParams [] [] true [] x_stake 0 0) Hwf) as (g&Hg&Hi); [done|].
  exists g. split; [exact Hg|]. split; [exact Hi|].
  assert (He : export_classes x_evm = Some [(txt "nft", x_bob, txt "uri")]) by (vm_compute; reflexivity).
  unfold export_genesis in Hg. rewrite He in Hg. simpl in Hg. injection Hg as <-. reflexivity.
Qed.

(** * C60: restarting the application from its exported genesis *)

(** What the list of balances gives [a] in token [c]. *)
Fixpoint listed (w : world) (c a : bytes) (l : list (bytes * list coin)) : Z :=
  match l with
  | [] => 0
  | (x, cs) :: l' => if_eq a (bytes_to_address x) (amount_in w c cs) + listed w c a l'
  end.
Lemma amount_in_mono w w' c l :
  (∀ d k, w_addr_of w !! d = Some k → w_addr_of w' !! d = Some k) →
  (∀ x, x ∈ l → is_erc20_denom (c_denom x) = false ∧ ∃ k, denom_to_contract w (c_denom x) = Some k) →
  amount_in w' c l = amount_in w c l.
Proof.
  intros Hm. induction l as [|x l IH]; intros Hl; [done|]. simpl.
  rewrite IH by (intros; apply Hl; by right). destruct (Hl x) as [He [k Hk]]; [by left|].
  rewrite !plain_denom in * by done. by rewrite Hk, (Hm _ _ Hk).
Qed.
Lemma bank_import_effect E f l : chain_calls E f → env_ok E → ∀ w w', Inv E w →
  (∀ e x, e ∈ l → x ∈ snd e → amount_ok (c_amt x)) → bank_import E f w l = (true, w') →
  (∀ c a, balance w' c a = balance w c a + listed w' c a l) ∧
  (∀ d c, w_addr_of w !! d = Some c → w_addr_of w' !! d = Some c) ∧
  (∀ e x, e ∈ l → x ∈ snd e → is_erc20_denom (c_denom x) = false ∧ ∃ c, denom_to_contract w' (c_denom x) = Some c).
Proof.
  intros Hf HE. induction l as [|[x cs] l IH]; intros w w' Hi Hok Hs.
  - simpl in Hs. injection Hs as <-. simpl. split; [intros; lia|]. split; [done|]. intros e x He. by apply elem_of_nil in He.
  - cbn [bank_import] in Hs. unfold k_mint_coins in Hs.
    destruct (convert_to_evm (w_accts w) (w_nextnum w) x false) as [[[a m1] n1]|] eqn:Hc; [|done].
    apply convert_addr in Hc as ->.
    destruct (mint_loop E f (upd_accts w m1 n1) (bytes_to_address x) cs) as [ok w1] eqn:Hm. destruct ok; [|done].
    assert (Hok1 : ∀ y, y ∈ cs → amount_ok (c_amt y)). { intros y Hy. apply (Hok (x, cs)); [by left|done]. }
    pose proof (mint_loop_exact E f _ cs Hf HE _ w1 (inv_accts _ _ m1 n1 Hi) Hok1 Hm) as (A & _ & B & D).
    assert (Hi1 : Inv E w1).
    { pose proof (mint_loop_steps E f (bytes_to_address x) cs Hf (upd_accts w m1 n1)) as Hst. rewrite Hm in Hst.
      eapply inv_steps; [exact HE| |exact Hst]. by apply inv_accts. }
    destruct (IH w1 w' Hi1 ltac:(intros e y He; apply Hok; by right) Hs) as (A' & B' & D').
    split; [|split].
    + intros c y. rewrite A', A. simpl. rewrite (amount_in_mono w1 w' c cs B' D).
      assert (balance (upd_accts w m1 n1) c y = balance w c y) as -> by done. lia.
    + intros d c Hd. apply B', B. exact Hd.
    + intros e y. rewrite elem_of_cons. intros [->|He]; [|by apply D'].
      intros Hy. destruct (D y Hy) as [H1 [k Hk]]. split; [done|]. exists k.
      rewrite plain_denom in * by done. by apply B'.
Qed.

(** The bank's import adds the listed amounts to whatever the EVM store it was
    imported after already holds ... *)
Theorem C60_import_adds E f w l w' :
  chain_calls E f → reachable E w → (∀ e x, e ∈ l → x ∈ snd e → amount_ok (c_amt x)) →
  bank_import E f w l = (true, w') →
  ∀ c a, balance w' c a = balance w c a + listed w' c a l.
Proof. intros Hf Hr Hok Hs. apply (bank_import_effect E f l Hf (proj1 Hr) w w' (inv_reachable _ _ Hr) Hok Hs). Qed.
(** ... so from an EVM genesis without token balances every account holds exactly
    what the bank genesis lists. *)
Theorem C60_fresh_genesis_exact E f w l w' :
  chain_calls E f → reachable E w → (∀ e x, e ∈ l → x ∈ snd e → amount_ok (c_amt x)) →
  (∀ c a, balance w c a = 0) → bank_import E f w l = (true, w') →
  ∀ c a, balance w' c a = listed w' c a l.
Proof. intros Hf Hr Hok H0 Hs c a. rewrite (C60_import_adds E f w l w' Hf Hr Hok Hs), H0. lia. Qed.
(** A listed balance of a contract-native token stops the import (a panic). *)
Theorem C60_native_balance_stops E f w l e x :
  chain_calls E f → reachable E w → (∀ e x, e ∈ l → x ∈ snd e → amount_ok (c_amt x)) →
  e ∈ l → x ∈ snd e → is_erc20_denom (c_denom x) = true → fst (bank_import E f w l) = false.
Proof.
  intros Hf Hr Hok He Hx Hd. destruct (bank_import E f w l) as [[|] w'] eqn:Hs; [|done].
  destruct (bank_import_effect E f l Hf (proj1 Hr) w w' (inv_reachable _ _ Hr) Hok Hs) as (_ & _ & D).
  destruct (D e x He Hx). congruence.
Qed.
(** The application's own export lists the balances twice, once in the EVM store and
    once in the bank's list (init order auth, evm, bank: app/modules.go 188-197), so a
    chain restarted from it has every exported balance doubled. *)
Theorem C60_restart_keeps_balances_refuted : ∃ w l w', reachable x_env w ∧
  bank_export (fun _ _ => false) w = Some l ∧ bank_import x_env x_call w l = (true, w') ∧
  k_balance w x_alice x_stake = Some 60 ∧ k_balance w' x_alice x_stake = Some 120.
Proof.
  set (r := bank_import x_env x_call x_w2 (default [] (bank_export (fun _ _ => false) x_w2))).
  exists x_w2, (default [] (bank_export (fun _ _ => false) x_w2)), (snd r).
  split; [apply x_reachable, x_w2_steps|]. split; [vm_compute; reflexivity|].
  split; [apply ok_pair; vm_compute; reflexivity|]. split; vm_compute; reflexivity.
Qed.
(** A chain on which somebody holds a contract-native token cannot be restarted. *)
Theorem C60_native_holder_refuted : ∃ w l, reachable x_env w ∧
  bank_export (fun _ _ => false) w = Some l ∧ fst (bank_import x_env x_call w l) = false.
Proof.
  exists C26_w2, (default [] (bank_export (fun _ _ => false) C26_w2)).
  split; [apply x_reachable, C26_w2_steps|]. split; vm_compute; reflexivity.
Qed.
Example C60_example :
  let l := [(x_alice, [Coin x_foo 3; Coin x_stake 4]); (x_bob, [Coin x_stake 1])] in
  let r := bank_import x_env x_call x_init l in
  fst r = true ∧ k_balance (snd r) x_alice x_stake = Some 4 ∧ k_balance (snd r) x_bob x_stake = Some 1 ∧
  k_balance (snd r) x_alice x_foo = Some 3.
Proof. vm_compute. repeat split. Qed.
