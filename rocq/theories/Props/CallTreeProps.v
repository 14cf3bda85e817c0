(** C114, C115: calls with value and failing frames (Model/CallTree.v). *)
From Verif.Base Require Import Prelude Hex.
From Verif.Model Require Import Token Paths CallTree.
From Verif.Spec Require Import TokenSpec CallTreeSpec WalletSpec.
From Verif.Proofs Require Import TokenP BankP TokenMore CallTreeP CallTreeAny.
Open Scope Z_scope.

(** ** C114: calls with value do what the ledger says, where nobody catches a failure *)
(** A transaction whose run on the plain ledger never comes to a call that fails while its caller
    goes on is committed exactly when the payment can be made, the code succeeds and no call with
    value to a blocked address is met; balances, storage and logs are then those of the ledger,
    and no supply and no other token is touched. *)
Theorem C114_commit E fee w t caller to v body sto ev :
  reachable E w → is_token w fee t → t_kind t = KERC20 → fee ≠ null_addr → prog_ok body → amount_ok v →
  let l := Ledger (balance w fee) sto ev in
  let l1 := if decide (v = 0) then l else note (pay l caller to v) [EMoved caller to v] in
  let r := eth (is_blocked E w) body to l1 in
  r.1.1 ≠ CatchesFailure →
  match evm_call E fee caller to v body (St w sto ev) with
  | None => ¬ (v <= balance w fee caller ∧ (v = 0 ∨ is_blocked E w to = false) ∧ r.1 = (Told, true))
  | Some s' => (v <= balance w fee caller ∧ (v = 0 ∨ is_blocked E w to = false) ∧ r.1 = (Told, true)) ∧
      (∀ a, balance (s_w s') fee a = l_bal r.2 a) ∧ s_sto s' = l_sto r.2 ∧ s_log s' = l_ev r.2 ∧
      (∀ c, supply (s_w s') c = supply w c) ∧
      (∀ c a, c ≠ fee → balance (s_w s') c a = balance w c a)
  end.
Proof.
  intros Hr Ht Hk Hn Hp Hv l l1 r Hcf.
  assert (Hpos : 0 <= balance w fee caller).
  { unfold balance. pose proof (iv_tok E w (inv_reachable E w Hr) fee t Ht) as Hok. unfold is_token in Ht. rewrite Ht. by apply bal_range. }
  pose proof (execute_shows E fee w (supply w fee) Hn (fun s => s) (St w sto ev) l caller to v body (shows_start E fee w t sto ev Hr Ht Hk) eq_refl Hp Hv) as H.
  unfold outer in H. cbn [eth] in H. change (l_bal l caller) with (balance w fee caller) in H. fold l1 in H. fold r in H. unfold evm_call.
  destruct (decide (v ≠ 0 ∧ balance w fee caller < v)) as [[Hz Hlt]|Hle].
  { destruct H as (s' & ->). intros (H1 & _). lia. }
  destruct (decide (v ≠ 0 ∧ is_blocked E w to = true)) as [[Hz Hb]|Hnb].
  { rewrite H. intros (_ & [H1|H1] & _); congruence. }
  destruct r as [[o ok] l']. cbn [fst snd] in *. destruct o; [|rewrite H; by intros (_ & _ & ?)|done]. destruct ok.
  - destruct H as (s' & -> & [(t' & Ht' & Hok & Hk' & Hs) H2 H3 H4 H5 H6 _ _]). split; [|split_and!; try done].
    + split; [destruct (decide (v = 0)) as [->|]; [done|]; destruct (decide (v <= balance w fee caller)); [done|]; exfalso; apply Hle; split; [done|lia]|].
      split; [|done]. destruct (decide (v = 0)); [by left|]. right. destruct (is_blocked E w to); [|done]. exfalso. by apply Hnb.
    + intros c. destruct (decide (c = fee)) as [->|Hc].
      * rewrite <- Hs. unfold supply. unfold is_token in Ht'. by rewrite Ht'.
      * unfold supply. by rewrite H6.
    + intros c a Hc. unfold balance. by rewrite H6.
  - cbn [after_failure] in H. destruct H as (s' & ->). intros (_ & _ & ?). done.
Qed.
(** Where no code catches a failure, no run does. *)
Theorem C114_never_catches blk p self l : never_catches p → (eth blk p self l).1.1 ≠ CatchesFailure.
Proof. intros H. by apply eth_told. Qed.

(** *** Whatever fails, and whoever catches it *)
Lemma any_start E fee w t sto ev (P Q : bytes → Prop) : reachable E w → is_token w fee t → t_kind t = KERC20 →
  fine fee w (supply w fee) P Q (balance w fee) sto ev (St w sto ev) ∧ grown E w w.
Proof.
  intros Hr Ht Hk. pose proof (iv_tok E w (inv_reachable E w Hr) fee t Ht) as Hok. split.
  - split; [|split; [done|]; split; [done|done]]. exists t. split; [done|]. split; [done|]. split; [done|].
    unfold supply, balance. unfold is_token in Ht. rewrite Ht. done.
  - split; [by split_and!|]. split; [apply accts_grow_refl|done].
Qed.
Lemma any_call E fee w t caller to v body sto ev (P Q : bytes → Prop) s' :
  reachable E w → is_token w fee t → t_kind t = KERC20 → prog_ok body → amount_ok v →
  within P Q to body → (v = 0 ∨ P caller) →
  evm_call E fee caller to v body (St w sto ev) = Some s' →
  fine fee w (supply w fee) P Q (balance w fee) sto ev s' ∧ grown E w (s_w s').
Proof.
  intros Hr Ht Hk Hp Hv Hw Hc H. destruct (any_start E fee w t sto ev P Q Hr Ht Hk) as [Hf Hg].
  unfold evm_call in H. destruct (execute _ _ _ _ _ _ _ _) as [[[|] s1]|] eqn:He; [|done|done]. injection H as ->.
  by apply (execute_sound E fee w (supply w fee) P Q (balance w fee) sto ev (fun s => s) caller to v body (St w sto ev) true s').
Qed.
(** No supply grows, no other token is touched, no code changes, no earlier log is lost, and the
    books of the fee token stay in order. *)
Theorem C114_nothing_made E fee w t caller to v body sto ev s' :
  reachable E w → is_token w fee t → t_kind t = KERC20 → prog_ok body → amount_ok v →
  evm_call E fee caller to v body (St w sto ev) = Some s' →
  (∀ c, supply (s_w s') c <= supply w c) ∧ (∀ c, c ≠ fee → supply (s_w s') c = supply w c) ∧
  (∀ c a, c ≠ fee → balance (s_w s') c a = balance w c a) ∧
  (∀ c, c ≠ fee → w_code (s_w s') !! c = w_code w !! c) ∧
  (∃ more, s_log s' = ev ++ more) ∧ (∀ a, 0 <= balance (s_w s') fee a) ∧
  (∃ t', is_token (s_w s') fee t' ∧ tok_ok t').
Proof.
  intros Hr Ht Hk Hp Hv H.
  destruct (any_call E fee w t caller to v body sto ev (fun _ => True) (fun _ => True) s' Hr Ht Hk Hp Hv) as [((t' & Ht' & F1 & F2 & F3 & F4) & Hc & Hs & Hl) _];
    [apply within_all|by right|done|].
  assert (Hsup : ∀ c, c ≠ fee → supply (s_w s') c = supply w c) by (intros c Hne; unfold supply; by rewrite Hc).
  split_and!; try done.
  - intros c. destruct (decide (c = fee)) as [->|Hne]; [|by rewrite Hsup]. unfold supply at 1. unfold is_token in Ht'. rewrite Ht'. exact F3.
  - intros c a Hne. unfold balance. by rewrite Hc.
  - intros a. unfold balance. unfold is_token in Ht'. rewrite Ht'. by apply bal_range.
  - by exists t'.
Qed.
(** An account that never pays in the run (makes no call with value, sends no tokens, does not
    destroy itself) does not lose anything, whatever the others do. *)
Fixpoint never_pays (a self : bytes) (p : prog) : Prop :=
  match p with
  | PStop | PRevert => True
  | PDestruct _ => self ≠ a
  | PStore _ _ k | PLog _ k => never_pays a self k
  | PLoad _ k | PBalance _ k => ∀ x, never_pays a self (k x)
  | PSend _ _ k => self ≠ a ∧ ∀ b, never_pays a self (k b)
  | PCall to v body k => (v = 0 ∨ self ≠ a) ∧ never_pays a to body ∧ ∀ b, never_pays a self (k b)
  | PDelegate body k => never_pays a self body ∧ ∀ b, never_pays a self (k b)
  | PStatic _ _ k => ∀ b, never_pays a self (k b)     (* nobody pays in a static call *)
  end.
Lemma never_pays_within a p : ∀ self, never_pays a self p → within (fun x => x ≠ a) (fun _ => True) self p.
Proof. induction p; intros self Hq; cbn in *; try done; naive_solver. Qed.
Theorem C114_only_payers_lose E fee w t caller to v body sto ev a s' :
  reachable E w → is_token w fee t → t_kind t = KERC20 → prog_ok body → amount_ok v →
  (v = 0 ∨ caller ≠ a) → never_pays a to body →
  evm_call E fee caller to v body (St w sto ev) = Some s' →
  balance w fee a <= balance (s_w s') fee a.
Proof.
  intros Hr Ht Hk Hp Hv Hc Hq H.
  destruct (any_call E fee w t caller to v body sto ev (fun x => x ≠ a) (fun _ => True) s' Hr Ht Hk Hp Hv (never_pays_within a body to Hq) Hc H)
    as [((t' & Ht' & _ & _ & _ & F4) & _) _].
  unfold balance at 2. unfold is_token in Ht'. rewrite Ht'. apply F4. intros Hn. by apply Hn.
Qed.
(** A contract's storage is written only by code that runs as that contract: its own, or a
    library's it calls by delegate. Where no such code runs, every slot keeps its value, whatever
    the others do, also by static calls of it. *)
Fixpoint runs_as (a self : bytes) (p : prog) : Prop :=
  self = a ∨
  match p with
  | PStop | PRevert | PDestruct _ => False
  | PStore _ _ k | PLog _ k => runs_as a self k
  | PLoad _ k | PBalance _ k => ∃ x, runs_as a self (k x)
  | PSend _ _ k | PStatic _ _ k => ∃ b, runs_as a self (k b)
  | PCall to _ body k => runs_as a to body ∨ ∃ b, runs_as a self (k b)
  | PDelegate body k => runs_as a self body ∨ ∃ b, runs_as a self (k b)
  end.
Lemma runs_as_within a p : ∀ self, ¬ runs_as a self p → within (fun _ => True) (fun x => x ≠ a) self p.
Proof. induction p; intros self Hq; cbn in *; try done; naive_solver. Qed.
Theorem C114_storage_own E fee w t caller to v body sto ev a s' :
  reachable E w → is_token w fee t → t_kind t = KERC20 → prog_ok body → amount_ok v →
  ¬ runs_as a to body → evm_call E fee caller to v body (St w sto ev) = Some s' →
  ∀ x, s_sto s' !! (a, x) = sto !! (a, x).
Proof.
  intros Hr Ht Hk Hp Hv Hq H x.
  destruct (any_call E fee w t caller to v body sto ev (fun _ => True) (fun x => x ≠ a) s' Hr Ht Hk Hp Hv (runs_as_within a body to Hq) ltac:(by right) H)
    as [(_ & _ & Hs & _) _].
  apply Hs. intros Hn. by apply Hn.
Qed.

(** Static calls only look. A read-only run, in whatever state, writes no account and no register,
    and storage, code and logs afterwards are those of a moment before it. Where it succeeds and
    catches no failure, they are those it found, and its answer is that of a reader of the plain
    ledger. *)
Definition kept (s : st) : gmap bytes code * gmap (bytes * Z) Z * list event := (w_code (s_w s), s_sto s, s_log s).
Definition moments (m : path st) : list (gmap bytes code * gmap (bytes * Z) Z * list event) :=
  kept (pt_cur m) :: map (fun e => kept e.2) (pt_up m).
Section looks.
Context (E : env) (fee : bytes) (m0 : path st).
Definition looked (m : path st) : Prop :=
  s_w (pt_cur m) = upd_code (s_w (pt_cur m0)) (fun _ => w_code (s_w (pt_cur m))) ∧ moments m ⊆ moments m0.
Lemma looked_0 : looked m0.
Proof. split; [by destruct (s_w (pt_cur m0))|done]. Qed.
Lemma looked_snapped m : looked m → looked (snapped m).
Proof. intros [H1 H2]. split; [exact H1|]. intros c Hc. apply H2. unfold moments, snapped in *. cbn in *. rewrite !elem_of_cons in *. tauto. Qed.
Lemma base_moments cur u : kept (pt_base cur u) ∈ kept cur :: map (fun e : bool * st => kept e.2) u.
Proof. revert cur. induction u as [|[b c] u IH]; intros cur; cbn; [by left|]. right. apply IH. Qed.
Lemma back_moments i cur u p : pt_back i cur u = Some p →
  kept (pt_cur p) :: map (fun e => kept e.2) (pt_up p) ⊆ kept cur :: map (fun e : bool * st => kept e.2) u.
Proof.
  revert cur. induction u as [|[b c] u IH]; intros cur H; [done|]. cbn in H. destruct (b && _).
  - injection H as <-. done.
  - intros x Hx. apply (IH _ H) in Hx. cbn. by right.
Qed.
Lemma looked_rollback m id m' : looked m → rollback m id = Some m' → looked m'.
Proof.
  intros [H1 H2] H. unfold rollback in H. destruct (pt_revert m id) as [p|] eqn:Hr; [|done]. injection H as <-. split.
  - cbn. by rewrite H1.
  - intros x Hx. apply H2. assert (Hx' : x ∈ kept (pt_cur p) :: map (fun e => kept e.2) (pt_up p)) by exact Hx. clear Hx.
    unfold pt_revert in Hr. destruct (id =? -1).
    + injection Hr as <-. apply elem_of_list_singleton in Hx'. cbn in Hx'. subst x. apply base_moments.
    + destruct (id <? 0); [done|]. by apply (back_moments _ _ _ _ Hr).
Qed.
Definition after_look (r : option (bool * path st)) : Prop := match r with Some (_, m) => looked m | None => True end.
Lemma looked_in_frame m go : looked m → (∀ m1, looked m1 → after_look (go m1)) → after_look (in_frame m go).
Proof.
  intros Hm Hgo. specialize (Hgo (snapped m) (looked_snapped m Hm)). unfold in_frame. cbn [pt_snapshot].
  change (Path (pt_cur m) ((true, pt_cur m) :: pt_up m)) with (snapped m).
  destruct (go (snapped m)) as [[[|] m2]|]; [done| |done]. cbn [after_look] in Hgo.
  destruct (rollback m2 _) as [m3|] eqn:Hr; [|done]. by eapply looked_rollback.
Qed.
Lemma frame_looks p : ∀ self m, looked m → after_look (frame E fee true p self m).
Proof.
  assert (Hgo : ∀ (m : path st) g (f : bool → prog) self, looked m → (∀ m1, looked m1 → after_look (g m1)) →
    (∀ b self m, looked m → after_look (frame E fee true (f b) self m)) →
    after_look (match in_frame m g with None => None | Some (ok, m') => frame E fee true (f ok) self m' end)).
  { intros m g f self Hm Hg Hf. pose proof (looked_in_frame m g Hm Hg) as H. destruct (in_frame m g) as [[ok m']|]; [|done]. by apply Hf. }
  induction p as [| |x v k IH|x k IH|n k IH|a k IH|to v k IH|to v body IHb k IH|heir|body IHb k IH|to body IHb k IH];
    intros self m Hm; cbn [frame]; try done.
  - by apply IH.
  - by apply IH, looked_snapped.
  - apply Hgo; [done| |done]. intros m1 H1. exact H1.
  - destruct (Z.eqb_spec v 0) as [->|Hz]; [|exact Hm]. cbn [negb andb]. unfold asked, can_transfer. cbn [Z.eqb orb].
    apply Hgo; [done| |done]. intros m1 H1. by apply IHb.
  - apply Hgo; [done| |done]. intros m1 H1. by apply IHb.
  - apply Hgo; [done| |done]. intros m1 H1. by apply IHb.
Qed.
End looks.
Theorem C114_static_writes_nothing E fee p self m ok m' :
  frame E fee true p self m = Some (ok, m') →
  s_w (pt_cur m') = upd_code (s_w (pt_cur m)) (fun _ => w_code (s_w (pt_cur m'))) ∧ moments m' ⊆ moments m.
Proof. intros H. pose proof (frame_looks E fee m p self m (looked_0 m)) as Hl. rewrite H in Hl. exact Hl. Qed.
Theorem C114_static_only_looks E fee w t p self sto ev c u :
  reachable E w → is_token w fee t → t_kind t = KERC20 →
  Forall (fun e => e.1 = true) u → let m := Path (St w sto ev) ((true, c) :: u) in
  match peek p self (Ledger (balance w fee) sto ev) with
  | (Told, true, _) => ∃ m', frame E fee true p self m = Some (true, m') ∧ pt_cur m' = St w sto ev
  | (Told, false, _) => ∃ m', frame E fee true p self m = Some (false, m')
  | (CatchesFailure, _, _) => True
  | (PaysBlocked, _, _) => False
  end.
Proof.
  intros Hr Ht Hk Hu m.
  pose proof (frame_peek E fee w (supply w fee) p self m _ c u (shows_start E fee w t sto ev Hr Ht Hk)) as H.
  assert (Hi : inside c u m) by (split; [by apply Forall_cons|by exists []]). specialize (H Hi).
  destruct (peek p self _) as [[[| |] [|]] l']; try done.
  - destruct H as (_ & m' & H1 & H2 & _). by exists m'.
  - destruct H as (m' & H1 & _). by exists m'.
Qed.
(** A library called by delegate acts as its caller: what it stores, logs and pays is stored,
    logged and paid by the caller, exactly as if its code stood there. *)
Fixpoint inline (body rest : prog) : prog :=
  match body with
  | PStop => rest
  | PRevert => PRevert
  | PStore x v k => PStore x v (inline k rest)
  | PLoad x k => PLoad x (fun r => inline (k r) rest)
  | PLog n k => PLog n (inline k rest)
  | PBalance a k => PBalance a (fun r => inline (k r) rest)
  | PSend a v k => PSend a v (fun r => inline (k r) rest)
  | PCall a v b k => PCall a v b (fun r => inline (k r) rest)
  | PDestruct a => PDestruct a
  | PDelegate b k => PDelegate b (fun r => inline (k r) rest)
  | PStatic a b k => PStatic a b (fun r => inline (k r) rest)
  end.
Fixpoint keeps_caller (p : prog) : Prop :=    (* does not destroy its caller *)
  match p with
  | PStop | PRevert => True
  | PDestruct _ => False
  | PStore _ _ k | PLog _ k => keeps_caller k
  | PLoad _ k | PBalance _ k => ∀ x, keeps_caller (k x)
  | PSend _ _ k | PCall _ _ _ k | PDelegate _ k | PStatic _ _ k => ∀ b, keeps_caller (k b)
  end.
Lemma eth_inline blk rest body : keeps_caller body → never_catches body → ∀ self l,
  eth blk (inline body rest) self l = match eth blk body self l with
    | (Told, true, l1) => eth blk rest self l1
    | (Told, false, l1) => (Told, false, l1)
    | (PaysBlocked, b, l1) => (PaysBlocked, b, l1)
    | (CatchesFailure, b, l1) => (CatchesFailure, b, l1)
    end.
Proof.
  induction body as [| |x v k IH|x k IH|n k IH|a k IH|to v k IH|to v b IHb k IH|heir|b IHb k IH|to b IHb k IH];
    intros Hd Hn self l; cbn [inline eth]; cbn [keeps_caller never_catches] in *; try done.
  - by apply IH.
  - by apply IH.
  - by apply IH.
  - by apply IH.
  - destruct Hn as [H1 H2]. rewrite H2. cbn [inline after_failure]. destruct (decide _); [|done]. destruct (blk to); [done|]. by apply IH.
  - destruct Hn as (H1 & H2 & H3). rewrite H3. cbn [inline after_failure eth]. destruct (decide _); [done|]. destruct (decide _); [done|].
    destruct (eth blk b to _) as [[[| |] [|]] l1]; try done. by apply IH.
  - destruct Hn as (H1 & H2 & H3). rewrite H3. cbn [inline after_failure eth].
    destruct (eth blk b self l) as [[[| |] [|]] l1]; try done. by apply IH.
  - destruct Hn as (H1 & H2 & H3). rewrite H3. cbn [inline after_failure eth].
    destruct (peek b to l) as [[[| |] [|]] l1]; try done. by apply IH.
Qed.
Lemma inline_ok body rest : prog_ok body → prog_ok rest → prog_ok (inline body rest).
Proof. intros Hb Hr. induction body; cbn in *; try done; naive_solver. Qed.
Lemma inline_catches body rest : never_catches body → never_catches rest → never_catches (inline body rest).
Proof.
  intros H Hr. induction body as [| |x v k IH|x k IH|n k IH|a k IH|to v k IH|to v b IHb k IH|heir|b IHb k IH|to b IHb k IH]; cbn in *; try done; auto.
  - destruct H as [H1 ->]. split; [auto|done].
  - destruct H as (H1 & H2 & ->). split_and!; auto.
  - destruct H as (H1 & H2 & ->). split_and!; auto.
  - destruct H as (H1 & H2 & ->). split_and!; auto.
Qed.
Theorem C114_delegate_inline E fee w t caller to v lib rest sto ev :
  reachable E w → is_token w fee t → t_kind t = KERC20 → fee ≠ null_addr → amount_ok v →
  prog_ok lib → prog_ok rest → never_catches lib → never_catches rest → keeps_caller lib →
  match evm_call E fee caller to v (PDelegate lib (fun ok => if ok then rest else PRevert)) (St w sto ev),
        evm_call E fee caller to v (inline lib rest) (St w sto ev) with
  | Some s1, Some s2 => (∀ c a, balance (s_w s1) c a = balance (s_w s2) c a) ∧ s_sto s1 = s_sto s2 ∧ s_log s1 = s_log s2
  | None, None => True
  | _, _ => False
  end.
Proof.
  intros Hr Ht Hk Hn Hv Hp1 Hp2 Hn1 Hn2 Hd.
  set (l1 := if decide (v = 0) then Ledger (balance w fee) sto ev else note (pay (Ledger (balance w fee) sto ev) caller to v) [EMoved caller to v]).
  assert (Hp : prog_ok (PDelegate lib (fun ok => if ok then rest else PRevert))) by (split; [done|]; by intros []).
  assert (Hc : never_catches (PDelegate lib (fun ok => if ok then rest else PRevert))) by by split_and!.
  pose proof (C114_commit E fee w t caller to v _ sto ev Hr Ht Hk Hn Hp Hv) as H1. cbv zeta in H1. fold l1 in H1.
  pose proof (C114_commit E fee w t caller to v _ sto ev Hr Ht Hk Hn (inline_ok _ _ Hp1 Hp2) Hv) as H2. cbv zeta in H2. fold l1 in H2.
  specialize (H1 (eth_told _ _ Hc _ _)). specialize (H2 (eth_told _ _ (inline_catches _ _ Hn1 Hn2) _ _)).
  rewrite eth_inline in H2 by done. cbn [eth after_failure] in H1. set (r := eth (is_blocked E w) lib to l1) in *.
  destruct (evm_call E fee caller to v (PDelegate _ _) _) as [s1|], (evm_call E fee caller to v (inline _ _) _) as [s2|].
  - destruct H1 as ((_ & _ & A0) & A1 & A2 & A3 & A4 & A5), H2 as ((_ & _ & B0) & B1 & B2 & B3 & B4 & B5).
    destruct r as [[[| |] [|]] lr]; try done. split; [|split; congruence].
    intros c a. destruct (decide (c = fee)) as [->|Hc']; [by rewrite A1, B1|by rewrite A5, B5].
  - destruct H1 as ((A1 & A2 & A3) & _). apply H2. split; [done|]. split; [done|]. clear -A3. by destruct r as [[[| |] [|]] lr].
  - destruct H2 as ((A1 & A2 & A3) & _). apply H1. split; [done|]. split; [done|]. clear -A3. by destruct r as [[[| |] [|]] lr].
  - done.
Qed.

Lemma eth_keeps blk a p : prog_ok p → ∀ self l, never_pays a self p → (∀ x, 0 <= l_bal l x) →
  let r := eth blk p self l in (∀ x, 0 <= l_bal r.2 x) ∧ l_bal l a <= l_bal r.2 a.
Proof.
  assert (Hpay : ∀ l b v x, 0 <= v <= l_bal l b → ∀ c, 0 <= l_bal l x → 0 <= l_bal (pay l b c v) x).
  { intros. simpl. repeat case_bool_decide; subst; lia. }
  assert (Hpay' : ∀ l b v c, 0 <= v → b ≠ a → l_bal l a <= l_bal (pay l b c v) a).
  { intros. simpl. rewrite (bool_decide_eq_false_2 (a = b)) by done. case_bool_decide; lia. }
  assert (Haf : ∀ p l, (after_failure p l).2 = l) by by intros [].
  induction p as [| |x v k IH|x k IH|n k IH|b k IH|to v k IH|to v body IHb k IH|heir|body IHb k IH|to body IHb k IH]; intros Hp self l Hq Hl; cbn [eth].
  - split; [done|]. simpl. lia.
  - split; [done|]. simpl. lia.
  - by apply (IH Hp self (Ledger _ _ _)).
  - by apply IH.
  - by apply (IH Hp self (note l _)).
  - by apply IH.
  - destruct Hp as [Hv Hk], Hq as [Hne Hq]. destruct (decide _) as [Hle|]; [|by rewrite Haf].
    destruct (blk to); [by rewrite Haf|].
    destruct (IH true (Hk true) self (note (pay l self to v) [EMoved self to v]) (Hq true)) as [H1 H2].
    { intros x. apply Hpay; [unfold amount_ok in Hv; lia|done]. }
    split; [done|]. etransitivity; [|exact H2]. apply Hpay'; [apply Hv|done].
  - destruct Hp as (Hv & Hpb & Hk), Hq as (Hne & Hqb & Hq).
    destruct (decide (v ≠ 0 ∧ l_bal l self < v)) as [|Hle]; [by apply IH|].
    destruct (decide (v ≠ 0 ∧ blk to = true)); [by split|].
    set (l1 := if decide (v = 0) then l else _).
    assert (H1 : (∀ x, 0 <= l_bal l1 x) ∧ l_bal l a <= l_bal l1 a).
    { unfold l1. destruct (decide (v = 0)) as [|Hz]; [done|]. assert (v <= l_bal l self) by (destruct (decide (v <= l_bal l self)); [done|]; exfalso; apply Hle; lia).
      split; [intros x; apply Hpay; [unfold amount_ok in Hv; lia|done]|]. apply Hpay'; [apply Hv|]. by destruct Hne. }
    destruct (IHb Hpb to l1 Hqb (proj1 H1)) as [G1 G2]. destruct (eth blk body to l1) as [[[| |] [|]] l2]; cbn [snd] in *; try (split; [done|lia]).
    + destruct (IH true (Hk true) self l2 (Hq true) G1) as [F1 F2]. split; [done|lia].
    + rewrite Haf. by split.
  - simpl in Hq. destruct (decide (l_bal l self = 0)); simpl; [split; [done|lia]|].
    split.
    + intros x. apply (Hpay l self (l_bal l self) x); [|done]. specialize (Hl self). lia.
    + apply Hpay'; [apply Hl|done].
  - destruct Hp as (Hpb & Hk), Hq as (Hqb & Hq). destruct (IHb Hpb self l Hqb Hl) as [G1 G2].
    destruct (eth blk body self l) as [[[| |] [|]] l2]; cbn [snd] in *; try (split; [done|lia]).
    + destruct (IH true (Hk true) self l2 (Hq true) G1) as [F1 F2]. split; [done|lia].
    + rewrite Haf. by split.
  - destruct (peek body to l) as [[[| |] [|]] l2] eqn:Hpk; cbn [snd] in *; try (rewrite Haf; by split).
    + by apply IH.
    + apply peek_same in Hpk. subst. by split.
    + apply peek_same in Hpk. subst. by split.
    + apply peek_same in Hpk. subst. by split.
    + apply peek_same in Hpk. subst. by split.
Qed.
(** The same from any state that shows a ledger. *)
Lemma shows_fine E fee w0 sup s l (P Q : bytes → Prop) : shows E fee w0 sup s l →
  fine fee w0 sup P Q (l_bal l) (l_sto l) (l_ev l) s ∧ grown E w0 (s_w s).
Proof.
  intros [(t & Ht & Hok & Hk & Hs) H2 H3 H4 H5 H6 H7 H8]. split.
  - split; [|split; [done|]; split; [by rewrite H3|by rewrite H4]]. exists t. split; [done|]. split; [done|]. split; [done|]. split; [lia|].
    intros a _. rewrite <- H2. unfold balance. unfold is_token in Ht. by rewrite Ht.
  - by split_and!.
Qed.
Lemma fine_shows E fee w0 sup s (P Q : bytes → Prop) bal0 sto0 ev0 :
  fine fee w0 sup P Q bal0 sto0 ev0 s → grown E w0 (s_w s) →
  ∃ sup', sup' <= sup ∧ shows E fee w0 sup' s (Ledger (balance (s_w s) fee) (s_sto s) (s_log s)).
Proof.
  intros ((t & Ht & Hok & Hk & Hs & _) & Hc & _ & _) (G1 & G2 & G3). exists (t_supply t). split; [done|]. split; try done. by exists t.
Qed.
Lemma execute_any E fee w0 sup s l caller to v body s' :
  shows E fee w0 sup s l → prog_ok body → amount_ok v →
  execute E fee (fun s => s) caller to v body s = Some (true, s') →
  (∃ sup' l', sup' <= sup ∧ shows E fee w0 sup' s' l') ∧
  ∀ sup' l', shows E fee w0 sup' s' l' → sup' <= sup ∧
    (∀ y, (v = 0 ∨ caller ≠ y) → never_pays y to body → l_bal l y <= l_bal l' y) ∧
    (∀ y, ¬ runs_as y to body → ∀ x, l_sto l' !! (y, x) = l_sto l !! (y, x)) ∧ l_ev l `prefix_of` l_ev l'.
Proof.
  intros HR Hp Hv He.
  assert (Hgo : ∀ P Q : bytes → Prop, within P Q to body → (v = 0 ∨ P caller) →
    fine fee w0 sup P Q (l_bal l) (l_sto l) (l_ev l) s' ∧ grown E w0 (s_w s')).
  { intros P Q Hw Hc. destruct (shows_fine E fee w0 sup s l P Q HR) as [Hf Hg].
    by apply (execute_sound E fee w0 sup P Q (l_bal l) (l_sto l) (l_ev l) (fun s => s) caller to v body s true s'). }
  destruct (Hgo (fun _ => True) (fun _ => True)) as [Hf Hg]; [apply within_all|by right|]. split.
  - destruct (fine_shows E fee w0 sup s' _ _ _ _ _ Hf Hg) as (sup' & H1 & H2). by eexists _, _.
  - intros sup' l' HR'. split_and!.
    + destruct Hf as ((t & Ht & _ & _ & Hs & _) & _). destruct (sh_fee _ _ _ _ _ _ HR') as (t' & Ht' & _ & _ & <-). unfold is_token in *. by simplify_eq.
    + intros y Hc Hq. destruct (Hgo (fun x => x ≠ y) (fun _ => True)) as [((t & Ht & _ & _ & _ & Hb) & _) _]; [by apply never_pays_within|done|].
      rewrite <- (sh_bal _ _ _ _ _ _ HR'). unfold balance. unfold is_token in Ht. rewrite Ht. apply Hb. intros Hn. by apply Hn.
    + intros y Hq x. destruct (Hgo (fun _ => True) (fun x => x ≠ y)) as [(_ & _ & Hs & _) _]; [by apply runs_as_within|by right|].
      rewrite <- (sh_sto _ _ _ _ _ _ HR'). apply Hs. intros Hn. by apply Hn.
    + destruct Hf as (_ & _ & _ & Hl). by rewrite <- (sh_ev _ _ _ _ _ _ HR').
Qed.

(** ** C115: what does not hold *)
(** A payment that is refused does not fail its own frame only. Paying a blocked address by a
    call with value aborts the transaction, whatever the caller would do about the failure. *)
Theorem C115_blocked_payment_refuted E fee w t caller self to v body k sto ev :
  reachable E w → is_token w fee t → t_kind t = KERC20 → fee ≠ null_addr →
  0 < v <= balance w fee self → is_blocked E w to = true →
  execute E fee (fun s => s) caller self 0 (PCall to v body k) (St w sto ev) = None.
Proof.
  intros Hr Ht Hk Hn Hv Hb. pose proof (iv_tok E w (inv_reachable E w Hr) fee t Ht) as Hok.
  pose proof (shows_start E fee w t sto ev Hr Ht Hk) as HR.
  assert (Ha : amount_ok v).
  { unfold balance in Hv. unfold is_token in Ht. rewrite Ht in Hv. pose proof (bal_range t self Hok). pose proof (ok_bound t Hok). unfold amount_ok. lia. }
  unfold execute, asked at 1, can_transfer at 1. cbn [Z.eqb orb].
  rewrite in_frame_none; [done|]. unfold hook_transfer at 1. cbn [Z.eqb frame andb].
  pose proof (can_is E fee w (supply w fee) Hn _ _ self v HR ltac:(by eapply (shows_nonneg E fee w (supply w fee))) Ha) as Hcan.
  rewrite bool_decide_eq_true_2 in Hcan by (cbn; lia). cbn [s_w] in Hcan. cbn [snapped pt_snapshot fst pt_cur pt_set s_w]. rewrite Hcan, in_frame_none; [done|].
  rewrite (hook_panics E fee w (supply w fee) _ (Ledger (balance w fee) sto ev) self to v); try done; [|lia].
  unfold asked. destruct (v =? 0); cbn [orb]; [exact HR|]. destruct (bool_decide _); exact HR.
Qed.
(** So in a contract that pays a list of accounts and carries on when a payment fails, one
    blocked account keeps everybody from being paid; were nobody blocked, everybody would be. *)
Fixpoint pay_all (l : list (bytes * Z)) : prog :=
  match l with [] => PStop | (a, v) :: l' => PCall a v PStop (fun _ => pay_all l') end.
Lemma eth_pay_all blk l : ∀ self g, Forall (fun p => 0 <= p.2) l → foldr (fun p s => p.2 + s) 0 l <= l_bal g self →
  ((∃ p, p ∈ l ∧ 0 < p.2 ∧ blk p.1 = true) → (eth blk (pay_all l) self g).1.1 = PaysBlocked) ∧
  ((∀ a, blk a = false) → (eth blk (pay_all l) self g).1 = (Told, true)).
Proof.
  induction l as [|[b v] l IH]; intros self g Hv Hs; cbn [pay_all eth].
  - split; [|done]. by intros (p & H%elem_of_nil & _).
  - apply Forall_cons in Hv as [Hv0 Hv]. simpl in Hv0, Hs.
    assert (Hsum : 0 <= foldr (fun p s => p.2 + s) 0 l).
    { clear -Hv. induction Hv; simpl; lia. }
    assert (Hrest : (∃ p, p ∈ (b, v) :: l ∧ 0 < p.2 ∧ blk p.1 = true) →
      (0 < v ∧ blk b = true) ∨ ∃ p, p ∈ l ∧ 0 < p.2 ∧ blk p.1 = true).
    { intros (p & [-> |Hin]%elem_of_cons & H1 & H2); [by left|right]. by exists p. }
    rewrite decide_False by (cbn; lia).
    destruct (decide (v ≠ 0 ∧ blk b = true)) as [[Hz Hb]|Hnb]; [split; [done|intros Hf; by rewrite Hf in Hb]|].
    set (g1 := if decide (v = 0) then g else note (pay g self b v) [EMoved self b v]).
    destruct (IH self g1 Hv) as [H1 H2].
    { unfold g1. destruct (decide (v = 0)); [lia|]. simpl. rewrite (bool_decide_eq_true_2 (self = self)) by done. case_bool_decide; lia. }
    split; [|exact H2]. intros [[Hp Hb]|]%Hrest; [exfalso; apply Hnb; split; [lia|done]|by apply H1].
Qed.
Theorem C115_one_blocks_all_refuted E fee w t caller self l sto ev :
  reachable E w → is_token w fee t → t_kind t = KERC20 → fee ≠ null_addr →
  Forall (fun p => amount_ok p.2) l → foldr (fun p s => p.2 + s) 0 l <= balance w fee self →
  (∃ p, p ∈ l ∧ 0 < p.2 ∧ is_blocked E w p.1 = true) →
  execute E fee (fun s => s) caller self 0 (pay_all l) (St w sto ev) = None ∧
  (eth (fun _ => false) (pay_all l) self (Ledger (balance w fee) sto ev)).1 = (Told, true).
Proof.
  intros Hr Ht Hk Hn Hv Hs Hb.
  assert (Hp : prog_ok (pay_all l)).
  { clear -Hv. induction Hv as [|[b v] l]; simpl; [done|]. split_and!; try done. }
  assert (Hv' : Forall (fun p : bytes * Z => 0 <= p.2) l) by (eapply Forall_impl; [exact Hv|]; by intros [b v] [? ?]).
  split; [|by apply eth_pay_all]. 
  destruct (eth_pay_all (is_blocked E w) l self (Ledger (balance w fee) sto ev) Hv' Hs) as [H1 _]. specialize (H1 Hb).
  pose proof (execute_shows E fee w (supply w fee) Hn (fun s => s) (St w sto ev) _ caller self 0 (pay_all l) (shows_start E fee w t sto ev Hr Ht Hk) eq_refl Hp) as H.
  assert (Ha : amount_ok 0) by (unfold amount_ok, two256; lia). specialize (H Ha). unfold outer in H. cbn [eth] in H.
  rewrite decide_False, decide_False, decide_True in H by (by try intros []).
  destruct (eth (is_blocked E w) (pay_all l) self _) as [[o ok] l']. cbn in H1. subst o. exact H.
Qed.
(** A contract that destroys itself pays its heir even if the heir is blocked. *)
Theorem C115_destruct_pays_blocked_refuted E fee w t caller self heir sto ev :
  reachable E w → is_token w fee t → t_kind t = KERC20 → fee ≠ null_addr → self ≠ heir →
  ∃ s', evm_call E fee caller self 0 (PDestruct heir) (St w sto ev) = Some s' ∧
    balance (s_w s') fee heir = balance w fee heir + balance w fee self ∧ balance (s_w s') fee self = 0.
Proof.
  intros Hr Ht Hk Hn Hne. assert (Ha : amount_ok 0) by (unfold amount_ok, two256; lia).
  assert (Hpos : 0 <= balance w fee caller).
  { unfold balance. pose proof (iv_tok E w (inv_reachable E w Hr) fee t Ht) as Hok. unfold is_token in Ht. rewrite Ht. by apply bal_range. }
  pose proof (C114_commit E fee w t caller self 0 (PDestruct heir) sto ev Hr Ht Hk Hn I Ha) as H. cbv zeta in H. rewrite decide_True in H by done.
  cbn [eth fst snd] in H. specialize (H ltac:(done)).
  destruct (evm_call _ _ _ _ _ _ _) as [s'|]; [|exfalso; apply H; split; [done|]; split; [by left|done]].
  destruct H as (_ & Hb & _). exists s'. split; [done|]. rewrite !Hb. cbn [l_bal].
  destruct (decide _) as [Hz|Hz]; simpl; [cbn in Hz; lia|].
  rewrite (bool_decide_eq_false_2 (heir = self)), (bool_decide_eq_true_2 (heir = heir)), (bool_decide_eq_true_2 (self = self)),
    (bool_decide_eq_false_2 (self = heir)) by done. lia.
Qed.

(** *** Failures that are caught *)
Lemma iter_snapped_path k (m : path st) : Nat.iter k snapped m = Path (pt_cur m) (replicate k (true, pt_cur m) ++ pt_up m).
Proof. induction k as [|k IH]; [by destruct m|]. change (Nat.iter (S k) snapped m) with (snapped (Nat.iter k snapped m)). by rewrite IH. Qed.
Lemma tok_frame_path E fee m sender o ev s' : tok_call E fee (pt_cur m) sender o ev = (true, s') →
  ∃ k, tok_frame E fee m sender o ev = Some (true, Path s' (replicate (S k) (true, pt_cur m) ++ pt_up m)).
Proof.
  intros H. unfold tok_frame, in_frame. cbn [pt_snapshot]. cbv zeta. set (k := inner_frames _ _ _). rewrite iter_snapped_path. cbn [pt_cur pt_up].
  rewrite H. exists k. unfold pt_set. cbn [pt_up]. do 3 f_equal. clearbody k. induction k as [|k IH]; [done|]. cbn in *. by rewrite IH.
Qed.
Lemma clean_path k (s : st) u : clean u → clean (replicate k (true, s) ++ u).
Proof. intros H. induction k; [done|]. by apply Forall_cons. Qed.
Lemma failed_call E fee ro q k self m : clean (pt_up m) →
  frame E fee ro (PCall q 0 PRevert k) self m = frame E fee ro (k false) self (Path (pt_cur m) (kill (pt_up m))).
Proof.
  intros Hc. cbn [frame Z.eqb negb]. rewrite andb_false_r. unfold asked, can_transfer. cbn [Z.eqb orb].
  match goal with |- context [in_frame m ?g] => destruct (in_frame_false m g (snapped m) Hc) as (m3 & -> & H1 & H2) end.
  - cbn. by destruct ro.
  - apply inside_over, inside_new, Hc.
  - destruct m3 as [c3 u3]. cbn in H1, H2. subst. by rewrite undo_same.
Qed.
Lemma flush_same (s : st) u : Forall (fun e => e.2 = s) u → pt_flush s u = s.
Proof. intros H. induction H as [|[b c] u Hb _ IH]; [done|]. cbn in *. subst c. by destruct b. Qed.

(** A contract that stores, calls another that fails, and goes on, to store again and to log: the
    transaction succeeds, and nothing of it is kept, neither what was stored, nor the log, nor the
    value it was called with. *)
Theorem C115_caught_failure_loses_all_refuted E fee w t caller self q v x a y b n sto ev :
  reachable E w → is_token w fee t → t_kind t = KERC20 → fee ≠ null_addr → amount_ok v →
  v <= balance w fee caller → (v = 0 ∨ is_blocked E w self = false) →
  ∃ s', evm_call E fee caller self v (PStore x a (PCall q 0 PRevert (fun _ => PStore y b (PLog n PStop)))) (St w sto ev) = Some s' ∧
    s_sto s' = sto ∧ s_log s' = ev ∧ ∀ c z, balance (s_w s') c z = balance w c z.
Proof.
  intros Hr Ht Hk Hn Hv Hle Hb. pose proof (shows_start E fee w t sto ev Hr Ht Hk) as HR. set (s := St w sto ev) in *.
  unfold evm_call, execute.
  rewrite (can_is E fee w (supply w fee) Hn s _ caller v HR) by (try done; by eapply (shows_nonneg E fee w (supply w fee))).
  rewrite bool_decide_eq_true_2 by done.
  set (m0 := asked fee (Path s []) v).
  assert (Hm0 : pt_cur m0 = s ∧ clean (pt_up m0) ∧ Forall (fun e => e.2 = s) (pt_up m0)).
  { unfold m0, asked. destruct (_ || _); cbn; split_and!; try done; try by apply Forall_nil. all: apply Forall_cons; split; [done|by apply Forall_nil]. }
  destruct Hm0 as (Hc0 & Hcl & Hall).
  assert (Hhook : ∃ s1 u, hook_transfer E fee (snapped m0) caller self v = Some (Path s1 u) ∧ clean u ∧ Forall (fun e => e.2 = s) u).
  { assert (H1 : clean (pt_up (snapped m0)) ∧ Forall (fun e => e.2 = s) (pt_up (snapped m0))).
    { cbn. split; [by apply Forall_cons|]. by apply Forall_cons. }
    unfold hook_transfer. destruct (Z.eqb_spec v 0) as [|Hz]; [by eexists _, _|]. destruct Hb as [|Hb]; [done|].
    destruct (tok_send E fee w (supply w fee) s (Ledger (balance w fee) sto ev) caller self v (EMoved caller self v) HR Hv Hle Hb) as (s1 & Hc & _).
    destruct (tok_frame_path E fee (snapped m0) caller (OTransfer self v) (EMoved caller self v) s1) as (k & Hf); [by cbn; rewrite Hc0|].
    unfold tok_must. rewrite Hf. eexists _, _. split; [reflexivity|]. split; [apply clean_path; apply H1|].
    apply Forall_app. split; [|by apply H1]. apply Forall_replicate. cbn. by rewrite Hc0. }
  destruct Hhook as (s1 & u & Hh & Hcu & Hau).
  set (code := PStore x a _).
  assert (Hf : ∃ s2, frame E fee false code self (Path s1 u) = Some (true, Path s2 (kill u))).
  { unfold code. set (rest := fun _ : bool => PStore y b (PLog n PStop)).
    change (frame E fee false (PStore x a (PCall q 0 PRevert rest)) self (Path s1 u)) with
      (frame E fee false (PCall q 0 PRevert rest) self (Path (St (s_w s1) (<[(self, x) := a]> (s_sto s1)) (s_log s1)) u)).
    rewrite failed_call by done. unfold rest. cbn [frame pt_cur pt_up pt_set]. by eexists. }
  destruct Hf as (s2 & Hf).
  match goal with |- context [in_frame m0 ?g] => rewrite (in_frame_true m0 g (Path s2 (kill u))) end.
  2:{ cbn [snapped pt_snapshot fst]. rewrite <- Hf. change (Path (pt_cur m0) ((true, pt_cur m0) :: pt_up m0)) with (snapped m0).
      replace (pt_set (snapped m0) (pt_cur (snapped m0))) with (snapped m0) by done. by rewrite Hh. }
  exists (settle (Path s2 (kill u))). split; [done|].
  assert (Hcm : pt_commit (Path s2 (kill u)) = s ∨ u = []).
  { unfold pt_commit. cbn [pt_cur pt_up]. destruct u as [|[c d] u]; [by right|]. left. cbn. apply Forall_cons in Hau as [Hd Hau]. cbn in Hd. subst d. by apply flush_same. }
  destruct Hcm as [Hcm|Hu].
  - unfold settle. rewrite Hcm. by split_and!.
  - exfalso. subst u. unfold hook_transfer in Hh. destruct (v =? 0); [by injection Hh|].
    unfold tok_must in Hh. destruct (tok_frame _ _ _ _ _ _) as [[[|] m']|] eqn:Hf'; [|done|done]. injection Hh as ->.
    destruct (tok_must_inv E fee (snapped m0) caller (OTransfer self v) (EMoved caller self v) (Path s1 [])) as (_ & s3 & Hc3 & _); [unfold tok_must; by rewrite Hf'|].
    destruct (tok_frame_path E fee (snapped m0) caller (OTransfer self v) (EMoved caller self v) s3 Hc3) as (k & Hf''). by rewrite Hf' in Hf''.
Qed.
(** Money can be destroyed: a contract is called that destroys itself in favour of an heir, then
    another call fails and is caught. The transaction succeeds; the destroyed contract's balance is
    gone, nobody has got it, and the supply has shrunk by it. *)
Theorem C115_money_destroyed_refuted E fee w t caller self d heir q sto ev :
  reachable E w → is_token w fee t → t_kind t = KERC20 → fee ≠ null_addr → 0 < balance w fee d →
  ∃ s', evm_call E fee caller self 0 (PCall d 0 (PDestruct heir) (fun _ => PCall q 0 PRevert (fun _ => PStop))) (St w sto ev) = Some s' ∧
    supply (s_w s') fee = supply w fee - balance w fee d ∧
    balance (s_w s') fee d = 0 ∧ ∀ a, a ≠ d → balance (s_w s') fee a = balance w fee a.
Proof.
  intros Hr Ht Hk Hn Hpos. pose proof (shows_start E fee w t sto ev Hr Ht Hk) as HR. set (s := St w sto ev) in *.
  pose proof (iv_tok E w (inv_reachable E w Hr) fee t Ht) as Hok.
  destruct (destruct_shows E fee w (supply w fee) s _ d heir HR) as [Hbal Hd]. cbn [l_bal] in Hbal, Hd. set (v := balance w fee d) in *.
  rewrite decide_False in Hd by lia. destruct Hd as (s1 & s2 & H1 & H2 & _).
  assert (Hbt : bal t d = v). { unfold v, balance. unfold is_token in Ht. by rewrite Ht. }
  pose proof (bal_range t d Hok) as Hrg. pose proof (ok_bound t Hok) as Hbd.
  assert (Hs1 : s_w s1 = upd_code w (insert fee (CTok (set_supply (set_bal t d (bal t d - v)) (t_supply t - v))))).
  { unfold tok_call, call_tok in H1. change (s_w s) with w in H1. pose proof Ht as Ht'. unfold is_token in Ht'. rewrite Ht' in H1. cbn [guards] in H1. rewrite Hk in H1.
    destruct (bool_decide _); [|done]. cbn [op_recipient body] in H1. rewrite tok_burn_spec in H1 by (try done; unfold amount_ok; lia).
    rewrite decide_True in H1 by lia. by injection H1 as <-. }
  unfold evm_call, execute. unfold can_transfer, asked. cbn [Z.eqb orb].
  assert (Hin : ∃ u, clean u ∧ frame E fee false (PDestruct heir) d (Path s [(true, s); (true, s)]) = Some (true, Path s2 ((true, s1) :: u)) ).
  { cbn [frame pt_cur]. rewrite Hbal. set (m0 := if empty_addr _ _ _ then _ else _).
    assert (Hm0 : pt_cur m0 = s ∧ clean (pt_up m0)).
    { unfold m0. destruct (empty_addr _ _ _); (split; [done|]); repeat (apply Forall_cons; split; [done|]); by apply Forall_nil. }
    destruct Hm0 as [Hc0 Hcl]. unfold sub_balance, add_balance. rewrite (proj2 (Z.eqb_neq v 0)) by lia.
    destruct (tok_frame_path E fee m0 chain_addr (OSudoBurn d v) (EMoved d null_addr v) s1) as (k & Hf1); [by rewrite Hc0|].
    unfold tok_must at 1. rewrite Hf1.
    destruct (tok_frame_path E fee (Path s1 (replicate (S k) (true, pt_cur m0) ++ pt_up m0)) chain_addr (OSudoMint heir v) (EMoved null_addr heir v) s2 H2) as (k2 & Hf2).
    unfold tok_must. rewrite Hf2. eexists. split; [|reflexivity]. apply clean_path, clean_path, Hcl. }
  destruct Hin as (u & Hcu & Hin).
  set (code := PCall d 0 _ _).
  assert (Hf : frame E fee false code self (Path s [(true, s)]) = Some (true, Path s2 ((false, s1) :: u))).
  { unfold code. set (rest := fun _ : bool => PCall q 0 PRevert (fun _ => PStop)).
    change (frame E fee false (PCall d 0 (PDestruct heir) rest) self (Path s [(true, s)])) with
      (match in_frame (Path s [(true, s)]) (frame E fee false (PDestruct heir) d) with
       | None => None | Some (ok, m') => frame E fee false (rest ok) self m' end).
    rewrite (in_frame_true (Path s [(true, s)]) (frame E fee false (PDestruct heir) d) (Path s2 ((true, s1) :: u)) Hin).
    unfold rest. rewrite failed_call by by apply Forall_cons. done. }
  rewrite (in_frame_true _ _ (Path s2 ((false, s1) :: u))).
  2:{ exact Hf. }
  exists (settle (Path s2 ((false, s1) :: u))). split; [done|]. unfold settle, pt_commit. cbn [pt_cur pt_up pt_flush].
  rewrite commit_clean by done.
  assert (Hcode : w_code (s_w (undo s1 s2)) !! fee = Some (CTok (set_supply (set_bal t d (bal t d - v)) (t_supply t - v)))).
  { cbn. rewrite Hs1. cbn. by rewrite lookup_insert. }
  unfold is_token in Ht. split_and!.
  - unfold supply. rewrite Hcode, Ht. done.
  - unfold balance. rewrite Hcode. unfold bal. cbn. rewrite lookup_insert. cbn. unfold bal in Hbt. lia.
  - intros a Ha. unfold balance. rewrite Hcode, Ht. unfold bal. cbn. by rewrite lookup_insert_ne.
Qed.
Lemma static_fails_1 E fee ro q k self c s :
  frame E fee ro (PStatic q PRevert k) self (Path c [(true, s)]) = frame E fee ro (k false) self (Path (undo c c) [(false, s)]).
Proof. reflexivity. Qed.
Lemma static_fails_2 E fee ro q k self c s :
  frame E fee ro (PStatic q PRevert k) self (Path c [(false, s)]) = frame E fee ro (k false) self (Path (undo s c) []).
Proof. reflexivity. Qed.
(** A contract does not see its own writes any more after two calls of it have failed: here it
    stores, makes two read-only calls that fail, and reads the slot as it was before. *)
Theorem C115_write_unseen_refuted E fee caller self q x a s :
  ∃ s', evm_call E fee caller self 0
    (PStore x a (PStatic q PRevert (fun _ => PStatic q PRevert (fun _ =>
       PLoad x (fun r => if decide (r = default 0 (s_sto s !! (self, x))) then PStop else PRevert))))) s = Some s'.
Proof.
  set (rest := fun _ : bool => PLoad x _). set (rest1 := fun _ : bool => PStatic q PRevert rest).
  set (s1 := St (s_w s) (<[(self, x) := a]> (s_sto s)) (s_log s)).
  assert (Hf : frame E fee false (PStore x a (PStatic q PRevert rest1)) self (Path s [(true, s)]) = Some (true, Path (undo s (undo s1 s1)) [])).
  { change (frame E fee false (PStatic q PRevert rest1) self (Path s1 [(true, s)]) = Some (true, Path (undo s (undo s1 s1)) [])).
    rewrite static_fails_1. unfold rest1. rewrite static_fails_2. unfold rest. cbn [frame pt_cur undo s_sto]. rewrite decide_True by done. reflexivity. }
  unfold evm_call, execute, can_transfer, asked. cbn [Z.eqb orb].
  erewrite in_frame_true; [by eexists|]. exact Hf.
Qed.
(** A failing call can abort the transaction although its caller would go on: here the callee
    catches two failures of its own and then fails. *)
Theorem C115_failure_aborts_refuted E fee caller self b q k s :
  execute E fee (fun s => s) caller self 0
    (PCall b 0 (PStatic q PRevert (fun _ => PStatic q PRevert (fun _ => PRevert))) k) s = None.
Proof. unfold execute, can_transfer, asked. cbn [Z.eqb orb]. reflexivity. Qed.
(** What a failed call wrote can still be there for its caller: here the callee catches two
    failures, makes a call that succeeds, stores [a] and fails; the caller, told of the failure,
    finds [a] in the callee's slot. *)
Theorem C115_failed_frame_seen_refuted E fee caller self b q x a s :
  ∃ s', evm_call E fee caller self 0
    (PCall b 0 (PStatic q PRevert (fun _ => PStatic q PRevert (fun _ => PStatic q PStop (fun _ => PStore x a PRevert))))
       (fun ok => if ok then PRevert else
          PStatic b (PLoad x (fun r => if decide (r = a) then PStop else PRevert)) (fun ok => if ok then PStop else PRevert))) s = Some s'.
Proof.
  set (body := PStatic q PRevert _). set (rest := fun ok : bool => if ok then PRevert else _).
  set (s1 := St (s_w s) (<[(b, x) := a]> (s_sto s)) (s_log s)).
  assert (Hb : in_frame (Path s [(true, s)]) (frame E fee false body b) = Some (false, Path (undo s1 s1) [(false, undo s s); (false, s)])) by reflexivity.
  assert (Hf : ∃ m, frame E fee false (PCall b 0 body rest) self (Path s [(true, s)]) = Some (true, m)).
  { change (∃ m, match in_frame (Path s [(true, s)]) (frame E fee false body b) with
                 | None => None | Some (ok, m') => frame E fee false (rest ok) self m' end = Some (true, m)).
    rewrite Hb. unfold rest. set (look := PLoad x _). set (next := fun ok : bool => if ok then PStop else PRevert).
    change (∃ m, match in_frame (Path (undo s1 s1) [(false, undo s s); (false, s)]) (frame E fee true look b) with
                 | None => None | Some (ok, m') => frame E fee false (next ok) self m' end = Some (true, m)).
    erewrite in_frame_true; [by eexists|]. unfold look. cbn [frame snapped pt_snapshot fst pt_cur undo s_sto s1].
    rewrite lookup_insert. cbn [default]. rewrite decide_True by done. reflexivity. }
  destruct Hf as (m & Hf). unfold evm_call, execute, can_transfer, asked. cbn [Z.eqb orb].
  erewrite in_frame_true; [by eexists|]. exact Hf.
Qed.
(** ** Examples *)
(** A contract called with 30 pays bob 20 of it, asks for its balance and stores it. *)
Definition x_carol : bytes := replicate 19 1%N ++ [12%N].
Definition x_tree : prog :=
  PCall x_bob 20 PStop (fun ok => if ok then PBalance x_carol (fun b => PStore 2 b PStop) else PRevert).
Example C114_example :
  reachable x_env x_w2 ∧ prog_ok x_tree ∧ never_catches x_tree ∧
  match evm_call x_env x_stake_at x_alice x_carol 30 x_tree (St x_w2 ∅ []) with
  | Some s => balance (s_w s) x_stake_at x_alice = 30 ∧ balance (s_w s) x_stake_at x_bob = 20 ∧ balance (s_w s) x_stake_at x_carol = 10 ∧
      s_sto s !! (x_carol, 2) = Some 10 ∧ s_log s = [EMoved x_alice x_carol 30; EMoved x_carol x_bob 20]
  | None => False
  end.
Proof.
  split; [apply x_reachable, x_w2_steps|]. split; [|split].
  - simpl. unfold amount_ok. split_and!; try done. by intros [].
  - simpl. by split_and!.
  - vm_compute. done.
Qed.
(** A static call reads another contract, a library run by delegate writes the caller's storage. *)
Example C114_static_example :
  match evm_call x_env x_stake_at x_bob x_alice 0
    (PStatic x_bob (PCall x_alice 0 (PBalance x_alice (fun b => if b =? 60 then PStop else PRevert)) (fun ok => if ok then PStop else PRevert)) (fun ok =>
       if ok then PDelegate (PStore 3 5 PStop) (fun ok => if ok then PStop else PRevert) else PRevert))
    (St x_w2 ∅ []) with
  | Some s => s_sto s !! (x_alice, 3) = Some 5 ∧ balance (s_w s) x_stake_at x_alice = 60
  | None => False
  end.
Proof. vm_compute. done. Qed.
Example C114_storage_example : ¬ runs_as x_bob x_alice (PStatic x_bob (PStore 1 7 PStop) (fun _ => PStore 1 8 PStop)).
Proof. intros [H | [b [H | [H | []]]]]; revert H; by vm_compute. Qed.
(** Two payees, one of them the (blocked) fee collector: nobody is paid. *)
Example C115_example :
  balance x_w2 x_stake_at x_alice = 60 ∧ is_blocked x_env x_w2 x_collector = true ∧
  evm_call x_env x_stake_at x_bob x_alice 0 (pay_all [(x_bob, 10); (x_collector, 10)]) (St x_w2 ∅ []) = None ∧
  (match evm_call x_env x_stake_at x_bob x_alice 0 (PDestruct x_collector) (St x_w2 ∅ []) with
   | Some s => balance (s_w s) x_stake_at x_collector = 60 + balance x_w2 x_stake_at x_collector
   | None => False
   end).
Proof. vm_compute. done. Qed.
(** Alice's 60 are gone. *)
Example C115_caught_example :
  supply x_w2 x_stake_at = 100 ∧
  match evm_call x_env x_stake_at x_bob x_carol 0
    (PCall x_alice 0 (PDestruct x_bob) (fun _ => PCall x_bob 0 PRevert (fun _ => PStop))) (St x_w2 ∅ []) with
  | Some s => balance (s_w s) x_stake_at x_alice = 0 ∧ balance (s_w s) x_stake_at x_bob = 0 ∧ supply (s_w s) x_stake_at = 40
  | None => False
  end.
Proof. vm_compute. done. Qed.
