(** Invariants of filter polling (Filters.v), one view per filter id. *)
From Verif.Base Require Import Prelude.
From Verif.Model Require Import EthLog Indexer Filters.
Open Scope nat_scope.

Definition fly (s : fstate) (id : fid) : option fevent :=
  match f_loop s with Some (e, r) => if decide (id ∈ r) then Some e else None | None => None end.
Definition tk (s : fstate) : list fevent := snd <$> f_taken s.
Definition held (k : kind) (g : option listener) : list fitem :=
  match g with Some (Holding e) => select k e | _ => [] end.
Definition flying (k : kind) (e : option fevent) : list fitem := match e with Some e => select k e | None => [] end.
Definition due (k : kind) (n : nat) (taken : list fevent) : list fitem := concat (select k <$> drop n taken).

(** The life of one filter id. *)
Inductive vok (s : fstate) (id : fid) : Prop :=
  | V_unused (Hc : f_create s !! id = None) (Hs : f_subs s !! id = None) (Hf : f_filters s !! id = None)
      (Hg : f_gor s !! id = None) (Hu : id ∉ f_uninst s) (Hl : id ∉ f_closed s) (Hd : id ∉ f_used s)
      (Hn : f_start s !! id = None) (Ha : f_answers s !! id = None)
  | V_install k (Hc : f_create s !! id = Some (CInstall k)) (Hs : f_subs s !! id = None) (Hf : f_filters s !! id = None)
      (Hg : f_gor s !! id = None) (Hu : id ∉ f_uninst s) (Hl : id ∉ f_closed s) (Hd : id ∈ f_used s)
      (Hn : f_start s !! id = None) (Ha : f_answers s !! id = None)
  | V_installed k n (Hc : f_create s !! id = Some (CInstalled k)) (Hs : f_subs s !! id = Some k) (Hf : f_filters s !! id = None)
      (Hg : f_gor s !! id = None) (Hu : id ∉ f_uninst s) (Hl : id ∉ f_closed s) (Hd : id ∈ f_used s)
      (Hn : f_start s !! id = Some n) (Ha : f_answers s !! id = None)
      (Hle : n <= length (tk s)) (Hq : flying k (fly s id) = due k n (tk s))
  | V_live f n (Hc : (f_create s !! id = Some CRegistered ∧ f_gor s !! id = None) ∨ (f_create s !! id = None ∧ f_gor s !! id ≠ None))
      (Hs : f_subs s !! id = Some (fl_kind f)) (Hf : f_filters s !! id = Some f)
      (Hu : id ∉ f_uninst s) (Hl : id ∉ f_closed s) (Hd : id ∈ f_used s)
      (Hn : f_start s !! id = Some n) (Hle : n <= length (tk s))
      (Hq : concat (default [] (f_answers s !! id)) ++ fl_buf f ++ held (fl_kind f) (f_gor s !! id) ++ flying (fl_kind f) (fly s id)
            = due (fl_kind f) n (tk s))
  | V_dying k n (Hc : (f_create s !! id = Some CRegistered ∧ f_gor s !! id = None) ∨ (f_create s !! id = None ∧ f_gor s !! id ≠ None))
      (Hs : f_subs s !! id = Some k) (Hf : f_filters s !! id = None)
      (Hu : id ∈ f_uninst s) (Hl : id ∉ f_closed s) (Hd : id ∈ f_used s) (Hn : f_start s !! id = Some n)
  | V_dead n (Hc : (f_create s !! id = Some CRegistered ∧ f_gor s !! id = None) ∨ f_create s !! id = None)
      (Hs : f_subs s !! id = None) (Hf : f_filters s !! id = None)
      (Hu : id ∉ f_uninst s) (Hl : id ∈ f_closed s) (Hd : id ∈ f_used s) (Hn : f_start s !! id = Some n).

Record finv (s : fstate) : Prop := {
  FI_view : ∀ id, vok s id;
  FI_loop : ∀ e r, f_loop s = Some (e, r) → r ≠ [] ∧ NoDup r ∧ ∀ id, id ∈ r → ∃ k, f_subs s !! id = Some k ∧ wants k e = true
}.

Lemma wants_select k e : wants k e = false → select k e = [].
Proof. destruct k, e as [[|]| |]; cbn; done. Qed.
Lemma due_snoc k n t e : n <= length t → due k n (t ++ [e]) = due k n t ++ select k e.
Proof.
  intros. unfold due. rewrite drop_app_le by done. rewrite fmap_app, concat_app. cbn. by rewrite app_nil_r.
Qed.
Lemma due_all k n t : length t <= n → due k n t = [].
Proof. intros. unfold due. by rewrite drop_ge. Qed.

Lemma fly_rest e r id s : f_loop s = rest e r → fly s id = if decide (id ∈ r) then Some e else None.
Proof.
  unfold fly. intros ->. destruct r as [|x r]; cbn; [|done]. rewrite decide_False; [done|]. apply not_elem_of_nil.
Qed.

(** Two states that look the same at [id]. *)
Lemma vok_same s s' id :
  vok s id → f_create s' !! id = f_create s !! id → f_subs s' !! id = f_subs s !! id → f_filters s' !! id = f_filters s !! id →
  f_gor s' !! id = f_gor s !! id → (id ∈ f_uninst s' ↔ id ∈ f_uninst s) → (id ∈ f_closed s' ↔ id ∈ f_closed s) →
  (id ∈ f_used s' ↔ id ∈ f_used s) → f_start s' !! id = f_start s !! id → f_answers s' !! id = f_answers s !! id →
  f_loop s' = f_loop s → f_taken s' = f_taken s → vok s' id.
Proof.
  intros V E1 E2 E3 E4 E5 E6 E7 E8 E9 E10 E11.
  assert (Ef : fly s' id = fly s id) by (unfold fly; by rewrite E10).
  assert (Et : tk s' = tk s) by (unfold tk; by rewrite E11).
  destruct V.
  - apply V_unused; rewrite ?E1, ?E2, ?E3, ?E4, ?E5, ?E6, ?E7, ?E8, ?E9; done.
  - eapply V_install; rewrite ?E1, ?E2, ?E3, ?E4, ?E5, ?E6, ?E7, ?E8, ?E9; done.
  - eapply V_installed; rewrite ?E1, ?E2, ?E3, ?E4, ?E5, ?E6, ?E7, ?E8, ?E9, ?Ef, ?Et; done.
  - eapply V_live; rewrite ?E1, ?E2, ?E3, ?E4, ?E5, ?E6, ?E7, ?E8, ?E9, ?Ef, ?Et; done.
  - eapply V_dying; rewrite ?E1, ?E2, ?E3, ?E4, ?E5, ?E6, ?E7, ?E8, ?E9; done.
  - eapply V_dead; rewrite ?E1, ?E2, ?E3, ?E4, ?E5, ?E6, ?E7, ?E8, ?E9; done.
Qed.
(** The loop moved on without [id]. *)
Lemma vok_loop s s' id :
  vok s id → f_create s' !! id = f_create s !! id → f_subs s' !! id = f_subs s !! id → f_filters s' !! id = f_filters s !! id →
  f_gor s' !! id = f_gor s !! id → (id ∈ f_uninst s' ↔ id ∈ f_uninst s) → (id ∈ f_closed s' ↔ id ∈ f_closed s) →
  (id ∈ f_used s' ↔ id ∈ f_used s) → f_start s' !! id = f_start s !! id → f_answers s' !! id = f_answers s !! id →
  fly s' id = fly s id → f_taken s' = f_taken s → vok s' id.
Proof.
  intros V E1 E2 E3 E4 E5 E6 E7 E8 E9 Ef E11.
  assert (Et : tk s' = tk s) by (unfold tk; by rewrite E11).
  destruct V.
  - apply V_unused; rewrite ?E1, ?E2, ?E3, ?E4, ?E5, ?E6, ?E7, ?E8, ?E9; done.
  - eapply V_install; rewrite ?E1, ?E2, ?E3, ?E4, ?E5, ?E6, ?E7, ?E8, ?E9; done.
  - eapply V_installed; rewrite ?E1, ?E2, ?E3, ?E4, ?E5, ?E6, ?E7, ?E8, ?E9, ?Ef, ?Et; done.
  - eapply V_live; rewrite ?E1, ?E2, ?E3, ?E4, ?E5, ?E6, ?E7, ?E8, ?E9, ?Ef, ?Et; done.
  - eapply V_dying; rewrite ?E1, ?E2, ?E3, ?E4, ?E5, ?E6, ?E7, ?E8, ?E9; done.
  - eapply V_dead; rewrite ?E1, ?E2, ?E3, ?E4, ?E5, ?E6, ?E7, ?E8, ?E9; done.
Qed.

Lemma loop_rest e id r (P : fid → Prop) :
  NoDup (id :: r) → (∀ x, x ∈ id :: r → P x) →
  ∀ e' r', rest e r = Some (e', r') → e' = e ∧ r' ≠ [] ∧ NoDup r' ∧ ∀ x, x ∈ r' → P x.
Proof.
  intros [_ Hnd]%NoDup_cons HP e' r' H. destruct r as [|y r]; [done|]. cbn in H. injection H as <- <-.
  split; [done|]. split; [done|]. split; [done|]. intros x Hx. apply HP. by right.
Qed.

Ltac others := eapply vok_same; [eauto|..]; cbn; rewrite ?lookup_insert_ne, ?lookup_delete_ne by done; try done; try set_solver.
Ltac fields := cbn [f_now f_emit f_loop f_subs f_filters f_create f_gor f_uninst f_closed f_used f_taken f_start f_answers f_active].

Lemma finv_step timeout w s s' : finv s → fstep timeout w s s' → finv s'.
Proof.
  intros [I1 I2] Hs. destruct Hs.
  - (* emit *) constructor; [|done]. intros id. others.
  - (* clock *) constructor; [|done]. intros id. others.
  - (* take *)
    set (s' := mkF _ _ _ _ _ _ _ _ _ _ _ _ _ _).
    constructor.
    + intros id. specialize (I1 id).
      assert (Hfly : fly s id = None) by (unfold fly; by rewrite H).
      assert (Hfly' : fly s' id = if decide (id ∈ ids) then Some e else None) by (by apply fly_rest).
      assert (Ht : tk s' = tk s ++ [e]) by (unfold tk; cbn; by rewrite fmap_app).
      assert (Hw : ∀ k, f_subs s !! id = Some k → flying k (fly s' id) = select k e).
      { intros k Hk. rewrite Hfly'. destruct (decide (id ∈ ids)) as [Hin|Hin]; [done|]. cbn.
        destruct (wants k e) eqn:Ew; [|by rewrite wants_select]. destruct Hin. apply H2. eauto. }
      destruct I1.
      * by apply V_unused.
      * by eapply V_install.
      * eapply V_installed; eauto; rewrite Ht.
        -- rewrite app_length. cbn. lia.
        -- rewrite Hw, due_snoc by done. rewrite <- Hq, Hfly. done.
      * eapply V_live; eauto; rewrite Ht.
        -- rewrite app_length. cbn. lia.
        -- rewrite Hw, due_snoc by done. rewrite <- Hq, Hfly. cbn. by rewrite app_nil_r, <- !app_assoc.
      * by eapply V_dying.
      * by eapply V_dead.
    + intros e' r. cbn. destruct ids as [|x ids]; [done|]. cbn. intros [= <- <-]. split; [done|]. split; [done|]. intros id Hid. by apply H2.
  - (* deliver *)
    destruct (I2 _ _ H) as (_ & Hnd & Hin).
    set (s' := mkF _ _ _ _ _ _ _ _ _ _ _ _ _ _).
    assert (Hfl : ∀ id', fly s' id' = if decide (id' ∈ r) then Some e else None) by (intros; by apply fly_rest).
    constructor.
    + intros id'. destruct (decide (id = id')) as [<-|Hne].
      * pose proof (Hfl id) as Hy. rewrite decide_False in Hy by (by apply NoDup_cons in Hnd as [? _]).
        assert (Hy0 : fly s id = Some e) by (unfold fly; rewrite H, decide_True by (by left); done).
        destruct (I1 id); try congruence.
        -- eapply V_live; eauto.
           ++ destruct Hc as [[? ?]|[? ?]]; [congruence|]. right. split; [done|]. cbn. rewrite lookup_insert. done.
           ++ change (tk s') with (tk s). rewrite <- Hq, H0, Hy0, Hy. cbn. rewrite lookup_insert. by rewrite app_nil_r.
        -- eapply V_dying; eauto. cbn. rewrite lookup_insert. destruct Hc as [[? ?]|[? ?]]; [congruence|]. by right.
        -- destruct (Hin id) as (k & Hk & _); [by left|]. congruence.
      * eapply vok_loop; [apply I1|..]; cbn; rewrite ?lookup_insert_ne by done; try done.
        rewrite Hfl. unfold fly. rewrite H. destruct (decide (id' ∈ r)) as [Hr|Hr].
        -- rewrite decide_True by (by right). done.
        -- rewrite decide_False; [done|]. intros [->|?]%elem_of_cons; done.
    + intros e' r' Hr. eapply loop_rest in Hr as (-> & ? & ? & Hall); [|exact Hnd|exact Hin]. done.
  - (* drain *)
    destruct (I2 _ _ H) as (_ & Hnd & Hin).
    set (s' := mkF _ _ _ _ _ _ _ _ _ _ _ _ _ _).
    assert (Hfl : ∀ id', fly s' id' = if decide (id' ∈ r) then Some e else None) by (intros; by apply fly_rest).
    constructor.
    + intros id'. destruct (decide (id = id')) as [<-|Hne].
      * destruct (I1 id); try done. by eapply V_dying.
      * eapply vok_loop; [apply I1|..]; cbn; try done.
        rewrite Hfl. unfold fly. rewrite H. destruct (decide (id' ∈ r)) as [Hr|Hr].
        -- rewrite decide_True by (by right). done.
        -- rewrite decide_False; [done|]. intros [->|?]%elem_of_cons; done.
    + intros e' r' Hr. eapply loop_rest in Hr as (-> & ? & ? & Hall); [|exact Hnd|exact Hin]. done.
  - (* append *)
    constructor; [|done]. intros id'. destruct (decide (id = id')) as [<-|Hne]; [|others].
    destruct (I1 id); try congruence. rewrite H0 in Hf. injection Hf as <-.
    eapply (V_live _ _ (mkFilt (fl_kind f) (fl_used f) (fl_buf f ++ select (fl_kind f) e)) n); fields;
      rewrite ?lookup_insert; try done.
    + destruct Hc as [[? ?]|[? ?]]; [congruence|]. auto.
    + unfold tk in *. fields. cbn [fl_kind fl_buf]. rewrite <- Hq. rewrite H. cbn [held]. unfold fly. fields.
      by rewrite <- !app_assoc.
  - (* append to a gone filter *)
    constructor; [|done]. intros id'. destruct (decide (id = id')) as [<-|Hne]; [|others].
    destruct (I1 id); try congruence.
    + eapply V_dying; fields; rewrite ?lookup_insert; try done.
      destruct Hc as [[? ?]|[? ?]]; [congruence|]. auto.
    + eapply V_dead; fields; rewrite ?lookup_insert; try done.
      destruct Hc as [[? ?]|?]; [congruence|]. auto.
  - (* stop *)
    constructor; [|done]. intros id'. destruct (decide (id = id')) as [<-|Hne]; [|others].
    destruct (I1 id); try done. eapply V_dead; fields; rewrite ?lookup_delete; try done.
    destruct Hc as [[? ?]|?]; auto.
  - (* new *)
    constructor; [|done]. intros id'. destruct (decide (id = id')) as [<-|Hne]; [|others].
    destruct (I1 id); try done. eapply V_install; fields; rewrite ?lookup_insert; try done. set_solver.
  - (* install *)
    constructor; [|fields; intros e r E; congruence].
    intros id'. destruct (decide (id = id')) as [<-|Hne]; [|others].
    destruct (I1 id) as [|? Hc| | | |]; try congruence.
    + rewrite H0 in Hc. injection Hc as <-.
      eapply (V_installed _ _ k (length (f_taken s))); fields; rewrite ?lookup_insert; try done.
      * unfold tk. fields. by rewrite fmap_length.
      * unfold fly, tk. fields. rewrite H. rewrite due_all; [done|]. by rewrite fmap_length.
    + destruct Hc as [[? ?]|[? ?]]; congruence.
    + destruct Hc as [[? ?]|[? ?]]; congruence.
    + destruct Hc as [[? ?]|?]; congruence.
  - (* register *)
    constructor; [|done]. intros id'. destruct (decide (id = id')) as [<-|Hne]; [|others].
    destruct (I1 id) as [| |? ? Hc| | |]; try congruence.
    + rewrite H in Hc. injection Hc as <-.
      eapply (V_live _ _ (mkFilt k _ []) n); fields; rewrite ?lookup_insert; try done.
      * left. split; [done|]. exact Hg.
      * rewrite Ha, Hg. cbn. unfold tk, fly in *. fields. exact Hq.
    + destruct Hc as [[? ?]|[? ?]]; congruence.
    + destruct Hc as [[? ?]|[? ?]]; congruence.
    + destruct Hc as [[? ?]|?]; congruence.
  - (* return *)
    constructor; [|done]. intros id'. destruct (decide (id = id')) as [<-|Hne]; [|others].
    destruct (I1 id); try congruence.
    + destruct Hc as [[? Hg]|[? ?]]; [|congruence].
      eapply V_live; fields; rewrite ?lookup_insert, ?lookup_delete; try done; [by right|].
      unfold tk, fly in *. fields. rewrite Hg in Hq. exact Hq.
    + eapply V_dying; fields; rewrite ?lookup_insert, ?lookup_delete; try done. by right.
    + eapply V_dead; fields; rewrite ?lookup_insert, ?lookup_delete; try done. by right.
  - (* poll *)
    constructor; [|done]. intros id'. destruct (decide (id = id')) as [<-|Hne]; [|others].
    destruct (I1 id); try congruence. rewrite H in Hf. injection Hf as <-.
    eapply (V_live _ _ (mkFilt (fl_kind f) (Some (f_now s)) []) n); fields; rewrite ?lookup_insert; try done.
    unfold tk, fly in *. fields. cbn [fl_kind fl_buf default]. rewrite <- Hq. cbn. rewrite concat_app. cbn.
    by rewrite app_nil_r, <- !app_assoc.
  - (* uninstall *)
    constructor; [|done]. intros id'. destruct (decide (id = id')) as [<-|Hne]; [|others].
    destruct (I1 id); try congruence.
    eapply V_dying; fields; rewrite ?lookup_delete; try done. set_solver.
  - (* tick *)
    constructor; [|done]. intros id. destruct (f_filters s !! id) as [f|] eqn:Ef.
    + destruct (I1 id); try congruence. rewrite Ef in Hf. injection Hf as <-.
      destruct (expired timeout (f_now s) f) eqn:Ex.
      * eapply V_dying; fields; try done.
        -- apply map_filter_lookup_None. right. intros f' E Hx. cbn in Hx. congruence.
        -- apply elem_of_union_l, elem_of_dom. exists f. by apply map_filter_lookup_Some.
      * eapply (V_live _ _ f n); fields; try done.
        -- by apply map_filter_lookup_Some.
        -- intros [[g [E Hx]%map_filter_lookup_Some]%elem_of_dom|?]%elem_of_union; [|done]. cbn in Hx. congruence.
    + eapply vok_same; [apply I1|..]; fields; try done.
      * rewrite Ef. apply map_filter_lookup_None. by left.
      * rewrite elem_of_union, elem_of_dom. split; [|auto]. intros [[g [E Hx]%map_filter_lookup_Some]|?]; [congruence|done].
  - (* uninstalled *)
    constructor; [|fields; intros e r E; congruence].
    intros id'. destruct (decide (id = id')) as [<-|Hne]; [|others].
    destruct (I1 id); try done.
    eapply V_dead; fields; rewrite ?lookup_delete; try done; [|set_solver|set_solver].
    destruct Hc as [[? ?]|[? ?]]; auto.
Qed.

Lemma finv_reach timeout s : freach timeout s → finv s.
Proof.
  induction 1; [|eapply finv_step; eauto].
  constructor; [|done]. intros id. apply V_unused; try done; set_solver.
Qed.
