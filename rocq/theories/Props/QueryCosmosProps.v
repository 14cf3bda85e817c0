(** C108, C109: queries of other modules from contracts (query_cosmos). *)
From Verif.Base Require Import Prelude Hex.
From Verif.Model Require Import QueryCosmos.

(** ** What a request says *)
(** Nothing here mentions what a node has in memory: a field has the value the text gives
    it, or is empty. *)
Definition elem_text (v : jval) : option text := match v with JText t => Some t | JNull => Some [] | _ => None end.
Definition field_value (k : fkind) (v : option jval) : option fval :=
  match v, k with
  | None, _ | Some JNull, _ => Some (zero_of k)
  | Some (JText t), KStr => Some (VStr t)
  | Some (JList l), KStrs => VStrs <$> mapM elem_text l
  | _, _ => None
  end.
(** The members of a JSON object by name, and the value a field is given: under its
    camel-case name if there is such a member, otherwise under its original name. *)
Definition member (l : list (text * jval)) (n : text) : option jval := (list_to_map l : gmap text jval) !! n.
Definition given (orig camel : text) (l : list (text * jval)) : option jval :=
  match member l camel with Some v => Some v | None => member l orig end.
Definition asked (s : schema) (d : rdoc) : option (list fval) :=
  match d with
  | DBad => None
  | DObj l =>
      if decide (Forall (λ p, Exists (λ f, p.1 = f.1.1 ∨ p.1 = f.1.2) s) l)
      then mapM (λ f, field_value f.2 (given f.1.1 f.1.2 l)) s else None
  end.
Definition decodable (s : schema) (d : rdoc) : Prop := is_Some (asked s d).
(** Every field is given a value other than null. *)
Definition complete (s : schema) (d : rdoc) : Prop :=
  ∃ l, d = DObj l ∧ ∀ f, f ∈ s → ∃ v, given f.1.1 f.1.2 l = Some v ∧ v ≠ JNull.

(** ** The decoder against it *)
Lemma jfind_member n l : jfind n l = member l n.
Proof.
  unfold jfind, member. induction l as [|[k v] l IH]; cbn [List.find list_to_map foldr fst]; [by rewrite lookup_empty|].
  cbn. case_bool_decide as H; cbn; [subst; by rewrite lookup_insert|]. by rewrite lookup_insert_ne.
Qed.
Lemma consume_given o c l : consume o c l = given o c l.
Proof. unfold consume, given. by rewrite !jfind_member. Qed.
Lemma asked_consume (s : schema) l : mapM (λ f, field_value f.2 (given f.1.1 f.1.2 l)) s = mapM (λ f, field_value f.2 (consume f.1.1 f.1.2 l)) s.
Proof. apply mapM_ext. intros f. by rewrite consume_given. Qed.
Lemma dec_list_ok l r : dec_list l = (r, true) ↔ mapM elem_text l = Some r.
Proof.
  revert r. induction l as [|v l IH]; intros r; cbn [dec_list].
  - rewrite mapM_nil || cbn. split; [intros [= <-]; done|intros [= <-]; done].
  - cbn. destruct v as [|t| |]; cbn; try (split; [intros [=]|done]);
      destruct (dec_list l) as [r' b] eqn:E;
      (split; [intros [= <- ->]; destruct (IH r') as [H _]; rewrite H by done; done|];
       destruct (mapM elem_text l) as [x|] eqn:Ex; cbn; [|done]; intros [= <-]; destruct (IH x) as [_ H]; specialize (H eq_refl); injection H as -> ->; done).
Qed.
Lemma dec_list_flag l : snd (dec_list l) = true ↔ is_Some (mapM elem_text l).
Proof.
  destruct (dec_list l) as [r b] eqn:E. cbn. split.
  - intros ->. exists r. by apply dec_list_ok.
  - intros [x Hx]. apply dec_list_ok in Hx. congruence.
Qed.
Lemma dec_field_flag k v old : snd (dec_field k v old) = true ↔ is_Some (field_value k (Some v)).
Proof.
  destruct k, v as [|t|l|]; cbn; try (split; [eauto|done]); try (split; [done|by intros [? ?]]).
  rewrite fmap_is_Some, <- dec_list_flag. by destruct (dec_list l) as [r b].
Qed.
Lemma dec_field_given k v old : v ≠ JNull → fst (dec_field k v old) = fst (dec_field k v (zero_of k)) ∨ field_value k (Some v) = None.
Proof. intros Hv. destruct k, v; cbn; auto; done. Qed.
Lemma dec_field_zero k v x : dec_field k v (zero_of k) = (x, true) ↔ field_value k (Some v) = Some x.
Proof.
  destruct k, v as [|t|l|]; cbn; try (split; [by intros [= <-]|by intros [= <-]]); try (split; done).
  rewrite fmap_Some. destruct (dec_list l) as [r b] eqn:E. split.
  - intros [= <- ->]. exists r. split; [by apply dec_list_ok|done].
  - intros (y & Hy & ->). apply dec_list_ok in Hy. by injection (eq_trans (eq_sym E) Hy) as -> ->.
Qed.

Lemma dec_fields_length s old l : length old = length s → length (fst (dec_fields s old l)) = length s.
Proof.
  revert old. induction s as [|[[o c] k] s IH]; intros [|v old] Hl; cbn in *; try done.
  destruct (consume o c l) as [j|].
  - destruct (dec_field k j v) as [v' ok]. destruct ok; [|cbn; lia].
    specialize (IH old ltac:(lia)). destruct (dec_fields s old l). cbn in *. lia.
  - specialize (IH old ltac:(lia)). destruct (dec_fields s old l). cbn in *. lia.
Qed.
Lemma dec_fields_flag s old l : length old = length s →
  snd (dec_fields s old l) = true ↔ is_Some (mapM (λ f, field_value f.2 (consume f.1.1 f.1.2 l)) s).
Proof.
  revert old. induction s as [|[[o c] k] s IH]; intros [|v old] Hl; cbn [dec_fields mapM] in *; try done.
  cbn in Hl. specialize (IH old ltac:(lia)). cbn [fst snd]. destruct (consume o c l) as [j|] eqn:Ec.
  - pose proof (dec_field_flag k j v) as Hf. destruct (dec_field k j v) as [v' ok]. cbn [snd] in Hf. destruct ok.
    + destruct (proj1 Hf eq_refl) as [x Hx]. rewrite Hx. cbn. destruct (dec_fields s old l) as [r b]. cbn [snd] in *. rewrite IH.
      destruct (mapM _ s); cbn; split; intros [y Hy]; try done; eexists; reflexivity.
    + destruct (field_value k (Some j)) as [x|]; [exfalso; assert (false = true) by (apply Hf; eauto); done|]. cbn. split; [done|by intros [? ?]].
  - cbn. destruct (dec_fields s old l) as [r b]. cbn [snd] in *. rewrite IH. destruct (mapM _ s); cbn; split; intros [y Hy]; try done; eexists; reflexivity.
Qed.
Lemma zeros_cons f s : zeros (f :: s) = zero_of f.2 :: zeros s.
Proof. done. Qed.
Lemma dec_fields_zero s l x : dec_fields s (zeros s) l = (x, true) ↔ mapM (λ f, field_value f.2 (consume f.1.1 f.1.2 l)) s = Some x.
Proof.
  revert x. induction s as [|[[o c] k] s IH]; intros x.
  { cbn. split; by intros [= <-]. }
  rewrite zeros_cons. cbn [dec_fields mapM fst snd]. destruct (consume o c l) as [j|] eqn:Ec.
  - destruct (dec_field k j (zero_of k)) as [v' ok] eqn:Ef. destruct ok.
    + apply dec_field_zero in Ef. rewrite Ef. cbn. destruct (dec_fields s (zeros s) l) as [r b] eqn:Ed. split.
      * intros [= <- ->]. destruct (IH r) as [H _]. rewrite H by done. done.
      * destruct (mapM _ s) as [y|] eqn:Ey; cbn; [|done]. intros [= <-]. destruct (IH y) as [_ H]. specialize (H eq_refl). by injection H as -> ->.
    + split; [intros [=]|]. destruct (field_value k (Some j)) eqn:Ev; [|done]. apply dec_field_zero in Ev. congruence.
  - cbn. destruct (dec_fields s (zeros s) l) as [r b] eqn:Ed. split.
    * intros [= <- ->]. destruct (IH r) as [H _]. rewrite H by done. done.
    * destruct (mapM _ s) as [y|] eqn:Ey; cbn; [|done]. intros [= <-]. destruct (IH y) as [_ H]. specialize (H eq_refl). by injection H as -> ->.
Qed.
Lemma dec_fields_complete s old l : length old = length s →
  (∀ f, f ∈ s → ∃ v, consume f.1.1 f.1.2 l = Some v ∧ v ≠ JNull) →
  snd (dec_fields s old l) = true → dec_fields s old l = dec_fields s (zeros s) l.
Proof.
  revert old. induction s as [|[[o c] k] s IH]; intros [|v old] Hl Hc; try done.
  rewrite zeros_cons. cbn in Hl. cbn [dec_fields snd fst].
  destruct (Hc (o, c, k) ltac:(by left)) as (j & Ej & Hj). cbn [fst snd] in Ej. rewrite Ej.
  pose proof (dec_field_flag k j v) as F1. pose proof (dec_field_flag k j (zero_of k)) as F2. pose proof (dec_field_given k j v Hj) as G.
  destruct (dec_field k j v) as [v1 b1], (dec_field k j (zero_of k)) as [v2 b2]. cbn [fst snd] in *.
  destruct b1; [|done]. destruct b2; [|discriminate (proj2 F2 (proj1 F1 eq_refl))].
  destruct G as [->|G]; [|destruct (proj1 F1 eq_refl); congruence].
  specialize (IH old ltac:(lia) ltac:(intros f Hf; apply Hc; by right)).
  destruct (dec_fields s old l) as [r b] eqn:Ed. cbn [snd] in *. intros Hb. specialize (IH Hb). by rewrite <- IH.
Qed.

Lemma known_spec s n : known s n = true ↔ Exists (λ f : text * text * fkind, n = f.1.1 ∨ n = f.1.2) s.
Proof.
  unfold known. rewrite existsb_exists, Exists_exists. split.
  - intros (f & Hf & Hb). exists f. split; [by apply elem_of_list_In|]. apply orb_true_iff in Hb as [H|H]; apply bool_decide_eq_true in H; auto.
  - intros (f & Hf & H). exists f. split; [by apply elem_of_list_In|]. apply orb_true_iff. rewrite !bool_decide_eq_true. destruct H; auto.
Qed.
Lemma all_known s (l : list (text * jval)) : forallb (λ p, known s p.1) l = true ↔ Forall (λ p, Exists (λ f : text * text * fkind, p.1 = f.1.1 ∨ p.1 = f.1.2) s) l.
Proof.
  rewrite forallb_forall, Forall_forall. split; intros H x Hx; apply known_spec, H, elem_of_list_In, Hx.
Qed.
Lemma unmarshal_flag s old d : length old = length s → snd (unmarshal_json s old d) = true ↔ decodable s d.
Proof.
  intros Hl. unfold decodable. destruct d as [|l]; cbn [unmarshal_json asked]; [split; [done|by intros [? ?]]|]. rewrite asked_consume.
  pose proof (dec_fields_flag s old l Hl) as F. destruct (dec_fields s old l) as [r b]. cbn [snd] in *. rewrite andb_true_iff, all_known.
  destruct (decide _) as [H|H]; [rewrite F; tauto|]. split; [tauto|by intros [? ?]].
Qed.
Lemma unmarshal_zero s d v : unmarshal_json s (zeros s) d = (v, true) ↔ asked s d = Some v.
Proof.
  destruct d as [|l]; cbn [unmarshal_json asked]; [done|]. rewrite asked_consume.
  pose proof (dec_fields_zero s l) as F. destruct (dec_fields s (zeros s) l) as [r b]. destruct (decide _) as [H|H].
  - apply all_known in H. rewrite H, andb_true_r. apply F.
  - split; [|done]. intros [= _ Hb]. apply andb_true_iff in Hb as [_ Hb]. by apply all_known in Hb.
Qed.
Lemma unmarshal_complete s old d : length old = length s → complete s d → decodable s d → unmarshal_json s old d = unmarshal_json s (zeros s) d.
Proof.
  intros Hl (l & -> & Hc) Hd.
  assert (∀ f, f ∈ s → ∃ v, consume f.1.1 f.1.2 l = Some v ∧ v ≠ JNull) as Hc' by (intros f Hf; rewrite consume_given; by apply Hc). clear Hc. rename Hc' into Hc. pose proof (proj2 (unmarshal_flag s old (DObj l) Hl) Hd) as F. cbn [unmarshal_json] in *.
  rewrite (dec_fields_complete s old l Hl Hc); [done|]. destruct (dec_fields s old l) as [r b]. cbn in *. by apply andb_true_iff in F as [-> _].
Qed.
Lemma zeros_length s : length (zeros s) = length s.
Proof. apply fmap_length. Qed.
Lemma unmarshal_length s old d : length old = length s → length (fst (unmarshal_json s old d)) = length s.
Proof.
  intros Hl. destruct d as [|l]; cbn [unmarshal_json]; [done|]. pose proof (dec_fields_length s old l Hl). by destruct (dec_fields s old l).
Qed.

Section props.
Context {store resp : Type} (E : qenv store resp).
(** Decoding a protobuf message into an empty one gives that message. *)
Hypothesis Hmerge : ∀ r, q_merge E (q_empty E) r = r.

(** The answer a contract should get: of the state and the request alone. *)
Definition answer (st : store) (p : text) (d : rdoc) : option text :=
  s ← q_list E p; v ← asked s d; r ← q_route E p v st; Some (q_render E p r).

(** What holds of the memory of a node whose calls never overlap. *)
Definition tidy (m : qmem resp) : Prop :=
  (∀ p, m_resp m p = q_empty E) ∧ (∀ p s, q_list E p = Some s → length (m_req m p) = length s).
Definition blank (m : qmem resp) (p : text) : Prop := ∀ s, q_list E p = Some s → m_req m p = zeros s.

(** One call, in one step. *)
Definition big (st : store) (m : qmem resp) (p : text) (d : rdoc) : qmem resp * option text :=
  match q_list E p with
  | None => (m, None)
  | Some s =>
      let '(v, ok) := unmarshal_json s (m_req m p) d in
      if ok then
        let m1 := set_req (set_req m p v) p (zeros s) in
        match q_route E p v st with
        | None => (m1, None)
        | Some r => (set_resp (set_resp m1 p (q_merge E (m_resp m p) r)) p (q_empty E), Some (q_render E p (q_merge E (m_resp m p) r)))
        end
      else (set_req m p v, None)
  end.
Lemma qcall_big st m p d : qcall E st m p d = big st m p d.
Proof.
  unfold qcall, big. cbn [qrun qstep]. destruct (q_list E p) as [s|] eqn:El; [|done].
  destruct (unmarshal_json s (m_req m p) d) as [v []]; [|done]. cbn [qrun qstep]. rewrite El.
  assert (m_req (set_req m p v) p = v) as -> by (cbn; by rewrite decide_True).
  destruct (q_route E p v st) as [r|]; cbn [qrun qstep]; [|done].
  assert (∀ (m0 : qmem resp) x, m_resp (set_resp m0 p x) p = x) as K by (intros; cbn; by rewrite decide_True). by rewrite K.
Qed.

Lemma tidy_fresh : tidy (fresh E).
Proof. split; [done|]. intros p s Hs. cbn. rewrite Hs. apply zeros_length. Qed.
Lemma big_tidy st m p d : tidy m → tidy (fst (big st m p d)).
Proof.
  intros [T1 T2]. unfold big. destruct (q_list E p) as [s|] eqn:El; [|done].
  pose proof (unmarshal_length s (m_req m p) d (T2 _ _ El)) as Hv.
  destruct (unmarshal_json s (m_req m p) d) as [v []]; cbn [fst] in *.
  - assert (∀ q s', q_list E q = Some s' → length (m_req (set_req (set_req m p v) p (zeros s)) q) = length s') as K.
    { intros q s' Hq. cbn. destruct (decide (q = p)) as [->|]; [rewrite El in Hq; injection Hq as <-; apply zeros_length|auto]. }
    destruct (q_route E p v st) as [r|]; cbn [fst]; (split; [|exact K]); intros q; cbn; [destruct (decide (q = p)); auto|auto].
  - split; [done|]. intros q s' Hq. cbn. destruct (decide (q = p)) as [->|]; [rewrite El in Hq; injection Hq as <-; done|auto].
Qed.
Lemma big_other st m p d q : q ≠ p → m_req (fst (big st m p d)) q = m_req m q.
Proof.
  intros Hq. unfold big. destruct (q_list E p) as [s|]; [|done]. destruct (unmarshal_json _ _ _) as [v []]; [destruct (q_route E p v st)|]; cbn; rewrite ?decide_False by done; done.
Qed.
Lemma big_blank st m p d s : tidy m → q_list E p = Some s → decodable s d → blank (fst (big st m p d)) p.
Proof.
  intros [_ T] El Hd s' Hs'. rewrite El in Hs'. injection Hs' as <-. unfold big. rewrite El.
  apply (unmarshal_flag s (m_req m p)) in Hd; [|by apply T]. destruct (unmarshal_json _ _ _) as [v b]. cbn in Hd. subst b.
  destruct (q_route E p v st); cbn; rewrite ?decide_True by done; done.
Qed.
Lemma big_answer st m p d : tidy m → blank m p ∨ (∀ s, q_list E p = Some s → complete s d) → snd (big st m p d) = answer st p d.
Proof.
  intros [T1 T2] H. unfold big, answer. destruct (q_list E p) as [s|] eqn:El; [|done]. cbn [mbind option_bind].
  assert (unmarshal_json s (m_req m p) d = unmarshal_json s (zeros s) d ∨ ¬ decodable s d) as [Hu|Hn].
  { destruct H as [H|H]; [left; by rewrite (H _ El)|]. destruct (asked s d) as [v|] eqn:Ea.
    - left. apply unmarshal_complete; [by apply T2|by apply H|unfold decodable; eauto].
    - right. unfold decodable. rewrite Ea. by intros [? ?]. }
  - rewrite Hu. destruct (unmarshal_json s (zeros s) d) as [v b] eqn:Eu. destruct b.
    + apply unmarshal_zero in Eu. rewrite Eu. cbn. rewrite T1. destruct (q_route E p v st) as [r|]; cbn; [by rewrite Hmerge|done].
    + destruct (asked s d) as [x|] eqn:Ea; [|done]. apply unmarshal_zero in Ea. congruence.
  - pose proof (unmarshal_flag s (m_req m p) d (T2 _ _ El)) as F. destruct (unmarshal_json s (m_req m p) d) as [v []]; [cbn in F; tauto|].
    unfold decodable in Hn. destruct (asked s d); [destruct Hn; eauto|done].
Qed.

(** The last request for a query in a history of calls. *)
Fixpoint last_to (p : text) (h : list (store * text * rdoc)) : option rdoc :=
  match h with
  | [] => None
  | (_, p', d) :: h' => match last_to p h' with Some x => Some x | None => if decide (p' = p) then Some d else None end
  end.
(** ... could be read (or there was none). *)
Definition last_ok (p : text) (h : list (store * text * rdoc)) : Prop :=
  ∀ d s, last_to p h = Some d → q_list E p = Some s → decodable s d.

Lemma qcalls_tidy m h : tidy m → tidy (fst (qcalls E m h)).
Proof.
  revert m. induction h as [|[[st p] d] h IH]; intros m T; [done|]. cbn. rewrite qcall_big.
  pose proof (big_tidy st m p d T) as T'. destruct (big st m p d) as [m' a]. specialize (IH m' T'). destruct (qcalls E m' h). done.
Qed.
Lemma qcalls_blank m h p : tidy m → (last_to p h = None → blank m p) → last_ok p h → blank (fst (qcalls E m h)) p.
Proof.
  revert m. induction h as [|[[st p'] d] h IH]; intros m T Hb Hl; [by apply Hb|]. cbn. rewrite qcall_big.
  pose proof (big_tidy st m p' d T) as T'. pose proof (big_blank st m p' d) as B. pose proof (big_other st m p' d p) as O.
  destruct (big st m p' d) as [m' a]. cbn [fst] in *. specialize (IH m' T').
  destruct (qcalls E m' h) as [m'' r]. cbn [fst] in *. apply IH.
  - intros Hn. unfold last_ok in Hl. cbn in Hl, Hb. rewrite Hn in Hl, Hb. destruct (decide (p' = p)) as [->|Hne].
    + intros s Hs. eapply B; eauto.
    + intros s Hs. rewrite O by done. by apply Hb.
  - intros x s Hx Hs. apply (Hl x s); [|done]. cbn. by rewrite Hx.
Qed.

(** ** C108 *)
(** From the start of the process, whatever was asked before (in blocks, simulations or
    queries, on whatever states), a call is answered according to its own request and its own
    state, provided the last request for the same query could be read. *)
Theorem C108_own_answer h st p d : last_ok p h → snd (qcall E st (fst (qcalls E (fresh E) h)) p d) = answer st p d.
Proof.
  intros Hl. rewrite qcall_big. apply big_answer; [apply qcalls_tidy, tidy_fresh|]. left.
  apply qcalls_blank; [apply tidy_fresh| |done]. intros _ s Hs. cbn. by rewrite Hs.
Qed.
(** A request that gives every field is answered by its own content after any history. *)
Theorem C108_complete_request h st p d : (∀ s, q_list E p = Some s → complete s d) →
  snd (qcall E st (fst (qcalls E (fresh E) h)) p d) = answer st p d.
Proof. intros Hc. rewrite qcall_big. apply big_answer; [apply qcalls_tidy, tidy_fresh|by right]. Qed.
(** Two nodes that have served different queries agree on a block's call. *)
Theorem C108_nodes_agree h1 h2 st p d : last_ok p h1 → last_ok p h2 →
  snd (qcall E st (fst (qcalls E (fresh E) h1)) p d) = snd (qcall E st (fst (qcalls E (fresh E) h2)) p d).
Proof. intros H1 H2. by rewrite !C108_own_answer. Qed.
(** A query the chain does not list is refused, and so is a request that cannot be read. *)
Theorem C108_refused h st p d : (∀ s, q_list E p = Some s → ¬ decodable s d) →
  snd (qcall E st (fst (qcalls E (fresh E) h)) p d) = None.
Proof.
  intros Hn. rewrite qcall_big. pose proof (qcalls_tidy _ h tidy_fresh) as [_ T]. unfold big. destruct (q_list E p) as [s|] eqn:El; [|done].
  specialize (Hn _ eq_refl). pose proof (unmarshal_flag s _ d (T _ _ El)) as F. destruct (unmarshal_json s _ d) as [v []]; [cbn in F; tauto|done].
Qed.

(** The list the chain starts with: three queries and no other. *)
Theorem C108_default_list h st p d : q_list E = default_list →
  p ∉ [txt "/connect.oracle.v2.Query/GetPrices"; txt "/connect.oracle.v2.Query/GetPrice"; txt "/connect.oracle.v2.Query/GetAllCurrencyPairs"] →
  snd (qcall E st (fst (qcalls E (fresh E) h)) p d) = None.
Proof.
  intros El Hp. apply C108_refused. rewrite El. unfold default_list. rewrite !decide_False; [done| | |]; intros ->; apply Hp; vm_compute; repeat first [left|right].
Qed.
(** What their requests reach the handler as, after any history. *)
Theorem C108_default_requests h st t ts (b : bool) : q_list E = default_list →
  let ask p d := snd (qcall E st (fst (qcalls E (fresh E) h)) (txt p) d) in
  let reply p v := q_render E (txt p) <$> q_route E (txt p) v st in
  ask "/connect.oracle.v2.Query/GetPrice" (DObj [(txt (if b then "currency_pair" else "currencyPair"), JText t)]) = reply "/connect.oracle.v2.Query/GetPrice" [VStr t] ∧
  ask "/connect.oracle.v2.Query/GetPrices" (DObj [(txt (if b then "currency_pair_ids" else "currencyPairIds"), JList (JText <$> ts))]) = reply "/connect.oracle.v2.Query/GetPrices" [VStrs ts] ∧
  ask "/connect.oracle.v2.Query/GetAllCurrencyPairs" (DObj []) = reply "/connect.oracle.v2.Query/GetAllCurrencyPairs" [].
Proof.
  intros El ask reply. subst ask reply. cbv beta.
  assert (mapM elem_text (JText <$> ts) = Some ts) as Hts by (induction ts as [|i ts IH]; [done|]; cbn in *; by rewrite IH).
  assert (K : ∀ p d s v, default_list p = Some s → complete s d → asked s d = Some v →
    snd (qcall E st (fst (qcalls E (fresh E) h)) p d) = q_render E p <$> q_route E p v st).
  { intros p d s v Hs Hc Ha. rewrite C108_complete_request by (rewrite El, Hs; by intros ? [= <-]).
    unfold answer. rewrite El, Hs. cbn [mbind option_bind]. rewrite Ha. cbn [mbind option_bind]. by destruct (q_route E p v st). }
  split; [|split].
  - eapply K; [reflexivity| |].
    + eexists. split; [done|]. intros f Hf. apply elem_of_list_singleton in Hf as ->. exists (JText t). split; [|done]. by destruct b.
    + unfold asked. rewrite decide_True; [by destruct b|]. constructor; [|done]. left. destruct b; [by left|by right].
  - eapply K; [reflexivity| |].
    + eexists. split; [done|]. intros f Hf. apply elem_of_list_singleton in Hf as ->. exists (JList (JText <$> ts)). split; [|done]. by destruct b.
    + unfold asked. rewrite decide_True; [|constructor; [|done]; left; destruct b; [by left|by right]].
      assert (given f_ids (txt "currencyPairIds") [(txt (if b then "currency_pair_ids" else "currencyPairIds"), JList (JText <$> ts))] = Some (JList (JText <$> ts))) as Hg by (by destruct b).
      cbn [mapM fst snd]. rewrite Hg. cbn [field_value]. rewrite Hts. done.
  - eapply K; [reflexivity| |].
    + eexists. split; [done|]. intros f Hf. by apply not_elem_of_nil in Hf.
    + unfold asked. rewrite decide_True; done.
Qed.

(** Executions of two different queries at the same time, in any interleaving. *)
Definition pc_path (c : qpc resp) : option text :=
  match c with QStart p _ | QMarshal p | QReset p _ | QRoute p _ | QDecode p _ | QRender p | QClear p _ => Some p | QDone _ => None end.
Definition same_at (p : text) (m m' : qmem resp) : Prop := m_req m p = m_req m' p ∧ m_resp m p = m_resp m' p.
Lemma qstep_local st m m' c p : (∀ q, pc_path c = Some q → q = p) → same_at p m m' →
  snd (qstep E st m c) = snd (qstep E st m' c) ∧ same_at p (fst (qstep E st m c)) (fst (qstep E st m' c)) ∧ (∀ q, pc_path (snd (qstep E st m c)) = Some q → q = p).
Proof.
  intros Hp [S1 S2]. destruct c; cbn [pc_path] in Hp; try (specialize (Hp _ eq_refl); subst); cbn [qstep]; rewrite ?S1, ?S2.
  - destruct (q_list E p); [|done]. destruct (unmarshal_json _ _ _) as [v []]; cbn; unfold same_at; cbn; rewrite !decide_True by done; split_and!; try done; by intros ? [= <-].
  - cbn. split_and!; try done. by intros ? [= <-].
  - cbn. unfold same_at. cbn. rewrite !decide_True by done. split_and!; try done. by intros ? [= <-].
  - cbn. destruct (q_route E p v st); split_and!; try done. by intros ? [= <-].
  - cbn. unfold same_at. cbn. rewrite !decide_True by done. split_and!; try done. by intros ? [= <-].
  - cbn. split_and!; try done. by intros ? [= <-].
  - cbn. unfold same_at. cbn. rewrite !decide_True by done. done.
  - done.
Qed.
Lemma qstep_other st m c p : pc_path c ≠ Some p → same_at p (fst (qstep E st m c)) m.
Proof.
  intros Hp. destruct c; cbn [pc_path] in Hp; cbn [qstep]; try done.
  - destruct (q_list E p0); [|done]. destruct (unmarshal_json _ _ _) as [v []]; cbn; unfold same_at; cbn; rewrite decide_False by congruence; done.
  - cbn. unfold same_at; cbn; rewrite decide_False by congruence; done.
  - cbn. unfold same_at; cbn; rewrite decide_False by congruence; done.
  - cbn. unfold same_at; cbn; rewrite decide_False by congruence; done.
Qed.
Lemma qpar_local sched st1 st2 m m' c1 c2 p1 p2 : p1 ≠ p2 → (∀ q, pc_path c1 = Some q → q = p1) → (∀ q, pc_path c2 = Some q → q = p2) → same_at p1 m m' →
  snd (fst (qpar E sched st1 st2 m c1 c2)) = snd (qrun E (length (List.filter id sched)) st1 m' c1).
Proof.
  intros Hne. revert m m' c1 c2. induction sched as [|b k IH]; intros m m' c1 c2 H1 H2 Hs; [done|].
  cbn [qpar List.filter]. destruct b; cbn [id length qrun].
  - destruct (qstep_local st1 m m' c1 p1 H1 Hs) as (A & B & C).
    destruct (qstep E st1 m c1) as [ma ca], (qstep E st1 m' c1) as [mb cb]. cbn [fst snd] in *. subst cb. by apply IH.
  - assert (pc_path c2 ≠ Some p1) as Hq by (intros Hq; apply H2 in Hq; congruence).
    pose proof (qstep_other st2 m c2 p1 Hq) as [O1 O2]. destruct (qstep_local st2 m m c2 p2 H2 (conj eq_refl eq_refl)) as (_ & _ & C).
    destruct (qstep E st2 m c2) as [ma ca]. cbn [fst snd] in *. apply IH; try done. destruct Hs. split; congruence.
Qed.
Theorem C108_other_queries_do_not_interfere sched st1 st2 m p1 d1 p2 d2 a m' c2 : p1 ≠ p2 → tidy m → blank m p1 →
  qpar E sched st1 st2 m (QStart p1 d1) (QStart p2 d2) = (m', QDone a, c2) → a = answer st1 p1 d1.
Proof.
  intros Hne T B Hr.
  pose proof (qpar_local sched st1 st2 m m (QStart p1 d1) (QStart p2 d2) p1 p2 Hne ltac:(by intros ? [= <-]) ltac:(by intros ? [= <-]) (conj eq_refl eq_refl)) as L.
  rewrite Hr in L. cbn [fst snd] in L.
  assert (∀ n k m0 c x, snd (qrun E n st1 m0 c) = QDone x → snd (qrun E (n + k) st1 m0 c) = QDone x) as Mono.
  { clear. induction n as [|n IH]; intros k m0 c x; cbn [qrun Nat.add].
    - cbn. intros ->. revert m0. induction k as [|k IHk]; intros m0; [done|]. cbn. apply IHk.
    - destruct (qstep E st1 m0 c) as [m1 c1]. apply IH. }
  pose proof (big_answer st1 m p1 d1 T (or_introl B)) as Ha. rewrite <- qcall_big in Ha. unfold qcall in Ha.
  assert (∃ x, snd (qrun E 7 st1 m (QStart p1 d1)) = QDone x) as [x Hx].
  { cbn [qrun qstep]. destruct (q_list E p1); [|eauto]. destruct (unmarshal_json _ _ _) as [v []]; [|eauto].
    cbn [qrun qstep]. destruct (q_route _ _ _ _); cbn; eauto. }
  assert (x = a) as ->.
  { symmetry in L. apply (Mono _ 7%nat) in L. rewrite Nat.add_comm in L. apply (Mono _ (length (List.filter id sched))) in Hx. congruence. }
  destruct (qrun E 7 st1 m (QStart p1 d1)) as [m7 c7]. cbn in Hx. subst c7. cbn in Ha. done.
Qed.

(** ** C109 *)
Lemma left_over st0 st h bad ids : q_list E = default_list →
  (∀ v, unmarshal_json [(f_ids, txt "currencyPairIds", KStrs)] [v] bad = ([VStrs ids], false)) →
  let m := fst (qcalls E (fresh E) (h ++ [(st0, q_prices, bad)])) in
  snd (qcall E st0 (fst (qcalls E (fresh E) h)) q_prices bad) = None ∧
  snd (qcall E st m q_prices (DObj [])) = answer st q_prices (DObj [(f_ids, JList (JText <$> ids))]).
Proof.
  intros El Hun m.
  assert (mapM elem_text (JText <$> ids) = Some ids) as Hids by (clear; induction ids as [|i ids IH]; [done|]; cbn in *; by rewrite IH).
  assert (Es : q_list E q_prices = Some [(f_ids, txt "currencyPairIds", KStrs)]) by (rewrite El; vm_compute; done).
  assert (Hsplit : qcalls E (fresh E) (h ++ [(st0, q_prices, bad)]) =
    let '(m1, r) := qcalls E (fresh E) h in let '(m2, a) := qcall E st0 m1 q_prices bad in (m2, r ++ [a])).
  { clear. generalize (fresh E). induction h as [|[[s q] x] h IH]; intros m0; cbn [app qcalls].
    - destruct (qcall E st0 m0 q_prices bad); done.
    - destruct (qcall E s m0 q x) as [m1 a]. rewrite IH. destruct (qcalls E m1 h) as [m2 r]. destruct (qcall E st0 m2 q_prices bad); done. }
  subst m. rewrite Hsplit. pose proof (qcalls_tidy _ h tidy_fresh) as T. destruct (qcalls E (fresh E) h) as [m1 r]. cbn [fst] in *. clear Hsplit.
  destruct T as [T1 T2]. specialize (T2 _ _ Es).
  assert (Hbig : big st0 m1 q_prices bad = (set_req m1 q_prices [VStrs ids], None)).
  { unfold big. rewrite Es. destruct (m_req m1 q_prices) as [|v [|]]; try done. by rewrite Hun. }
  rewrite qcall_big, Hbig. cbn [snd fst]. split; [done|]. rewrite qcall_big. unfold big, answer. rewrite Es.
  unfold set_req at 1. cbn [m_req]. rewrite decide_True by done. cbn [unmarshal_json dec_fields consume jfind List.find fmap option_fmap option_map forallb andb m_resp set_req].
  rewrite T1.
  assert (asked [(f_ids, txt "currencyPairIds", KStrs)] (DObj [(f_ids, JList (JText <$> ids))]) = Some [VStrs ids]) as Ha.
  { apply unmarshal_zero. cbn [unmarshal_json]. unfold zeros. cbn [fmap list_fmap snd dec_fields].
    assert (consume f_ids (txt "currencyPairIds") [(f_ids, JList (JText <$> ids))] = Some (JList (JText <$> ids))) as ->.
    { unfold consume, jfind. cbn [List.find fst]. rewrite (bool_decide_eq_false_2 (f_ids = txt "currencyPairIds")) by (vm_compute; done). cbn.
      rewrite bool_decide_eq_true_2 by done. done. }
    cbn [dec_field]. destruct (dec_list_ok (JText <$> ids) ids) as [_ K]. rewrite (K Hids). cbn [forallb fst].
    replace (known _ f_ids) with true by (vm_compute; done). done. }
  cbn [mbind option_bind]. rewrite Ha. cbn [mbind option_bind]. destruct (q_route E q_prices [VStrs ids] st); cbn; [by rewrite Hmerge|done].
Qed.
(** A request that names pairs and one unknown member is refused, but the names stay: the
    next request for the same query that names none is answered for them. *)
Theorem C109_left_over_refuted st0 st h ids extra : q_list E = default_list →
  extra ≠ f_ids → extra ≠ txt "currencyPairIds" →
  let bad := DObj [(f_ids, JList (JText <$> ids)); (extra, JNull)] in
  let m := fst (qcalls E (fresh E) (h ++ [(st0, q_prices, bad)])) in
  snd (qcall E st0 (fst (qcalls E (fresh E) h)) q_prices bad) = None ∧
  snd (qcall E st m q_prices (DObj [])) = answer st q_prices (DObj [(f_ids, JList (JText <$> ids))]).
Proof.
  intros El X1 X2 bad. apply left_over; [done|]. intros v.
  assert (mapM elem_text (JText <$> ids) = Some ids) as Hids by (clear; induction ids as [|i ids IH]; [done|]; cbn in *; by rewrite IH).
  assert (Hc : consume f_ids (txt "currencyPairIds") [(f_ids, JList (JText <$> ids)); (extra, JNull)] = Some (JList (JText <$> ids))).
  { unfold consume, jfind. cbn [List.find fst]. rewrite (bool_decide_eq_false_2 (f_ids = txt "currencyPairIds")) by (vm_compute; done).
    rewrite (bool_decide_eq_false_2 (extra = _)) by done. cbn. rewrite bool_decide_eq_true_2 by done. done. }
  subst bad. cbn [unmarshal_json dec_fields]. rewrite Hc.
  cbn [dec_field]. destruct (dec_list_ok (JText <$> ids) ids) as [_ K]. rewrite (K Hids). cbn [andb]. cbn [dec_fields].
  assert (forallb (λ p : text * jval, known [(f_ids, txt "currencyPairIds", KStrs)] p.1) [(f_ids, JList (JText <$> ids)); (extra, JNull)] = false) as ->.
  { cbn [forallb fst]. replace (known _ extra) with false; [by rewrite andb_comm|]. symmetry. unfold known. cbn [existsb fst snd].
    rewrite !bool_decide_eq_false_2 by congruence. done. }
  done.
Qed.
(** The same when one of the names is not a text: the names before it stay, and an empty name for
    it and for every later one. *)
Theorem C109_left_over_part_refuted st0 st h ids v rest : q_list E = default_list →
  elem_text v = None →
  let bad := DObj [(f_ids, JList ((JText <$> ids) ++ v :: rest))] in
  let m := fst (qcalls E (fresh E) (h ++ [(st0, q_prices, bad)])) in
  snd (qcall E st0 (fst (qcalls E (fresh E) h)) q_prices bad) = None ∧
  snd (qcall E st m q_prices (DObj [])) = answer st q_prices (DObj [(f_ids, JList (JText <$> (ids ++ replicate (S (length rest)) [])))]).
Proof.
  intros El Hv bad. apply left_over; [done|]. intros v0.
  assert (Hl : dec_list ((JText <$> ids) ++ v :: rest) = (ids ++ replicate (S (length rest)) [], false)).
  { clear -Hv. induction ids as [|i ids IH].
    - cbn [fmap list_fmap app dec_list]. unfold dec_str. destruct v; cbn in Hv; try done.
    - change ((JText <$> i :: ids) ++ v :: rest) with (JText i :: ((JText <$> ids) ++ v :: rest)). cbn [dec_list dec_str]. by rewrite IH. }
  subst bad. cbn [unmarshal_json dec_fields].
  assert (consume f_ids (txt "currencyPairIds") [(f_ids, JList ((JText <$> ids) ++ v :: rest))] = Some (JList ((JText <$> ids) ++ v :: rest))) as ->.
  { unfold consume, jfind. cbn [List.find fst]. rewrite (bool_decide_eq_false_2 (f_ids = txt "currencyPairIds")) by (vm_compute; done). cbn.
    rewrite bool_decide_eq_true_2 by done. done. }
  cbn [dec_field]. rewrite Hl. cbn [andb dec_fields forallb]. done.
Qed.

(** Two executions of the same query at once: an execution whose request is read, and then
    another's before the first goes on, is answered for the other's request. *)
Theorem C109_other_answer_refuted st1 st2 m p s d1 d2 : q_list E p = Some s → tidy m → decodable s d1 → decodable s d2 → complete s d2 →
  ∃ sched m' c2, qpar E sched st1 st2 m (QStart p d1) (QStart p d2) = (m', QDone (answer st1 p d2), c2).
Proof.
  intros El [T1 T2] H1 H2 Hc.
  pose proof (T2 _ _ El) as Hl. apply (unmarshal_flag s (m_req m p) d1 Hl) in H1 as F1.
  pose proof (unmarshal_length s (m_req m p) d1 Hl) as Hl1. destruct (unmarshal_json s (m_req m p) d1) as [v1 b1] eqn:E1. cbn [snd fst] in *. subst b1.
  destruct H2 as [v2 Ev2]. pose proof Ev2 as E2. apply unmarshal_zero in E2.
  rewrite <- (unmarshal_complete s v1 d2 Hl1 Hc) in E2 by (unfold decodable; eauto).
  assert (K : ∀ m0, m_resp m0 p = q_empty E → ∃ k m' , qpar E k st1 st2 m0 (QRoute p v2) (QMarshal p) = (m', QDone (answer st1 p d2), QMarshal p)).
  { intros m0 Hm. unfold answer. rewrite El. cbn [mbind option_bind]. rewrite Ev2. cbn [mbind option_bind].
    destruct (q_route E p v2 st1) as [r|] eqn:Er.
    - exists [true; true; true; true]. cbn [qpar qstep]. rewrite Er. cbn [qpar qstep]. rewrite Hm, Hmerge. cbn. rewrite decide_True by done. eauto.
    - exists [true]. cbn [qpar qstep]. rewrite Er. cbn. eauto. }
  destruct (K (set_req (set_req (set_req m p v1) p v2) p (zeros s)) (T1 p)) as (k & m' & Hk).
  exists (true :: false :: true :: true :: k), m', (QMarshal p).
  assert (∀ (m0 : qmem resp) x, m_req (set_req m0 p x) p = x) as R by (intros; cbn; by rewrite decide_True).
  cbn [qpar qstep]. rewrite El, E1. cbn [qpar qstep]. rewrite R, E2. cbn [qpar qstep]. rewrite R. rewrite El. exact Hk.
Qed.
End props.

(** ** Concrete: an oracle with one price *)
Definition x_feed : text := txt "BTC/USD".
(** The handler lists the prices of the pairs asked for; an unknown pair is an error. *)
Definition x_qenv : qenv N (list (text * N)) := QEnv default_list
  (λ p v st, if decide (p = q_prices) then
               match v with [VStrs l] => mapM (λ i, if decide (i = x_feed) then Some (i, st) else None) l | _ => None end
             else Some [])
  [] app (λ _ r, concat ((λ x, x.1 ++ [x.2]) <$> r)).
Definition x_bad : rdoc := DObj [(f_ids, JList [JText x_feed]); (txt "x", JNull)].

(** Node 1 has refused a query of a user; node 2 has not, or has been started again since.
    The same call of the same block is answered with a price by the first and with an empty
    list by the second. *)
Theorem C109_nodes_disagree_refuted :
  let m1 := fst (qcalls x_qenv (fresh x_qenv) [(7%N, q_prices, x_bad)]) in
  snd (qcall x_qenv 8%N m1 q_prices (DObj [])) = Some (x_feed ++ [8%N]) ∧
  snd (qcall x_qenv 8%N (fresh x_qenv) q_prices (DObj [])) = Some [].
Proof. vm_compute. done. Qed.

(** The hypotheses of C108 are met by non-trivial calls, and C109's schedule exists. *)
Theorem C108_example :
  (∀ r, q_merge x_qenv (q_empty x_qenv) r = r) ∧
  last_ok x_qenv q_prices [(7%N, q_prices, x_bad); (7%N, q_prices, DObj [(txt "currencyPairIds", JList [JText x_feed])]); (3%N, q_price, DBad)] ∧
  answer x_qenv 9%N q_prices (DObj [(f_ids, JList [JText x_feed; JText x_feed])]) = Some (x_feed ++ [9%N] ++ x_feed ++ [9%N]) ∧
  (∃ s, q_list x_qenv q_prices = Some s ∧ complete s (DObj [(f_ids, JList [JText x_feed])]) ∧ decodable s (DObj [(f_ids, JList [JText x_feed])]) ∧ decodable s (DObj [])
        ∧ ¬ decodable s x_bad) ∧
  fst (qpar x_qenv [true; false; true; true; true; true; true; true] 8%N 8%N (fresh x_qenv) (QStart q_prices (DObj [])) (QStart q_prices (DObj [(f_ids, JList [JText x_feed])])))
    = (fst (fst (qpar x_qenv [true; false; true; true; true; true; true; true] 8%N 8%N (fresh x_qenv) (QStart q_prices (DObj [])) (QStart q_prices (DObj [(f_ids, JList [JText x_feed])])))), QDone (Some (x_feed ++ [8%N]))).
Proof.
  split; [done|]. split.
  { intros d s Hd Hs. assert (d = DObj [(txt "currencyPairIds", JList [JText x_feed])]) as ->.
    { cbn [last_to] in Hd. rewrite decide_False in Hd by (vm_compute; done). rewrite decide_True in Hd by done. by injection Hd. }
    assert (s = [(f_ids, txt "currencyPairIds", KStrs)]) as -> by (vm_compute in Hs; injection Hs as <-; vm_compute; done).
    apply (unmarshal_flag _ [VStrs []]); [done|]. vm_compute. done. }
  split; [vm_compute; done|]. split; [|f_equal; vm_compute; done].
  exists [(f_ids, txt "currencyPairIds", KStrs)]. split; [vm_compute; done|]. split.
  { eexists. split; [done|]. intros f Hf. apply elem_of_list_singleton in Hf as ->. exists (JList [JText x_feed]). split; [vm_compute; done|done]. }
  split; [apply (unmarshal_flag _ [VStrs []]); [done|]; vm_compute; done|].
  split; [apply (unmarshal_flag _ [VStrs []]); [done|]; vm_compute; done|].
  intros Hd. apply (unmarshal_flag _ [VStrs []]) in Hd; [|done]. vm_compute in Hd. done.
Qed.
