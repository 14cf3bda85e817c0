(** The backing invariant of the wrapping contract. *)
From Verif.Base Require Import Prelude Hex Dec Json.
From Verif.Model Require Import Token Bank Wrapper.
From Verif.Spec Require Import TokenSpec WrapperSpec.
From Verif.Proofs Require Import HexP TokenP BankP TokenMore WrapperP.
Open Scope Z_scope.
Local Arguments ibc_text : simpl never.
Local Arguments finish_wrap : simpl never.
Local Arguments execute_cosmos : simpl never.
Local Arguments transfer_text : simpl never.
Local Arguments decode_transfer : simpl never.
Local Arguments dec_of : simpl never.
Local Arguments hexutil_encode : simpl never.
Local Arguments contract_to_denom : simpl never.

(** ** One call, seen from a fixed address [me] *)

(** A call that does not spend [me]'s tokens by [me]'s own or the chain's authority. *)
Definition spares (me sender : bytes) (o : op) : Prop :=
  match o with
  | OTransfer _ _ | OApprove _ _ | OBurn _ => sender ≠ me
  | OSudoTransfer f _ _ | OSudoBurn f _ => f ≠ me
  | _ => True
  end.
(** A call that does not use [me]'s right to mint or to hand over, nor the chain's. *)
Definition no_issue (me sender : bytes) (o : op) : Prop :=
  match o with
  | OMint _ _ | OTransferOwnership _ => sender ≠ me
  | OSudoMint _ _ => False
  | _ => True
  end.

Lemma allow_body_spares me s o t t1 t2 E w : tok_ok t → op_ok o →
  (∀ sp, allow t me sp = 0) → spares me s o → guards E w s o t = Some t1 → body s o t1 = Some t2 →
  bal t me <= bal t2 me ∧ ∀ sp, allow t2 me sp = 0.
Proof.
  intros Hok Ho Ha Hsp Hg Hb.
  pose proof (guards_ok _ _ _ _ _ _ Hok Ho Hg) as Hok1.
  pose proof (guards_bal _ _ _ _ _ _ Hg) as (Eb & _).
  destruct (body_effect _ _ _ _ me Hok1 Ho Hb) as [Hbal _].
  assert (bal t1 me = bal t me) as E1 by (unfold bal; by rewrite Eb).
  pose proof (body_allow _ _ _ _ Hb) as Hal.
  assert (∀ f v, 0 <= v → (a ← sub256 (allow t f s) v; Some (set_allow t f s a)) = Some t1 →
     t_allow t2 = t_allow t1 → (f = me → v = 0) ∧ ∀ sp, allow t2 me sp = 0) as Hfrom.
  { intros f v Hv Hs E2. destruct (sub256 (allow t f s) v) as [x|] eqn:Es; [|done]. injection Hs as <-.
    apply sub256_some in Es as [-> Hle]. split.
    - intros ->. rewrite Ha in Hle. lia.
    - intros sp. unfold allow. rewrite E2. simpl. destruct (decide ((f, s) = (me, sp))) as [[= -> ->]|Hne].
      + rewrite lookup_insert. simpl. rewrite Ha in *. lia.
      + rewrite lookup_insert_ne by done. apply Ha. }
  rewrite Hbal, E1. unfold allow in *.
  destruct o; simpl in *; unfold if_eq, amount_ok in *.
  - destruct (is_blocked _ _ _); [done|]. injection Hg as <-. rewrite Hal. split; [|apply Ha].
    rewrite (bool_decide_eq_false_2 (me = s)) by congruence. case_bool_decide; lia.
  - injection Hg as <-. rewrite Hal. split; [lia|]. intros sp. rewrite lookup_insert_ne by congruence. apply Ha.
  - destruct (is_blocked _ _ _) eqn:Hbl; [done|]. destruct (Hfrom from v ltac:(lia) Hg Hal) as [Hz Ha2]. split; [|done].
    repeat case_bool_decide; try lia. rewrite Hz by done. lia.
  - destruct (is_blocked _ _ _); [done|]. destruct (bool_decide (s = t_owner t)); [|done]. injection Hg as <-. rewrite Hal. split; [|apply Ha].
    case_bool_decide; lia.
  - destruct (is_module _ _); [done|]. injection Hg as <-. rewrite Hal. split; [|apply Ha].
    rewrite (bool_decide_eq_false_2 (me = s)) by congruence. lia.
  - destruct (is_module _ _) eqn:Hbl; [done|]. destruct (Hfrom from v ltac:(lia) Hg Hal) as [Hz Ha2]. split; [|done].
    case_bool_decide; try lia. rewrite Hz by done. lia.
  - destruct (bool_decide (s = chain_addr)); [|done]. injection Hg as <-. rewrite Hal. split; [|apply Ha].
    rewrite (bool_decide_eq_false_2 (me = from)) by congruence. case_bool_decide; lia.
  - destruct (t_kind t); [|done]. destruct (bool_decide (s = chain_addr)); [|done]. injection Hg as <-. rewrite Hal. split; [|apply Ha].
    case_bool_decide; lia.
  - destruct (t_kind t); [|done]. destruct (bool_decide (s = chain_addr)); [|done]. injection Hg as <-. rewrite Hal. split; [|apply Ha].
    rewrite (bool_decide_eq_false_2 (me = from)) by congruence. lia.
  - destruct (_ && _); [|done]. injection Hg as <-. rewrite Hal. split; [|apply Ha]. lia.
Qed.

Lemma body_owner s o t t' : body s o t = Some t' →
  t_owner t' = match o with OTransferOwnership n => n | _ => t_owner t end.
Proof. destruct o; simpl; unfold tok_transfer, tok_mint, tok_burn; intros; simplify_option_eq; done. Qed.

Lemma owner_no_issue me s o t t1 t2 E w : tok_ok t → op_ok o → t_owner t = me → no_issue me s o →
  guards E w s o t = Some t1 → body s o t1 = Some t2 → t_owner t2 = me ∧ t_supply t2 <= t_supply t.
Proof.
  intros Hok Ho Hown Hn Hg Hb.
  pose proof (guards_ok _ _ _ _ _ _ Hok Ho Hg) as Hok1.
  pose proof (guards_bal _ _ _ _ _ _ Hg) as (_ & Es & _ & Eo).
  destruct (body_effect _ _ _ _ me Hok1 Ho Hb) as [_ Hsup].
  rewrite (body_owner _ _ _ _ Hb), Hsup, Es, Eo.
  destruct o; simpl in *; unfold amount_ok in *; try (split; [done|lia]); try done.
  - destruct (is_blocked _ _ _); [done|]. case_bool_decide; [congruence|done].
  - rewrite bool_decide_eq_false_2 in Hg by congruence. done.
Qed.

(** A call leaves every other contract alone. *)
Lemma call_cases E w c s o ok w' : call_tok E w c s o = (ok, w') →
  w_code w' = w_code w ∨
  (ok = true ∧ ∃ t t1 t2, is_token w c t ∧ guards E w s o t = Some t1 ∧ body s o t1 = Some t2 ∧
    w_code w' = <[c := CTok t2]> (w_code w)).
Proof.
  unfold call_tok. destruct (w_code w !! c) as [[t|]|] eqn:Hc; [|intros [= <- <-]; by left..].
  destruct (guards E w s o t) as [t1|] eqn:Hg; [|intros [= <- <-]; by left].
  set (w1 := match op_recipient o with Some r => store_modifier w c r | None => w end).
  assert (w_code w1 = w_code w) as Ec by (unfold w1; destruct (op_recipient o); [apply store_modifier_code|done]).
  destruct (body s o t1) as [t2|] eqn:Hb; intros [= <- <-]; [|by left].
  right. split; [done|]. exists t, t1, t2. simpl. by rewrite Ec.
Qed.

(** ** The invariant *)

(** The contract a bare denomination names, whatever the tables say. *)
Definition names (d : text) (c : bytes) : Prop := ∃ up, d = denom_prefix ++ hex_enc up c.
Lemma names_resolves w d c : names d c → addr_ok c → denom_to_contract w d = Some c.
Proof.
  intros [up ->] [Hl Hb]. unfold denom_to_contract. rewrite cut_prefix_app.
  rewrite is_hex_address_plain, hex_to_address_plain by done. done.
Qed.
Lemma names_plain d c : names d c → addr_ok c → plain d.
Proof. intros [up ->] [_ Hb]. apply plain_app; [lit|by apply hex_plain]. Qed.

Definition resolved (d : text) : option bytes :=
  match cut_prefix denom_prefix d with
  | Some h => if is_hex_address h then Some (hex_to_address h) else None
  | None => None
  end.
Lemma names_resolved d c : names d c → addr_ok c → resolved d = Some c.
Proof.
  intros [up ->] [Hl Hb]. unfold resolved. rewrite cut_prefix_app.
  rewrite is_hex_address_plain, hex_to_address_plain by done. done.
Qed.

(** Amounts of [o] in waiting messages. *)
Fixpoint pending (o : bytes) (q : list imsg) : Z :=
  match q with
  | [] => 0
  | m :: q' => (if bool_decide (resolved (im_denom m) = Some o) then im_amount m else 0) + pending o q'
  end.
Lemma pending_app o q1 q2 : pending o (q1 ++ q2) = pending o q1 + pending o q2.
Proof. induction q1 as [|m q1 IH]; simpl; [lia|]. rewrite IH. lia. Qed.

(** [v] wrapped units are covered by [b] origin units. *)
Definition covers (d v b : Z) : Prop := if 6 <=? d then v * 10 ^ (d - 6) <= b else v <= b * 10 ^ (6 - d).

Lemma covers_worth d v b : 0 <= d → covers d v b → worth d v <= b.
Proof.
  unfold covers, worth. intros Hd. destruct (Z.leb_spec 6 d) as [|H]; [done|].
  intros Hc. assert (0 < 10 ^ (6 - d)) by (apply Z.pow_pos_nonneg; lia).
  apply Z.div_le_upper_bound; lia.
Qed.
Lemma covers_mono d v b v' b' : 0 <= d → covers d v b → v' <= v → b <= b' → covers d v' b'.
Proof.
  unfold covers. intros Hd. destruct (Z.leb_spec 6 d) as [|H]; intros.
  - assert (0 < 10 ^ (d - 6)) by (apply Z.pow_pos_nonneg; lia). nia.
  - assert (0 < 10 ^ (6 - d)) by (apply Z.pow_pos_nonneg; lia). nia.
Qed.
(** Locking [a] covers what is minted for it. *)
Lemma covers_wrap d sup b a v : 0 <= d → convert_decimal a d wrapped_decimals = Some v → 0 <= a →
  covers d sup b → covers d (sup + v) (b + a).
Proof.
  unfold convert_decimal, covers, wrapped_decimals. intros Hd Hc Ha.
  destruct (Z.ltb_spec 6 d) as [H|H].
  - destruct (Z.leb_spec 6 d); [|lia]. destruct (10 ^ (d - 6) <? two256); [|done].
    destruct (a / 10 ^ (d - 6) =? 0); [done|]. injection Hc as <-.
    assert (0 < 10 ^ (d - 6)) by (apply Z.pow_pos_nonneg; lia).
    pose proof (Z.mul_div_le a (10 ^ (d - 6)) ltac:(lia)). nia.
  - destruct (Z.ltb_spec d 6) as [H'|H'].
    + destruct (Z.leb_spec 6 d); [lia|]. destruct (_ && _); [|done].
      destruct (a * 10 ^ (6 - d) =? 0); [done|]. injection Hc as <-. lia.
    + assert (d = 6) as -> by lia. simpl. destruct (a =? 0); [done|]. injection Hc as <-. change (10 ^ 0) with 1. lia.
Qed.
(** Redeeming [v] leaves the rest covered. *)
Lemma covers_unwrap d sup b a v : 0 <= d → convert_decimal v wrapped_decimals d = Some a →
  covers d (sup + v) b → covers d sup (b - a).
Proof.
  unfold convert_decimal, covers, wrapped_decimals. intros Hd Hc.
  destruct (Z.ltb_spec d 6) as [H|H].
  - destruct (Z.leb_spec 6 d); [lia|]. destruct (10 ^ (6 - d) <? two256); [|done].
    destruct (v / 10 ^ (6 - d) =? 0); [done|]. injection Hc as <-.
    assert (0 < 10 ^ (6 - d)) by (apply Z.pow_pos_nonneg; lia).
    pose proof (Z.mul_div_le v (10 ^ (6 - d)) ltac:(lia)). nia.
  - destruct (Z.ltb_spec 6 d) as [H'|H'].
    + destruct (Z.leb_spec 6 d); [|lia]. destruct (_ && _); [|done].
      destruct (v * 10 ^ (d - 6) =? 0); [done|]. injection Hc as <-. lia.
    + assert (d = 6) as -> by lia. simpl. destruct (v =? 0); [done|]. injection Hc as <-. change (10 ^ 0) with 1. lia.
Qed.
Lemma convert_pos a d d' v : convert_decimal a d d' = Some v → a ≠ 0.
Proof.
  unfold convert_decimal. intros H ->. rewrite ?Zdiv_0_l, ?Z.mul_0_l in H.
  destruct (d' <? d); [destruct (_ <? _); done|]. destruct (d <? d'); [|done]. destruct (_ && _); done.
Qed.
Lemma convert_ok a d d' v : 0 <= d → 0 <= d' → amount_ok a → convert_decimal a d d' = Some v → amount_ok v.
Proof.
  unfold convert_decimal, amount_ok. intros Hd Hd' Ha.
  destruct (Z.ltb_spec d' d).
  - destruct (Z.ltb_spec (10 ^ (d - d')) two256); [|done]. case_match; [done|]. intros [= <-].
    assert (0 < 10 ^ (d - d')) by (apply Z.pow_pos_nonneg; lia). split; [apply Z.div_pos; lia|].
    apply Z.div_lt_upper_bound; nia.
  - destruct (Z.ltb_spec d d').
    + assert (0 < 10 ^ (d' - d)) by (apply Z.pow_pos_nonneg; lia).
      destruct (Z.ltb_spec (10 ^ (d' - d)) two256); [|done].
      destruct (Z.ltb_spec (a * 10 ^ (d' - d)) two256); [|done]. simpl. case_match; [done|]. intros [= <-]. nia.
    + case_match; [done|]. intros [= <-]. done.
Qed.

Section inv.
Context (V : wenv) (HV : wenv_ok V) (o : bytes).
Notation E := (we_env V).
Notation me := (we_self V).
Notation dec := (we_decimals V o).

Definition wsup (s : wst) : Z := match ws_wrapped s !! o with Some c => supply (ws_w s) c | None => 0 end.

(** [k]: wrapped units of [o] about to be minted or just burnt. *)
Record WI (k : Z) (s : wst) : Prop := {
  wi_env : env_ok E;
  wi_inv : Inv E (ws_w s);
  wi_o : (∃ t, is_token (ws_w s) o t) ∨ (w_code (ws_w s) !! o = None ∧ ws_wrapped s !! o = None);
  wi_allow : ∀ sp, allowance (ws_w s) o me sp = 0;
  wi_org : ∀ c x, ws_origin s !! c = Some x →
     ∃ t, is_token (ws_w s) c t ∧ t_owner t = me ∧ addr_ok c ∧ w_denom_of (ws_w s) !! c = None;
  wi_map : ∀ x c, ws_wrapped s !! x = Some c → ws_origin s !! c = Some x;
  wi_only : ∀ c, ws_origin s !! c = Some o → ws_wrapped s !! o = Some c;
  wi_self : ws_origin s !! o ≠ Some o;
  wi_cb : ∀ id to d v, ws_cb s !! id = Some (to, d, v) → amount_ok v;
  wi_q : Forall (fun m => ∃ c, names (im_denom m) c ∧ addr_ok c ∧ amount_ok (im_amount m)) (ws_q s);
  wi_back : covers dec (wsup s + k) (balance (ws_w s) o me - pending o (ws_q s)) }.

Lemma dec_range : 0 <= dec.
Proof. destruct HV as (_ & _ & _ & _ & H). specialize (H o). lia. Qed.

(** Replacing the world. *)
Lemma wi_world k k' s w' : WI k s → Inv E w' →
  (∀ sp, allowance w' o me sp = 0) → ((∃ t, is_token w' o t) ∨ (w_code w' !! o = None ∧ ws_wrapped s !! o = None)) →
  (∀ c x t, ws_origin s !! c = Some x → is_token (ws_w s) c t → t_owner t = me → ∃ t', is_token w' c t' ∧ t_owner t' = me) →
  (∀ c t, is_token (ws_w s) c t → w_denom_of (ws_w s) !! c = None → w_denom_of w' !! c = None) →
  covers dec (wsup (put_w s w') + k') (balance w' o me - pending o (ws_q s)) →
  WI k' (put_w s w').
Proof.
  intros [] Hi Ha Ht Ho Hd Hc. split; try done; simpl.
  intros c x Hx. destruct (wi_org0 c x Hx) as (t & Htk & How & Hadr & Hden).
  destruct (Ho c x t Hx Htk How) as (t' & ? & ?). eauto 10.
Qed.

(** A call of a token that spares the wrapper. *)
Lemma wi_call k s c sender op ok w' : WI k s → op_ok op →
  call_tok E (ws_w s) c sender op = (ok, w') →
  spares me sender op → (ws_origin s !! c ≠ None → no_issue me sender op) →
  WI k (put_w s w').
Proof.
  intros HI Ho Hc Hsp Hni. pose proof HI as [].
  pose proof (call_frame E (ws_w s) c sender op) as Hf. rewrite Hc in Hf. simpl in Hf. destruct Hf as (Hden & _).
  pose proof (inv_call E (ws_w s) c sender op wi_inv0 Ho) as Hi'. rewrite Hc in Hi'. simpl in Hi'.
  assert ((∀ sp, allowance w' o me sp = 0) ∧ ((∃ t, is_token w' o t) ∨ (w_code w' !! o = None ∧ ws_wrapped s !! o = None)) ∧ balance (ws_w s) o me <= balance w' o me ∧
    (∀ x y t, ws_origin s !! x = Some y → is_token (ws_w s) x t → t_owner t = me →
       ∃ t', is_token w' x t' ∧ t_owner t' = me ∧ t_supply t' <= t_supply t)) as (Ha & Ht & Hb & Hor).
  { destruct (call_cases _ _ _ _ _ _ _ Hc) as [Hsame|(_ & t & t1 & t2 & Htk & Hg & Hbd & Hw)].
    - unfold allowance, balance, is_token in *. rewrite Hsame. split_and!; try done.
      intros x y t _ ? ?. exists t. done.
    - assert (tok_ok t) as Hok by eauto using iv_tok.
      assert (∀ sp, c = o → allow t me sp = 0) as Hal.
      { intros sp ->. specialize (wi_allow0 sp). unfold allowance in wi_allow0. unfold is_token in Htk. by rewrite Htk in wi_allow0. }
      unfold allowance, balance, is_token in *. rewrite Hw. split_and!.
      + intros sp. destruct (decide (c = o)) as [->|].
        * rewrite lookup_insert. eapply (allow_body_spares me); try done. auto.
        * rewrite lookup_insert_ne by done. apply wi_allow0.
      + destruct (decide (c = o)) as [->|].
        * left. rewrite lookup_insert. eauto.
        * rewrite lookup_insert_ne by done. done.
      + destruct (decide (c = o)) as [->|].
        * rewrite lookup_insert, Htk. eapply (allow_body_spares me); try done. auto.
        * rewrite lookup_insert_ne by done. lia.
      + intros x y t' Hx Htx How. destruct (decide (c = x)) as [->|].
        * rewrite lookup_insert. rewrite Htk in Htx. injection Htx as <-. exists t2. split; [done|].
          eapply owner_no_issue; try done. apply Hni. by rewrite Hx.
        * rewrite lookup_insert_ne by done. exists t'. done. }
  eapply wi_world; try done.
  - intros x y t H1 H2 H3. destruct (Hor x y t H1 H2 H3) as (t' & ? & ? & ?). eauto.
  - intros x t _ H. by rewrite Hden.
  - assert (wsup (put_w s w') <= wsup s).
    { unfold wsup. simpl. destruct (ws_wrapped s !! o) as [x|] eqn:Hx; [|lia].
      destruct (wi_org0 x o (wi_map0 _ _ Hx)) as (t & Htx & How & _).
      destruct (Hor x o t (wi_map0 _ _ Hx) Htx How) as (t' & Htx' & _ & Hle).
      unfold supply, is_token in *. by rewrite Htx, Htx'. }
    eapply covers_mono; [apply dec_range|done| |]; lia.
Qed.

Lemma step_denom w w' c t : step E w w' → is_token w c t → w_denom_of w !! c = None → w_denom_of w' !! c = None.
Proof.
  assert (∀ w w', ext E w w' → w_denom_of w' = w_denom_of w) as Hext.
  { intros w1 w2 H. destruct H; try done.
    - apply call_frame.
    - by apply factory_create_effect in H0 as (_ & _ & -> & _).
    - apply deploy_eq in H0 as (_ & m & n & ->). done.
    - unfold deploy_initia in H0. destruct (deploy _ _ _) as [w1|] eqn:Hd; [|done]. simpl in H0.
      apply deploy_eq in Hd as (_ & m & n & ->).
      assert (∀ w c, w_denom_of (snd (register w c)) = w_denom_of w) as Hr by (intros; unfold register; repeat case_match; done).
      match type of H0 with context [register ?a ?b] => specialize (Hr a b); destruct (register a b) as [ok w2] end.
      destruct ok; [|done]. injection H0 as <-. done.
    - apply deploy_eq in H0 as (_ & m & n & ->). done.
    - unfold register. repeat case_match; done.
    - unfold register_from_factory. by case_bool_decide.
    - apply register_store_code. }
  intros [Hs|Hs] Ht Hn.
  - by rewrite (Hext _ _ Hs).
  - destruct Hs; try done.
    + by rewrite (proj1 (call_frame E w self chain_addr o0)).
    + rewrite <- Hn. clear - Hext H0. induction H0 as [|a b d H _ IH]; [done|]. by rewrite IH, (Hext _ _ H).
    + unfold create_erc20. destruct (factory_create E w chain_addr) as [[c' w1]|] eqn:Hf; [|done]. simpl.
      pose proof (factory_create_eq _ _ _ _ _ Hf) as (-> & Hc & _).
      apply factory_create_effect in Hf as (_ & _ & -> & _). rewrite lookup_insert_ne; [done|].
      intros Heq. rewrite Heq in Hc. unfold is_token in Ht. congruence.
    + unfold create_acct. by case_match.
Qed.

Lemma wi_quiet k s w' : WI k s → step E (ws_w s) w' → tokens_kept (ws_w s) w' →
  w_code w' !! o ≠ Some CCustom → WI k (put_w s w').
Proof.
  intros HI Hs [Hk Hnew] Hun. pose proof HI as [].
  assert ((∀ sp, allowance w' o me sp = 0) ∧ ((∃ t, is_token w' o t) ∨ (w_code w' !! o = None ∧ ws_wrapped s !! o = None)) ∧
     balance w' o me = balance (ws_w s) o me) as (Ha & Ho & Hb).
  { destruct wi_o0 as [[t Ht]|[Hn Hw]].
    - pose proof (Hk _ _ Ht) as Ht'. unfold allowance, balance, is_token in *. rewrite Ht' in *. rewrite Ht in *. eauto.
    - destruct (w_code w' !! o) as [[t|]|] eqn:Ht; [|done|].
      + destruct (Hnew o t Ht) as [Hc|(kk & ow & ->)]; [unfold is_token in Hc; congruence|].
        unfold allowance, balance, is_token. rewrite Ht, Hn. split_and!; eauto.
      + unfold allowance, balance. rewrite Ht, Hn. eauto. }
  eapply wi_world; try done.
  - by eapply inv_step.
  - intros c x t _ Ht How. eauto.
  - intros c t. by apply step_denom.
  - assert (wsup (put_w s w') = wsup s) as ->.
    { unfold wsup. simpl. destruct (ws_wrapped s !! o) as [x|] eqn:Hx; [|done].
      destruct (wi_org0 x o (wi_map0 _ _ Hx)) as (t & Htx & How & _).
      unfold supply. pose proof (Hk _ _ Htx) as Htx'. unfold is_token in *. by rewrite Htx, Htx'. }
    by rewrite Hb.
Qed.

(** A new wrapped token. *)
Lemma wi_create k s tok s' : WI k s → (tok = o → ws_wrapped s !! o = None) → w_code (ws_w s) !! tok ≠ None →
  create_wrapped V s tok = Some s' → WI k s'.
Proof.
  intros HI Hn Htk Hc. pose proof HI as []. unfold create_wrapped in Hc.
  destruct (factory_create E (ws_w s) me) as [[c w1]|] eqn:Hf; [|done]. simpl in Hc. injection Hc as <-.
  pose proof (inv_factory _ _ _ _ _ wi_env0 wi_inv0 Hf) as Hi1.
  pose proof (factory_create_eq _ _ _ _ _ Hf) as (Ec & Hnone & _).
  destruct (factory_create_effect _ _ _ _ _ Hf) as (Hb & Hsp & Hden & _ & Hoth & Hnew).
  assert (∀ x t, is_token (ws_w s) x t → x ≠ c ∧ is_token w1 x t) as Hkeep.
  { intros x t Hx. assert (x ≠ c) as Hne by (intros ->; unfold is_token in Hx; congruence).
    split; [done|]. unfold is_token. by rewrite Hoth. }
  assert (ws_origin s !! c = None) as Hoc.
  { destruct (ws_origin s !! c) as [x|] eqn:Hx; [|done]. destruct (wi_org0 _ _ Hx) as (t & Ht & _). unfold is_token in Ht. congruence. }
  assert (tok ≠ c) as Htc by congruence.
  split; try done; simpl.
  - destruct wi_o0 as [[to Hto]|[Hno Hw]].
    + left. exists to. by apply Hkeep.
    + destruct (decide (o = c)) as [->|]; [left; eauto|]. rewrite Hoth by done. destruct (decide (tok = o)) as [->|]; [done|].
      right. by rewrite lookup_insert_ne.
  - intros sp. specialize (wi_allow0 sp). unfold allowance, is_token in *. destruct (decide (o = c)) as [->|].
    + by rewrite Hnew.
    + by rewrite Hoth.
  - intros c' x. destruct (decide (c = c')) as [<-|Hne].
    + intros _. exists (new_token KERC20 me). split_and!; try done; [rewrite Ec; apply wi_env0..|].
      rewrite Hden. destruct (w_denom_of (ws_w s) !! c) as [d|] eqn:Hd; [|done].
      destruct (iv_den _ _ wi_inv0 _ _ Hd) as (_ & _ & _ & t & Ht & _). unfold is_token in Ht. congruence.
    + rewrite lookup_insert_ne by done. intros Hx. destruct (wi_org0 _ _ Hx) as (t & Ht & ? & ? & ?).
      exists t. rewrite Hden. destruct (Hkeep _ _ Ht). done.
  - intros x c'. destruct (decide (tok = x)) as [<-|].
    + rewrite lookup_insert. intros [= <-]. by rewrite lookup_insert.
    + rewrite lookup_insert_ne by done. intros Hx. rewrite lookup_insert_ne; [by apply wi_map0|].
      intros ->. apply wi_map0 in Hx. congruence.
  - intros c'. destruct (decide (c = c')) as [<-|Hne].
    + rewrite lookup_insert. intros [= ->]. by rewrite lookup_insert.
    + rewrite lookup_insert_ne by done. intros Hx. destruct (decide (tok = o)) as [->|].
      * apply wi_only0 in Hx. rewrite (Hn eq_refl) in Hx. done.
      * rewrite lookup_insert_ne by done. by apply wi_only0.
  - destruct (decide (c = o)) as [<-|].
    + rewrite lookup_insert. congruence.
    + by rewrite lookup_insert_ne.
  - rewrite Hb. assert (wsup (WSt w1 (<[tok:=c]> (ws_wrapped s)) (<[c:=tok]> (ws_origin s)) (ws_id s) (ws_cb s) (ws_q s)) = wsup s) as ->; [|done].
    unfold wsup. simpl. destruct (decide (tok = o)) as [->|].
    + rewrite lookup_insert, (Hn eq_refl). unfold supply. unfold is_token in Hnew. by rewrite Hnew.
    + rewrite lookup_insert_ne by done. destruct (ws_wrapped s !! o); [apply Hsp|done].
Qed.

(** What any successful call on a token does to the facts of the invariant that do not
    involve amounts. *)
Lemma call_ok_token w c t s op w' : is_token w c t → call_tok E w c s op = (true, w') →
  ∃ t1 t2, guards E w s op t = Some t1 ∧ body s op t1 = Some t2 ∧ w_code w' = <[c := CTok t2]> (w_code w).
Proof.
  intros Ht Hc. rewrite (call_token _ _ _ _ _ _ Ht) in Hc.
  destruct (guards E w s op t) as [t1|] eqn:Hg; [|done]. cbv zeta in Hc.
  set (w1 := match op_recipient op with Some r => store_modifier w c r | None => w end) in Hc.
  assert (w_code w1 = w_code w) as Ec by (unfold w1; destruct (op_recipient op); [apply store_modifier_code|done]).
  destruct (body s op t1) as [t2|] eqn:Hb; [|done]. injection Hc as <-. exists t1, t2. simpl. by rewrite Ec.
Qed.
Lemma wi_facts k s c op w' : WI k s → op_ok op → (∃ t, is_token (ws_w s) c t) →
  call_tok E (ws_w s) c me op = (true, w') →
  match op with OApprove _ _ | OTransferOwnership _ => False | _ => True end →
  Inv E w' ∧ (∀ sp, allowance w' o me sp = 0) ∧ ((∃ t, is_token w' o t) ∨ (w_code w' !! o = None ∧ ws_wrapped s !! o = None)) ∧
  (∀ c x t, ws_origin s !! c = Some x → is_token (ws_w s) c t → t_owner t = me → ∃ t', is_token w' c t' ∧ t_owner t' = me) ∧
  w_denom_of w' = w_denom_of (ws_w s) ∧
  balance w' o me = balance (ws_w s) o me + (if bool_decide (o = c) then credit me op me else 0) ∧
  (∀ x, supply w' x = supply (ws_w s) x + (if bool_decide (x = c) then issue op else 0)).
Proof.
  intros HI Ho [t Ht] Hc Hop. pose proof HI as [].
  pose proof (call_frame E (ws_w s) c me op) as Hf. rewrite Hc in Hf. simpl in Hf. destruct Hf as (Hden & _).
  pose proof (inv_call E (ws_w s) c me op wi_inv0 Ho) as Hi'. rewrite Hc in Hi'. simpl in Hi'.
  destruct (call_effect _ _ _ _ _ _ wi_inv0 Ho Hc ltac:(eauto)) as (Hb & Hsp & _).
  destruct (call_ok_token _ _ _ _ _ _ Ht Hc) as (t1 & t2 & Hg & Hbd & Hw).
  split_and!; try done.
  - intros sp. specialize (wi_allow0 sp). unfold allowance in *. rewrite Hw. destruct (decide (c = o)) as [->|].
    + rewrite lookup_insert. unfold is_token in Ht. rewrite Ht in wi_allow0.
      assert (allow t2 me sp = allow t1 me sp) as ->.
      { unfold allow. pose proof (body_allow _ _ _ _ Hbd) as Ha. destruct op; try done; by rewrite Ha. }
      assert (∀ f v, 0 <= v → (a ← sub256 (allow t f me) v; Some (set_allow t f me a)) = Some t1 → allow t1 me sp = 0) as Hfrom.
      { intros f v Hv Hs. destruct (sub256 (allow t f me) v) as [x|] eqn:Es; [|done]. injection Hs as <-.
        apply sub256_some in Es as [-> Hle]. unfold allow in *. simpl. destruct (decide ((f, me) = (me, sp))) as [[= -> <-]|Hne].
        + rewrite lookup_insert. simpl. lia.
        + rewrite lookup_insert_ne by done. done. }
      destruct op; simpl in Hg, Ho; unfold amount_ok in Ho; try done.
      all: try (by (repeat case_match; simplify_eq)).
      all: case_match; [done|]; exact (Hfrom _ _ (proj1 Ho) Hg).
    + rewrite lookup_insert_ne by done. done.
  - unfold is_token in *. rewrite Hw. destruct (decide (c = o)) as [->|].
    + left. rewrite lookup_insert. eauto.
    + by rewrite lookup_insert_ne.
  - intros x y tx _ Htx How. unfold is_token in *. rewrite Hw. destruct (decide (c = x)) as [->|].
    + rewrite lookup_insert. exists t2. split; [done|]. rewrite Ht in Htx. injection Htx as <-.
      rewrite (body_owner _ _ _ _ Hbd). pose proof (guards_bal _ _ _ _ _ _ Hg) as (_ & _ & _ & Eo). rewrite Eo.
      by destruct op.
    + rewrite lookup_insert_ne by done. eauto.
Qed.

(** What execute_cosmos makes of the wrapper's own message. *)
Lemma exec_plain s ch c v tm rcv :
  0 <= v → plain ch → plain rcv → names (contract_to_denom (we_ck V) (ws_w s) c) c → addr_ok c →
  execute_cosmos V s (transfer_text V s ch c v tm rcv) =
  if negb (we_strict V) && (tm <? two64)%N
  then Some (WSt (ws_w s) (ws_wrapped s) (ws_origin s) (ws_id s) (ws_cb s)
       (ws_q s ++ [IMsg (txt "transfer") ch (contract_to_denom (we_ck V) (ws_w s) c) v (we_self_text V) rcv []]))
  else None.
Proof.
  intros Hv Hch Hrcv Hnm Hadr.
  pose proof HV as (Hme & Hmech & Htxt & Hof & Hdecs).
  assert (plain (contract_to_denom (we_ck V) (ws_w s) c)) as Hpd by by eapply names_plain.
  assert (plain (hexutil_encode me)) as Hph by (unfold hexutil_encode; apply plain_app; [lit|apply hex_plain, Hme]).
  pose proof (decode_plain (we_strict V) ch _ (Z.to_N v) (we_self_text V) rcv tm (dec_of (ws_id s)) _ Hch Hpd Htxt Hrcv (dec_plain _) Hph) as Hd.
  unfold execute_cosmos, transfer_text. rewrite Hd.
  destruct (negb (we_strict V) && (tm <? two64)%N); [|reflexivity]. cbn [mbind option_bind im_sender].
  rewrite bool_decide_eq_true_2 by done. by rewrite Z2N.id by done.
Qed.

(** The rest of wrap. *)
Lemma wi_finish s sender ch tok rcv v tm s' :
  WI (if bool_decide (tok = o) then v else 0) s → amount_ok v → plain ch → plain rcv →
  finish_wrap V s sender ch tok rcv v tm = Some s' → WI 0 s'.
Proof.
  intros HI Hv Hch Hrcv Hf. pose proof HI as []. unfold finish_wrap in Hf.
  destruct (ws_wrapped s !! tok) as [c|] eqn:Hc; [|done]. cbn [mbind option_bind] in Hf.
  pose proof (wi_map0 _ _ Hc) as Hor. destruct (wi_org0 _ _ Hor) as (t & Ht & How & Hadr & Hden).
  unfold wcall in Hf. destruct (call_tok E (ws_w s) c me (OMint me v)) as [ok w1] eqn:Hcall.
  destruct ok; [|done]. cbn [mbind option_bind ws_id put_w] in Hf. destruct (N.ltb_spec (ws_id s + 1) two64); [|done].
  destruct (wi_facts _ s c (OMint me v) w1 HI Hv ltac:(eauto) Hcall I) as (Hi1 & Ha1 & Ho1 & Hown1 & Hden1 & Hb1 & Hs1).
  assert (contract_to_denom (we_ck V) w1 c = denom_prefix ++ hex_enc (we_ck V c) c) as Ed.
  { unfold contract_to_denom. rewrite Hden1, Hden. done. }
  assert (names (contract_to_denom (we_ck V) w1 c) c) as Hnm by (rewrite Ed; by eexists).
  rewrite exec_plain in Hf by (done || apply Hv). cbn [ws_w ws_wrapped ws_origin ws_id ws_cb ws_q put_w] in Hf.
  destruct (negb (we_strict V) && (tm <? two64)%N); [|done]. injection Hf as <-.
  split; try done; simpl.
  - intros c' x Hx. destruct (wi_org0 _ _ Hx) as (tx & Htx & Hox & Hax & Hdx).
    destruct (Hown1 _ _ _ Hx Htx Hox) as (tx' & ? & ?). rewrite Hden1. eauto 10.
  - intros id to d v'. destruct (decide ((ws_id s + 1)%N = id)) as [<-|].
    + rewrite lookup_insert. intros [= <- <- <-]. done.
    + rewrite lookup_insert_ne by done. apply wi_cb0.
  - apply Forall_app. split; [done|]. constructor; [|constructor]. simpl. eauto.
  - rewrite pending_app. simpl. rewrite (names_resolved _ _ Hnm Hadr). rewrite Hb1. simpl. unfold if_eq.
    rewrite (bool_decide_eq_true_2 (me = me)) by done.
    unfold wsup in *. simpl.
    destruct (decide (tok = o)) as [->|Hto].
    + rewrite bool_decide_eq_true_2 in wi_back0 by done. rewrite Hc in *. rewrite Hs1. simpl.
      rewrite (bool_decide_eq_true_2 (c = c)) by done.
      assert (c ≠ o) as Hne by congruence. rewrite (bool_decide_eq_false_2 (o = c)) by congruence.
      rewrite (bool_decide_eq_false_2 (Some c = Some o)) by congruence.
      eapply covers_mono; [apply dec_range|exact wi_back0| |]; lia.
    + rewrite bool_decide_eq_false_2 in wi_back0 by done.
      assert (match ws_wrapped s !! o with Some c0 => supply w1 c0 | None => 0 end =
              match ws_wrapped s !! o with Some c0 => supply (ws_w s) c0 | None => 0 end) as ->.
      { destruct (ws_wrapped s !! o) as [c0|] eqn:H0; [|done]. rewrite Hs1.
        rewrite bool_decide_eq_false_2; [lia|]. intros ->. apply wi_map0 in H0. congruence. }
      eapply covers_mono; [apply dec_range|exact wi_back0|lia|].
      destruct (decide (o = c)) as [->|].
      * rewrite !bool_decide_eq_true_2 by done. lia.
      * rewrite !bool_decide_eq_false_2 by congruence. lia.
Qed.

Lemma wcall_some s c op s' : wcall V s c op = Some s' →
  ∃ w', call_tok E (ws_w s) c me op = (true, w') ∧ s' = put_w s w'.
Proof. unfold wcall. destruct (call_tok _ _ _ _ _) as [[] w']; [|done]. intros [= <-]. eauto. Qed.

Lemma wi_wrap s sender ch tok rcv a tm s' : WI 0 s → amount_ok a → plain ch → plain rcv →
  (∃ t, is_token (ws_w s) tok t) → wrap V s sender ch tok rcv a tm = Some s' → WI 0 s'.
Proof.
  intros HI Ha Hch Hrcv Htok Hw. unfold wrap in Hw.
  destruct (ensure_wrapped V s tok) as [s1|] eqn:He; [|done]. simpl in Hw.
  assert (WI 0 s1 ∧ (∃ t, is_token (ws_w s1) tok t)) as [HI1 Htok1].
  { unfold ensure_wrapped in He. destruct (ws_wrapped s !! tok) as [c|] eqn:Hc.
    - injection He as <-. done.
    - split; [eapply wi_create; [exact HI| | |exact He]; [by intros ->|by destruct Htok as [t ->]]|].
      unfold create_wrapped in He. destruct (factory_create E (ws_w s) me) as [[c w1]|] eqn:Hf; [|done].
      simpl in He. injection He as <-. simpl. pose proof (factory_create_eq _ _ _ _ _ Hf) as (_ & Hn & _).
      apply factory_create_effect in Hf as (_ & _ & _ & _ & Hoth & _). destruct Htok as [t Ht].
      exists t. unfold is_token in *. rewrite Hoth; [done|]. intros ->. congruence. }
  destruct (wcall V s1 tok (OTransferFrom sender me a)) as [s2|] eqn:Hcall; [|done]. simpl in Hw.
  destruct (convert_decimal a (we_decimals V tok) wrapped_decimals) as [v|] eqn:Hconv; [|done]. simpl in Hw.
  assert (amount_ok v) as Hv.
  { eapply convert_ok; [| |exact Ha|exact Hconv]; [|done]. destruct HV as (_&_&_&_&H). specialize (H tok). lia. }
  refine (wi_finish s2 sender ch tok rcv v tm s' _ Hv Hch Hrcv Hw).
  apply wcall_some in Hcall as (w2 & Hcall & ->).
  destruct (decide (tok = o)) as [->|Hne].
  - rewrite bool_decide_eq_true_2 by done.
    destruct (wi_facts _ s1 o (OTransferFrom sender me a) w2 HI1 Ha Htok1 Hcall I) as (Hi & Hal & Ho & Hown & Hden & Hb & Hs).
    eapply wi_world; try done.
    + intros c t _. by rewrite Hden.
    + pose proof (wi_back _ _ HI1) as Hbk. rewrite Z.add_0_r in Hbk.
      rewrite Hb. rewrite bool_decide_eq_true_2 by done. simpl. unfold if_eq. rewrite (bool_decide_eq_true_2 (me = me)) by done.
      assert (wsup (put_w s1 w2) = wsup s1) as ->.
      { unfold wsup. simpl. destruct (ws_wrapped s1 !! o) as [c0|]; [|done]. rewrite Hs. simpl. destruct (bool_decide (c0 = _)); lia. }
      destruct (decide (me = sender)) as [Hself|Hself];
        [rewrite (bool_decide_eq_true_2 (me = sender)) by done|rewrite (bool_decide_eq_false_2 (me = sender)) by done].
      * (* the wrapper has no allowance to itself *)
        exfalso. destruct Htok1 as [t Ht]. destruct (call_ok_token _ _ _ _ _ _ Ht Hcall) as (t1 & t2 & Hg & _ & _).
        simpl in Hg. destruct (is_blocked _ _ _); [done|]. rewrite <- Hself in Hg.
        destruct (sub256 (allow t me me) a) as [x|] eqn:Es; [|done]. apply sub256_some in Es as [_ Hle].
        pose proof (wi_allow _ _ HI1 me) as H0. unfold allowance, is_token in *. rewrite Ht in H0. rewrite H0 in Hle.
        apply convert_pos in Hconv. destruct Ha. lia.
      * destruct Ha. replace (balance (ws_w s1) o me + (a - 0) - pending o (ws_q s1)) with ((balance (ws_w s1) o me - pending o (ws_q s1)) + a) by lia.
        eapply covers_wrap; [apply dec_range|exact Hconv|done|done].
  - rewrite bool_decide_eq_false_2 by done.
    exact (wi_call _ _ _ _ (OTransferFrom sender me a) _ _ HI1 Ha Hcall I (fun _ => I)).
Qed.

Lemma wi_unwrap s sender d r v s' : WI 0 s → amount_ok v → unwrap V s sender d r v = Some s' → WI 0 s'.
Proof.
  intros HI Hv Hu. unfold unwrap in Hu.
  destruct (denom_to_contract (ws_w s) d) as [c|]; [|done]. simpl in Hu.
  destruct (ws_origin s !! c) as [x|] eqn:Hor; [|done]. simpl in Hu.
  destruct (wcall V s c (OBurnFrom sender v)) as [s1|] eqn:Hb; [|done]. simpl in Hu.
  destruct (convert_decimal v wrapped_decimals (we_decimals V x)) as [a|] eqn:Hconv; [|done]. simpl in Hu.
  apply wcall_some in Hb as (w1 & Hb & ->). apply wcall_some in Hu as (w2 & Hc2 & ->). simpl in Hc2.
  destruct (wi_org _ _ HI _ _ Hor) as (t & Ht & How & Hadr & Hden).
  assert (amount_ok a) as Ha.
  { eapply convert_ok; [| |exact Hv|exact Hconv]; [done|]. destruct HV as (_&_&_&_&H). specialize (H x). lia. }
  change (WI 0 (put_w (put_w s w1) w2)).
  destruct (decide (x = o)) as [->|Hne].
  - pose proof (wi_only _ _ HI _ Hor) as Hwr.
    assert (c ≠ o) as Hco by (intros ->; by apply (wi_self _ _ HI)).
    assert (WI v (put_w s w1)) as HI1.
    { destruct (wi_facts _ s c (OBurnFrom sender v) w1 HI Hv ltac:(eauto) Hb I) as (Hi & Hal & Ho & Hown & Hd & Hbal & Hs).
      eapply wi_world; try done.
      - intros c' t' _. by rewrite Hd.
      - pose proof (wi_back _ _ HI) as Hbk. rewrite Hbal, bool_decide_eq_false_2 by done.
        unfold wsup in *. simpl. rewrite Hwr in *. rewrite Hs. rewrite bool_decide_eq_true_2 by done. simpl.
        eapply covers_mono; [apply dec_range|exact Hbk| |]; lia. }
    assert (∃ t, is_token w1 o t) as [to Hto] by (destruct (wi_o _ _ HI1) as [|[_ Hw]]; [done|simpl in Hw; congruence]).
    destruct (wi_facts _ (put_w s w1) o (OTransfer r a) w2 HI1 Ha ltac:(eauto) Hc2 I) as (Hi & Hal & Ho & Hown & Hd & Hbal & Hs).
    eapply wi_world; try done.
    + intros c' t' _. by rewrite Hd.
    + pose proof (wi_back _ _ HI1) as Hbk. rewrite Hbal, bool_decide_eq_true_2 by done. simpl in *.
      unfold if_eq. rewrite (bool_decide_eq_true_2 (me = me)) by done.
      unfold wsup in *. simpl in *. rewrite Hwr in *. rewrite Hs. rewrite bool_decide_eq_false_2 by done.
      assert (covers dec (supply w1 c) (balance w1 o me - pending o (ws_q s) - a)) as Hcv.
      { eapply covers_unwrap; [apply dec_range|exact Hconv|exact Hbk]. }
      destruct Ha.
      eapply covers_mono; [apply dec_range|exact Hcv| |]; [lia|]. destruct (bool_decide (me = r)); lia.
  - assert (WI 0 (put_w s w1)) as HI1.
    { exact (wi_call _ _ _ _ (OBurnFrom sender v) _ _ HI Hv Hb I (fun _ => I)). }
    destruct (w_code w1 !! x) as [[tx|]|] eqn:Hx.
    2,3: unfold call_tok in Hc2; rewrite Hx in Hc2; injection Hc2 as <-; exact HI1.
    destruct (wi_facts _ (put_w s w1) x (OTransfer r a) w2 HI1 Ha ltac:(by exists tx) Hc2 I) as (Hi & Hal & Ho & Hown & Hd & Hbal & Hs).
    eapply wi_world; try done.
    + intros c' t' _. by rewrite Hd.
    + pose proof (wi_back _ _ HI1) as Hbk. rewrite Hbal, bool_decide_eq_false_2 by done.
      assert (wsup (put_w (put_w s w1) w2) = wsup (put_w s w1)) as ->.
      { unfold wsup. simpl. destruct (ws_wrapped s !! o) as [c0|]; [|done]. rewrite Hs. simpl. destruct (bool_decide (c0 = _)); lia. }
      rewrite Z.add_0_r. simpl in *. rewrite Z.add_0_r in Hbk. rewrite Z.add_0_r. done.
Qed.

Lemma wi_failed s sender id s' : WI 0 s → handle_failed V s sender id = Some s' → WI 0 s'.
Proof.
  intros HI H. unfold handle_failed in H. destruct (ws_cb s !! id) as [[[to d] v]|] eqn:Hcb; simpl in H.
  - eapply wi_unwrap; [exact HI| |exact H]. eapply wi_cb; eauto.
  - eapply wi_unwrap; [exact HI| |exact H]. unfold amount_ok, two256. lia.
Qed.

(** A waiting message leaves. *)
Lemma wi_dispatch s s' : WI 0 s → dispatch_one V s = Some s' → WI 0 s'.
Proof.
  intros HI H. pose proof HI as []. unfold dispatch_one in H. destruct (ws_q s) as [|m q] eqn:Hq; [done|].
  destruct (we_accept V m); [|done]. inversion wi_q0 as [|? ? (c & Hnm & Hadr & Hamt) Hrest]; subst.
  rewrite (names_resolves _ _ _ Hnm Hadr) in H. simpl in H.
  destruct (call_tok E (ws_w s) c chain_addr _) as [ok w'] eqn:Hc. destruct ok; [|done]. injection H as <-.
  rewrite pack_id in Hc by done. set (esc := we_escrow V (im_port m) (im_channel m)) in *.
  simpl in wi_back0. rewrite (names_resolved _ _ Hnm Hadr) in wi_back0.
  set (op := OSudoTransfer me esc (im_amount m)) in *.
  assert (op_ok op) as Hop by done.
  pose proof (call_frame E (ws_w s) c chain_addr op) as Hf. rewrite Hc in Hf. simpl in Hf. destruct Hf as (Hden & _).
  pose proof (inv_call E (ws_w s) c chain_addr op wi_inv0 Hop) as Hi'. rewrite Hc in Hi'. simpl in Hi'.
  assert ((∀ sp, allowance w' o me sp = 0) ∧ ((∃ t, is_token w' o t) ∨ (w_code w' !! o = None ∧ ws_wrapped s !! o = None)) ∧
    (∀ c x t, ws_origin s !! c = Some x → is_token (ws_w s) c t → t_owner t = me → ∃ t', is_token w' c t' ∧ t_owner t' = me) ∧
    wsup (WSt w' (ws_wrapped s) (ws_origin s) (ws_id s) (ws_cb s) q) = wsup s ∧
    balance (ws_w s) o me - (if bool_decide (Some c = Some o) then im_amount m else 0) <= balance w' o me)
    as (Ha & Ho & Hown & Hsup & Hbal).
  { destruct (call_cases _ _ _ _ _ _ _ Hc) as [Hsame|(_ & t & t1 & t2 & Htk & Hg & Hbd & Hw)].
    - unfold wsup, allowance, balance, supply, is_token in *. simpl. rewrite Hsame. split_and!; try done; eauto.
      destruct Hamt. destruct (bool_decide _); lia.
    - destruct (call_effect _ _ _ _ _ _ wi_inv0 Hop Hc ltac:(eauto)) as (Hb & Hsp & _).
      assert (t1 = t) as -> by (unfold op in Hg; simpl in Hg; congruence).
      pose proof (body_allow _ _ _ _ Hbd) as Hal. unfold op in Hal. simpl in Hal.
      pose proof (body_owner _ _ _ _ Hbd) as Hbo. unfold op in Hbo. simpl in Hbo.
      split_and!.
      + intros sp. specialize (wi_allow0 sp). unfold allowance, is_token in *. rewrite Hw. destruct (decide (c = o)) as [->|].
        * rewrite lookup_insert. rewrite Htk in wi_allow0. unfold allow in *. by rewrite Hal.
        * by rewrite lookup_insert_ne.
      + unfold is_token in *. rewrite Hw. destruct (decide (c = o)) as [->|].
        * left. rewrite lookup_insert. eauto.
        * by rewrite lookup_insert_ne.
      + intros c' x t' _ Ht' How. unfold is_token in *. rewrite Hw. destruct (decide (c = c')) as [->|].
        * rewrite lookup_insert. exists t2. split; [done|]. congruence.
        * rewrite lookup_insert_ne by done. eauto.
      + unfold wsup. simpl. destruct (ws_wrapped s !! o) as [c0|]; [|done]. rewrite Hsp. simpl.
        destruct (bool_decide (c0 = c)); lia.
      + rewrite Hb. simpl. unfold if_eq. rewrite (bool_decide_eq_true_2 (me = me)) by done. destruct Hamt.
        destruct (decide (o = c)) as [->|].
        * rewrite !bool_decide_eq_true_2 by done. destruct (bool_decide (me = esc)); lia.
        * rewrite !bool_decide_eq_false_2 by congruence. lia. }
  split; try done; simpl.
  - intros c' x Hx. destruct (wi_org0 _ _ Hx) as (t & Ht & How & Hax & Hdx).
    destruct (Hown _ _ _ Hx Ht How) as (t' & ? & ?). rewrite Hden. eauto 10.
  - rewrite Hsup. eapply covers_mono; [apply dec_range|exact wi_back0| |]; lia.
Qed.

Lemma wi_step s s' : WI 0 s → wstep V plain s s' → unmixed o s' → WI 0 s'.
Proof.
  assert (∀ s, WI 0 s → w_code (ws_w s) !! o ≠ Some CCustom) as Hnc.
  { intros x Hx. destruct (wi_o _ _ Hx) as [[t Ht]|[Hn _]]; [unfold is_token in Ht|]; congruence. }
  intros HI H Hun. destruct H.
  - exact (wi_wrap _ _ _ _ _ _ _ _ HI H1 H H0 H2 H3).
  - exact (wi_unwrap _ _ _ _ _ _ HI H H0).
  - unfold ibc_ack in H. destruct b; [by injection H as <-|]. exact (wi_failed _ _ _ _ HI H).
  - exact (wi_failed _ _ _ _ HI H).
  - exact (wi_dispatch _ _ HI H).
  - assert (match o0 with OSudoTransfer _ _ _ | OSudoMint _ _ | OSudoBurn _ _ => True | _ => False end →
            snd (call_tok E (ws_w s) c sender o0) = ws_w s) as Hsudo.
    { intros Hs. unfold call_tok. destruct (w_code (ws_w s) !! c) as [[t|]|]; [|done..].
      destruct o0; simpl in Hs |- *; try done; try (destruct (t_kind t)); rewrite ?bool_decide_eq_false_2 by done; done. }
    assert (put_w s (ws_w s) = s) as Eta by by destruct s.
    destruct (call_tok E (ws_w s) c sender o0) as [ok w'] eqn:Hc. simpl in *.
    assert (spares me sender o0 ∧ no_issue me sender o0 ∨
       match o0 with OSudoTransfer _ _ _ | OSudoMint _ _ | OSudoBurn _ _ => True | _ => False end) as [[H2 H3]|Hs].
    { destruct o0; simpl; auto. }
    + exact (wi_call _ _ _ _ _ _ _ HI H1 Hc H2 (fun _ => H3)).
    + rewrite (Hsudo Hs), Eta. exact HI.
  - destruct (call_tok E (ws_w s) c chain_addr (OSudoTransfer from to v)) as [ok w'] eqn:Hc. simpl.
    exact (wi_call _ _ _ _ (OSudoTransfer from to v) _ _ HI H0 Hc H (fun _ => I)).
  - destruct (call_tok E (ws_w s) c chain_addr (OSudoMint to v)) as [ok w'] eqn:Hc. simpl.
    exact (wi_call _ _ _ _ (OSudoMint to v) _ _ HI H0 Hc I (fun Hx => Hx H)).
  - destruct (call_tok E (ws_w s) c chain_addr (OSudoBurn from v)) as [ok w'] eqn:Hc. simpl.
    exact (wi_call _ _ _ _ (OSudoBurn from v) _ _ HI H0 Hc H (fun _ => I)).
  - exact (wi_quiet _ _ _ HI H H0 Hun).
  - eapply wi_create; [exact HI| | |exact H0]; [|congruence]. intros ->. by destruct (Hnc _ HI).
  - refine (wi_finish s sender ch tok rcv v tm s' _ H1 H H0 H3).
    rewrite bool_decide_eq_false_2; [done|]. intros ->. by destruct (Hnc _ HI).
  - apply wcall_some in H2 as (w' & Hc & ->).
    exact (wi_call _ _ _ _ (OBurnFrom sender v) _ _ HI H Hc I (fun _ => I)).
Qed.
Lemma wi_steps s s' : WI 0 s → wsteps V plain o s s' → WI 0 s'.
Proof. intros HI H. induction H as [|? ? ? [? ?]]; eauto using wi_step. Qed.

Lemma wi_fresh s : wfresh V s → unmixed o s → WI 0 s.
Proof.
  intros (Hr & H1 & H2 & H3 & H4 & Ha) Ht. pose proof (inv_reachable _ _ Hr) as Hi.
  split.
  - apply Hr.
  - done.
  - destruct (w_code (ws_w s) !! o) as [[t|]|] eqn:Hc; [left; by exists t|by destruct Ht|]. right. by rewrite H1, lookup_empty.
  - intros sp. apply Ha.
  - intros c x. by rewrite H2, lookup_empty.
  - intros c x. by rewrite H1, lookup_empty.
  - intros c. by rewrite H2, lookup_empty.
  - by rewrite H2, lookup_empty.
  - intros id to d v. by rewrite H3, lookup_empty.
  - rewrite H4. constructor.
  - rewrite H4.
 unfold wsup. rewrite H1, lookup_empty. simpl.
    assert (0 <= balance (ws_w s) o me).
    { unfold balance. destruct (w_code (ws_w s) !! o) as [[t|]|] eqn:Hc; [|done..]. apply bal_range. by eapply iv_tok. }
    unfold covers. destruct (Z.leb_spec 6 dec); [lia|].
    assert (0 < 10 ^ (6 - dec)) by (apply Z.pow_pos_nonneg; lia). nia.
Qed.
End inv.
