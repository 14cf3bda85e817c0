(** The wrapping contract: its message, and the invariant behind C51. *)
From Verif.Base Require Import Prelude Hex Dec Json.
From Verif.Model Require Import Token Bank Wrapper.
From Verif.Spec Require Import TokenSpec WrapperSpec.
From Verif.Proofs Require Import HexP TokenP BankP TokenMore.
Open Scope Z_scope.

(** ** The message *)

Lemma digit_plain t : Forall (fun c => is_digit c = true) t → plain t.
Proof.
  intros H. eapply Forall_impl; [exact H|]. intros c Hc. unfold is_digit in Hc.
  apply andb_true_iff in Hc as [H1 H2]. apply N.leb_le in H1, H2. unfold plain_char. lia.
Qed.
Lemma dec_plain n : plain (dec_of n).
Proof. apply digit_plain, dec_of_digits. Qed.
Lemma hexd_plain up n : (n < 16)%N → plain_char (hexd up n).
Proof. intros H. unfold hexd, plain_char. destruct (N.ltb_spec n 10); [|destruct up]; lia. Qed.
Lemma hex_plain up b : bytes_ok b → plain (hex_enc up b).
Proof.
  intros H. revert up. induction H as [|x b Hx Hb IH]; intros up; simpl; [constructor|].
  constructor; [|constructor; [|apply IH]]; apply hexd_plain.
  - apply N.div_lt_upper_bound; lia.
  - apply N.mod_lt. lia.
Qed.
Lemma plain_app a b : plain a → plain b → plain (a ++ b).
Proof. apply Forall_app_2. Qed.

Definition ibc_members (channel denom amount self receiver timeout id addr : text) : list (text * json) :=
  [(txt "@type", JStr transfer_type); (txt "source_port", JStr (txt "transfer"));
   (txt "source_channel", JStr channel);
   (txt "token", JObj [(txt "denom", JStr denom); (txt "amount", JStr amount)]);
   (txt "sender", JStr self); (txt "receiver", JStr receiver);
   (txt "timeout_height", JObj [(txt "revision_number", JStr (txt "0")); (txt "revision_height", JStr (txt "0"))]);
   (txt "timeout_timestamp", JStr timeout); (txt "memo", JStr []);
   (txt "async_callback", JObj [(txt "id", JStr id); (txt "contract_address", JStr addr)])].

(** Members as the contract writes them. *)
Lemma p_mem_more f k v rest : plain k → plain v →
  p_mem (S (S f)) (34 :: k ++ 34 :: 58 :: 32 :: 34 :: v ++ 34 :: 44 :: rest)%N =
  ('(l, r) ← p_mem (S f) rest; Some ((k, JStr v) :: l, r)).
Proof.
  intros Hk Hv. remember (S f) as g eqn:Eg. cbn [p_mem]. cbn [skip_ws is_ws]. cbn.
  rewrite p_str_plain by done. subst g. cbn. rewrite p_str_plain by done. done.
Qed.
Lemma p_mem_last f k v rest : plain k → plain v →
  p_mem (S (S f)) (34 :: k ++ 34 :: 58 :: 32 :: 34 :: v ++ 34 :: 125 :: rest)%N = Some ([(k, JStr v)], rest).
Proof. intros Hk Hv. cbn. rewrite p_str_plain by done. cbn. rewrite p_str_plain by done. done. Qed.
(** Without a space after the colon (no such text) or with the value an object. *)
Lemma p_mem_obj f k rest l r : plain k →
  p_val (S f) (123 :: rest)%N = Some (JObj l, 44 :: r)%N →
  p_mem (S (S f)) (34 :: k ++ 34 :: 58 :: 32 :: 123 :: rest)%N =
  ('(l', r') ← p_mem (S f) r; Some ((k, JObj l) :: l', r')).
Proof.
  intros Hk Hv. remember (S f) as g eqn:Eg. cbn [p_mem]. cbn. rewrite p_str_plain by done. cbn.
  subst g. change (p_val (S f) (32 :: 123 :: rest)%N) with (p_val (S f) (123 :: rest)%N). rewrite Hv. done.
Qed.
Lemma p_mem_obj_last f k rest l r : plain k →
  p_val (S f) (123 :: rest)%N = Some (JObj l, 125 :: r)%N →
  p_mem (S (S f)) (34 :: k ++ 34 :: 58 :: 32 :: 123 :: rest)%N = Some ([(k, JObj l)], r).
Proof.
  intros Hk Hv. remember (S f) as g eqn:Eg. cbn [p_mem]. cbn. rewrite p_str_plain by done. cbn.
  subst g. change (p_val (S f) (32 :: 123 :: rest)%N) with (p_val (S f) (123 :: rest)%N). rewrite Hv. done.
Qed.
Lemma p_val_obj f rest : p_val (S f) (123 :: 34 :: rest)%N = ('(l, r) ← p_mem f (34 :: rest)%N; Some (JObj l, r)).
Proof. reflexivity. Qed.
Lemma p_val_obj_sp f rest : p_val (S f) (123 :: 32 :: 34 :: rest)%N = ('(l, r) ← p_mem f (34 :: rest)%N; Some (JObj l, r)).
Proof. reflexivity. Qed.

(** The message with its members set apart. *)
Definition mstr (k v rest : text) : text := (34 :: k ++ 34 :: 58 :: 32 :: 34 :: v ++ 34 :: 44 :: rest)%N.
Definition mstr_last (k v rest : text) : text := (34 :: k ++ 34 :: 58 :: 32 :: 34 :: v ++ 34 :: 125 :: rest)%N.
Definition mobj (k rest : text) : text := (34 :: k ++ 34 :: 58 :: 32 :: 123 :: rest)%N.
Definition ibc_split (ch d a sf rc tm id ad : text) : text :=
  (123 :: mstr (txt "@type") transfer_type (
   mstr (txt "source_port") (txt "transfer") (
   mstr (txt "source_channel") ch (
   mobj (txt "token") (32 :: mstr (txt "denom") d (mstr_last (txt "amount") a (44 ::
   mstr (txt "sender") sf (
   mstr (txt "receiver") rc (
   mobj (txt "timeout_height") (mstr (txt "revision_number") (txt "0") (mstr_last (txt "revision_height") (txt "0") (44 ::
   mstr (txt "timeout_timestamp") tm (
   mstr (txt "memo") [] (
   mobj (txt "async_callback") (mstr (txt "id") id (mstr_last (txt "contract_address") ad [125]))))))))))))))))%N.
Lemma ibc_text_split ch d a sf rc tm id ad : ibc_text ch d a sf rc tm id ad = ibc_split ch d a sf rc tm id ad.
Proof. reflexivity. Qed.

Lemma plain_dec (t : text) : forallb (fun c => (32 <=? c) && negb (c =? 34) && negb (c =? 92))%N t = true → plain t.
Proof.
  intros H. rewrite forallb_forall in H. apply Forall_forall. intros c Hc. apply elem_of_list_In in Hc.
  specialize (H c Hc). apply andb_true_iff in H as [H H3]. apply andb_true_iff in H as [H1 H2].
  apply N.leb_le in H1. split; [done|]. split; intros ->; done.
Qed.
Ltac lit := apply plain_dec; vm_compute; reflexivity.

Lemma ibc_json ch d a sf rc tm id ad :
  plain ch → plain d → plain a → plain sf → plain rc → plain tm → plain id → plain ad →
  json_first (ibc_text ch d a sf rc tm id ad) = Some (JObj (ibc_members ch d a sf rc tm id ad)).
Proof.
  intros H1 H2 H3 H4 H5 H6 H7 H8. unfold json_first.
  assert (p_val 16 (ibc_text ch d a sf rc tm id ad) = Some (JObj (ibc_members ch d a sf rc tm id ad), [])) as H.
  { rewrite ibc_text_split. unfold ibc_split. unfold mstr at 1. rewrite p_val_obj. fold mstr.
    unfold mstr at 1. rewrite p_mem_more by lit.
    unfold mstr at 1. rewrite p_mem_more by lit.
    unfold mstr at 1. rewrite p_mem_more by (done || lit).
    unfold mobj at 1. erewrite p_mem_obj; [|lit|].
    2:{ unfold mstr at 1. rewrite p_val_obj_sp. rewrite p_mem_more by (done || lit).
        unfold mstr_last at 1. rewrite p_mem_last by (done || lit). cbn [mbind option_bind]. reflexivity. }
    unfold mstr at 1. rewrite p_mem_more by (done || lit).
    unfold mstr at 1. rewrite p_mem_more by (done || lit).
    unfold mobj at 1. erewrite p_mem_obj; [|lit|].
    2:{ unfold mstr at 1. rewrite p_val_obj. rewrite p_mem_more by lit.
        unfold mstr_last at 1. rewrite p_mem_last by lit. cbn [mbind option_bind]. reflexivity. }
    unfold mstr at 1. rewrite p_mem_more by (done || lit).
    unfold mstr at 1. rewrite p_mem_more by lit.
    unfold mobj at 1.
    assert (∀ f, p_val (S (S (S (S f)))) (123 :: mstr (txt "id") id (mstr_last (txt "contract_address") ad [125]))%N =
      Some (JObj [(txt "id", JStr id); (txt "contract_address", JStr ad)], [125])%N) as Hl.
    { intros f. unfold mstr at 1. rewrite p_val_obj, p_mem_more by (done || lit).
      unfold mstr_last at 1. rewrite p_mem_last by (done || lit). reflexivity. }
    rewrite (p_mem_obj_last _ (txt "async_callback") _ _ _ ltac:(lit) (Hl _)).
    reflexivity. }
  rewrite (p_val_mono 16 (length (ibc_text ch d a sf rc tm id ad)) _ _ ltac:(unfold ibc_text; rewrite app_length; simpl; lia) H).
  done.
Qed.

(** What the decoder makes of the members. *)
Lemma decode_members strict ch d n sf rc tm id ad :
  json_first (ibc_text ch d (dec_of n) sf rc (dec_of tm) id ad) = Some (JObj (ibc_members ch d (dec_of n) sf rc (dec_of tm) id ad)) →
  decode_transfer strict (ibc_text ch d (dec_of n) sf rc (dec_of tm) id ad) =
  if negb strict && (tm <? two64)%N then Some (IMsg (txt "transfer") ch d (Z.of_N n) sf rc []) else None.
Proof.
  intros H. unfold decode_transfer. rewrite H. cbn [mbind option_bind].
  pose proof (dec_parse_of n) as Hn. pose proof (dec_parse_of tm) as Ht.
  revert Hn Ht. generalize (dec_of n) as a, (dec_of tm) as tt. intros a tt Ha Ht.
  set (l := ibc_members ch d a sf rc tt id ad).
  assert (jstr (txt "@type") l = Some transfer_type) as -> by reflexivity.
  assert (jstr (txt "source_port") l = Some (txt "transfer")) as -> by reflexivity.
  assert (jstr (txt "source_channel") l = Some ch) as -> by reflexivity.
  assert (jstr (txt "sender") l = Some sf) as -> by reflexivity.
  assert (jstr (txt "receiver") l = Some rc) as -> by reflexivity.
  assert (jstr (txt "memo") l = Some []) as -> by reflexivity.
  assert (ju64 (txt "timeout_timestamp") l = (n ← dec_parse tt; if (n <? two64)%N then Some n else None)) as -> by reflexivity.
  assert (fields_ok strict msg_fields l = negb strict) as ->.
  { unfold fields_ok. destruct strict; reflexivity. }
  assert (jcoin strict (txt "token") l = (n ← dec_parse a; Some (d, Z.of_N n))) as -> by (destruct strict; reflexivity).
  assert (jheight strict (txt "timeout_height") l = Some ()) as -> by (destruct strict; reflexivity).
  rewrite Ha, Ht. cbn [mbind option_bind]. rewrite bool_decide_eq_true_2 by done.
  destruct strict; [done|]. cbn [negb andb]. by destruct (tm <? two64)%N.
Qed.

(** A wrapper message made of plain texts: what it says, and that a decoder refusing
    unknown fields does not accept it. *)
Lemma decode_plain strict ch d n sf rc tm id ad :
  plain ch → plain d → plain sf → plain rc → plain id → plain ad →
  decode_transfer strict (ibc_text ch d (dec_of n) sf rc (dec_of tm) id ad) =
  if negb strict && (tm <? two64)%N then Some (IMsg (txt "transfer") ch d (Z.of_N n) sf rc []) else None.
Proof. intros. apply decode_members, ibc_json; done || apply dec_plain. Qed.
