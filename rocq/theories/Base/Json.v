(** Reading JSON text (Go's encoding/json scanner as used by jsonpb), restricted to
    strings and objects. Numbers, arrays, literals and \u escapes are refused: the
    messages modelled contain none. *)
From Verif.Base Require Import Prelude Hex.
Local Open Scope N_scope.

Inductive json := JStr (t : text) | JObj (l : list (text * json)).

Definition is_ws (c : N) : bool := (c =? 32) || (c =? 9) || (c =? 10) || (c =? 13).
Fixpoint skip_ws (t : text) : text :=
  match t with
  | [] => []
  | c :: t' => if is_ws c then skip_ws t' else t
  end.

Definition unescape (c : N) : option N :=
  if (c =? 34) || (c =? 92) || (c =? 47) then Some c
  else if c =? 98 then Some 8 else if c =? 102 then Some 12 else if c =? 110 then Some 10
  else if c =? 114 then Some 13 else if c =? 116 then Some 9 else None.

(** The rest of a string, after the opening quote. *)
Fixpoint p_str (t : text) : option (text * text) :=
  match t with
  | [] => None
  | c :: t' =>
      if c =? 34 then Some ([], t')
      else if c =? 92 then
        match t' with
        | e :: t'' => x ← unescape e; '(s, r) ← p_str t''; Some (x :: s, r)
        | [] => None
        end
      else if c <? 32 then None
      else '(s, r) ← p_str t'; Some (c :: s, r)
  end.

(** Values and object members; [fuel] bounds nesting plus number of members. *)
Fixpoint p_val (fuel : nat) (t : text) : option (json * text) :=
  match fuel with
  | O => None
  | S f =>
      match skip_ws t with
      | 34 :: t' => '(s, r) ← p_str t'; Some (JStr s, r)
      | 123 :: t' =>
          match skip_ws t' with
          | 125 :: r => Some (JObj [], r)
          | t'' => '(l, r) ← p_mem f t''; Some (JObj l, r)
          end
      | _ => None
      end
  end
with p_mem (fuel : nat) (t : text) : option (list (text * json) * text) :=
  match fuel with
  | O => None
  | S f =>
      match skip_ws t with
      | 34 :: t1 =>
          '(k, t2) ← p_str t1;
          match skip_ws t2 with
          | 58 :: t3 =>
              '(v, t4) ← p_val f t3;
              match skip_ws t4 with
              | 44 :: t5 => '(l, t6) ← p_mem f t5; Some ((k, v) :: l, t6)
              | 125 :: t5 => Some ([(k, v)], t5)
              | _ => None
              end
          | _ => None
          end
      | _ => None
      end
  end.

(** json.Decoder.Decode: the first value of the text; what follows it is not read. *)
Definition json_first (t : text) : option json := fst <$> p_val (length t) t.

(** A member of an object: the last one of that name counts. *)
Definition jget (k : text) (l : list (text * json)) : option json :=
  fold_left (fun r '(k', v) => if decide (k' = k) then Some v else r) l None.

(** Text that JSON writes as itself. *)
Definition plain_char (c : N) : Prop := 32 <= c ∧ c ≠ 34 ∧ c ≠ 92.
Definition plain (t : text) : Prop := Forall plain_char t.

Lemma p_str_plain t r : plain t → p_str (t ++ 34 :: r) = Some (t, r).
Proof.
  induction 1 as [|c t (H1 & H2 & H3) Ht IH]; [done|]. cbn [app p_str].
  rewrite (proj2 (N.eqb_neq _ _) H2), (proj2 (N.eqb_neq _ _) H3), (proj2 (N.ltb_ge _ _)) by lia.
  by rewrite IH.
Qed.

Lemma p_mono f : (∀ g t r, (f <= g)%nat → p_val f t = Some r → p_val g t = Some r) ∧
                 (∀ g t r, (f <= g)%nat → p_mem f t = Some r → p_mem g t = Some r).
Proof.
  induction f as [|f [IH1 IH2]]; [done|]. split; intros [|g] t r Hg H; try lia; cbn [p_val p_mem] in H |- *.
  - assert (∀ t', ('(l, r) ← p_mem f t'; Some (JObj l, r)) = Some r → ('(l, r) ← p_mem g t'; Some (JObj l, r)) = Some r) as HB.
    { intros t'. destruct (p_mem f t') as [[l r']|] eqn:El; [|done]. simpl.
      rewrite (IH2 g t' (l, r')) by (try lia; done). done. }
    repeat (case_match; try done; auto).
  - destruct (skip_ws t) as [|c t1]; [done|]. repeat (case_match; try done).
    all: destruct (p_str t1) as [[k t2]|]; [|done]; cbn in H |- *;
      destruct (skip_ws t2) as [|c2 t3]; [done|]; repeat (case_match; try done);
      destruct (p_val f t3) as [[v t4]|] eqn:Ev; [|done]; cbn in H |- *;
      rewrite (IH1 g _ _ ltac:(lia) Ev); cbn;
      destruct (skip_ws t4) as [|c4 t5]; [done|]; repeat (case_match; try done);
      destruct (p_mem f t5) as [[l t6]|] eqn:El; [|done]; cbn in H |- *;
      rewrite (IH2 g _ _ ltac:(lia) El); done.
Qed.
Lemma p_val_mono f g t r : (f <= g)%nat → p_val f t = Some r → p_val g t = Some r.
Proof. apply (proj1 (p_mono f)). Qed.
