(** Decimal text of natural numbers (Go's strconv / math/big base 10; the loop of
    Strings.toString in x/evm/contracts/util/Strings.sol 34-51). *)
From Verif.Base Require Import Prelude Hex.
Local Open Scope N_scope.

Definition digit (n : N) : N := 48 + n.
Definition undigit (c : N) : option N := if (48 <=? c) && (c <=? 57) then Some (c - 48) else None.

(** Least significant digit first, in front of what is already written. *)
Fixpoint dec_go (fuel : nat) (n : N) (acc : text) : text :=
  match fuel with
  | O => acc
  | S f => let acc := digit (n mod 10) :: acc in
           if n / 10 =? 0 then acc else dec_go f (n / 10) acc
  end.
Definition dec_of (n : N) : text := dec_go (S (N.size_nat n)) n [].

(** All characters are digits: the number they denote. *)
Fixpoint dec_digits (acc : N) (t : text) : option N :=
  match t with
  | [] => Some acc
  | c :: t' => d ← undigit c; dec_digits (acc * 10 + d) t'
  end.
Definition dec_parse (t : text) : option N := match t with [] => None | _ => dec_digits 0 t end.

Definition is_digit (c : N) : bool := (48 <=? c) && (c <=? 57).

Lemma undigit_digit n : n < 10 → undigit (digit n) = Some n.
Proof.
  intros H. unfold undigit, digit. rewrite (proj2 (N.leb_le _ _)), (proj2 (N.leb_le _ _)) by lia.
  simpl. f_equal. lia.
Qed.
Lemma is_digit_digit n : n < 10 → is_digit (digit n) = true.
Proof. intros H. unfold is_digit, digit. rewrite !(proj2 (N.leb_le _ _)) by lia. done. Qed.

Lemma dec_go_parse fuel n acc k : n < 2 ^ N.of_nat fuel →
  dec_digits k (dec_go fuel n acc) = dec_digits (k * 10 ^ N.of_nat (length (dec_go fuel n [])) + n) acc.
Proof.
  revert n acc k. induction fuel as [|f IH]; intros n acc k Hn.
  - change (2 ^ N.of_nat 0) with 1 in Hn. assert (n = 0) as -> by lia. cbn [dec_go length].
    change (10 ^ N.of_nat 0) with 1. f_equal. lia.
  - cbn [dec_go]. pose proof (N.mod_lt n 10 ltac:(lia)) as Hm. pose proof (N.div_mod' n 10) as Hd.
    destruct (N.eqb_spec (n / 10) 0) as [H0|H0].
    + cbn [dec_digits]. rewrite undigit_digit by done. simpl. f_equal.
      change (10 ^ N.of_nat 1) with 10. lia.
    + assert (n / 10 < 2 ^ N.of_nat f) as Hlt.
      { apply N.div_lt_upper_bound; [lia|].
        rewrite Nat2N.inj_succ, N.pow_succ_r' in Hn. lia. }
      rewrite IH by done. cbn [dec_digits]. rewrite undigit_digit by done. simpl. f_equal.
      assert (∀ g m a, dec_go g m a = dec_go g m [] ++ a) as Happ.
      { induction g as [|g IHg]; intros m a; simpl; [done|].
        destruct (m / 10 =? 0); [done|]. rewrite (IHg _ (digit (m mod 10) :: a)), (IHg _ [_]).
        by rewrite <- app_assoc. }
      rewrite (Happ f (n / 10) [digit (n mod 10)]), app_length. simpl.
      rewrite Nat2N.inj_add, N.pow_add_r. change (10 ^ N.of_nat 1) with 10. nia.
Qed.
Lemma dec_go_nonempty fuel n acc : dec_go (S fuel) n acc ≠ [].
Proof.
  revert n acc. induction fuel as [|f IH]; intros n acc.
  - simpl. destruct (n / 10 =? 0); done.
  - cbn [dec_go]. destruct (n / 10 =? 0); [done|]. apply (IH (n / 10)).
Qed.
Lemma size_bound n : n < 2 ^ N.of_nat (S (N.size_nat n)).
Proof.
  rewrite Nat2N.inj_succ, N.pow_succ_r'.
  assert (n < 2 ^ N.of_nat (N.size_nat n)).
  { destruct n as [|p]; [done|]. cbn [N.size_nat].
    induction p as [p IH|p IH|]; cbn [Pos.size_nat]; rewrite Nat2N.inj_succ, N.pow_succ_r'; lia. }
  lia.
Qed.
Lemma dec_parse_of n : dec_parse (dec_of n) = Some n.
Proof.
  unfold dec_parse, dec_of. destruct (dec_go (S (N.size_nat n)) n []) eqn:E.
  - by apply dec_go_nonempty in E.
  - rewrite <- E, dec_go_parse by apply size_bound. simpl. done.
Qed.
Lemma dec_of_digits n : Forall (fun c => is_digit c = true) (dec_of n).
Proof.
  unfold dec_of. assert (Forall (fun c => is_digit c = true) ([] : text)) as H by constructor.
  revert H. generalize ([] : text). generalize (S (N.size_nat n)). intros f. revert n.
  induction f as [|f IH]; intros n acc Ha; simpl; [done|].
  assert (Forall (fun c => is_digit c = true) (digit (n mod 10) :: acc)).
  { constructor; [|done]. apply is_digit_digit, N.mod_lt. lia. }
  destruct (n / 10 =? 0); auto.
Qed.
Lemma dec_of_inj n m : dec_of n = dec_of m → n = m.
Proof. intros H. pose proof (dec_parse_of n) as H1. rewrite H, dec_parse_of in H1. congruence. Qed.
