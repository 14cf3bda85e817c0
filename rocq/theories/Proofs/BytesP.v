From Verif.Base Require Import Prelude.

Lemma be_length k n : length (be k n) = k.
Proof. revert n. induction k as [|k IH]; intros n; cbn; [done|]. rewrite app_length, IH. cbn. lia. Qed.

Lemma of_be_snoc b x : of_be (b ++ [x]) = (of_be b * 256 + x)%N.
Proof. unfold of_be. rewrite fold_left_app. reflexivity. Qed.

Lemma of_be_be k n : of_be (be k n) = (n mod 256 ^ N.of_nat k)%N.
Proof.
  revert n. induction k as [|k IH]; intros n.
  - cbn. rewrite N.mod_1_r. done.
  - cbn [be]. rewrite of_be_snoc, IH.
    replace (N.of_nat (S k)) with (N.succ (N.of_nat k)) by lia.
    rewrite N.pow_succ_r'.
    rewrite (N.mod_mul_r n 256 (256 ^ N.of_nat k)) by (try apply N.pow_nonzero; lia).
    lia.
Qed.

Lemma of_be_be_small k n : (n < 256 ^ N.of_nat k)%N -> of_be (be k n) = n.
Proof. intros. rewrite of_be_be. apply N.mod_small; done. Qed.

Lemma be_bytes_ok k n : bytes_ok (be k n).
Proof.
  revert n. induction k as [|k IH]; intros n; cbn; [constructor|].
  apply Forall_app; split; [apply IH|]. constructor; [|constructor]. apply N.mod_lt. done.
Qed.

Lemma of_be_bound b : bytes_ok b -> (of_be b < 256 ^ N.of_nat (length b))%N.
Proof.
  induction b as [|x b IH] using rev_ind; intros Hb.
  - cbn. lia.
  - apply Forall_app in Hb as [Hb Hx]. apply Forall_inv in Hx. cbn in Hx.
    rewrite of_be_snoc, app_length. cbn [length].
    replace (N.of_nat (length b + 1)) with (N.succ (N.of_nat (length b))) by lia.
    rewrite N.pow_succ_r'. specialize (IH Hb). nia.
Qed.

Lemma be_of_be b : bytes_ok b -> be (length b) (of_be b) = b.
Proof.
  induction b as [|x b IH] using rev_ind; intros Hb; [done|].
  apply Forall_app in Hb as [Hb Hx]. apply Forall_inv in Hx. cbn in Hx.
  rewrite app_length, Nat.add_comm. cbn [length Nat.add be]. rewrite of_be_snoc.
  assert (E1 : ((of_be b * 256 + x) / 256 = of_be b)%N).
  { rewrite N.add_comm, N.div_add by lia. rewrite N.div_small by lia. lia. }
  assert (E2 : ((of_be b * 256 + x) mod 256 = x)%N).
  { rewrite N.add_comm, N.mod_add by lia. apply N.mod_small. lia. }
  rewrite E1, E2, IH by done. done.
Qed.
