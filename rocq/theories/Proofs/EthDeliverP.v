(** Lemmas about Model/EthDeliver.v. *)
From Verif.Base Require Import Prelude Hex.
From Verif.Model Require Import Fees EthTx SigVerify Token Bank CallTree EthDeliver.
From Verif.Spec Require Import TokenSpec CallTreeSpec WalletSpec.
From Verif.Proofs Require Import BytesP HexP EthTxP TokenP BankP TokenMore BankMore CallTreeP.
Local Open Scope Z_scope.

Lemma shows_log E fee w0 sup s l lg :
  shows E fee w0 sup s l → shows E fee w0 sup (St (s_w s) (s_sto s) lg) (Ledger (l_bal l) (l_sto l) lg).
Proof. intros [H1 H2 H3 H4 H5 H6 H7 H8]. by split. Qed.
Lemma shows_acct E fee w0 sup s l a :
  shows E fee w0 sup s l → shows E fee w0 sup (st_world (create_acct (s_w s) a) s) l.
Proof.
  intros [(t & H1 & H1') H2 H3 H4 H5 H6 H7 H8]. pose proof (create_acct_code (s_w s) a) as (Ec & Et & _).
  destruct (same_code_balance _ _ Ec) as (G1 & G2 & G3).
  split; simpl; try done.
  - exists t. split; [|done]. unfold is_token. by rewrite Ec.
  - intros b. by rewrite G1.
  - intros b. rewrite <- H5. unfold is_blocked. by rewrite origin_create.
  - intros c Hc. rewrite Ec. by apply H6.
  - by eapply same_tables_trans.
  - eapply accts_grow_trans; [exact H8|]. apply accts_grow_create.
Qed.

Section chain.
Context (E : env) (B : bank_env) (fee : bytes) (w0 : world) (sup : Z) (fee_denom : text).
Hypothesis Hcalls : chain_calls E (be_call B).
Hypothesis Hnull : fee ≠ null_addr.
Hypothesis Hden : denom_to_contract w0 fee_denom = Some fee.
Notation R := (shows E fee w0 sup).

(** One bank transfer of the fee token. *)
Lemma chain_move s l a b v :
  R s l → length a = 20%nat → length b = 20%nat → amount_ok v →
  if decide (v <= l_bal l a)
  then ∃ w', k_send_coins (be_call B) (s_w s) a b [Coin fee_denom v] = (true, w') ∧ R (st_world w' s) (pay l a b v)
  else fst (k_send_coins (be_call B) (s_w s) a b [Coin fee_denom v]) = false.
Proof.
  intros HR Ha Hb Hv. unfold k_send_coins. rewrite convert_20 by done. cbv zeta.
  rewrite upd_accts_same, convert_20, upd_accts_same by done.
  cbn [send_loop c_denom c_amt]. rewrite (same_tables_d2c w0 _ _ (sh_tab _ _ _ _ _ _ HR)), Hden.
  destruct (sh_fee _ _ _ _ _ _ HR) as (t & Ht & Hok & Hk & Hs).
  assert (be_call B (s_w s) fee (OSudoTransfer a b (pack256 v)) = call_tok E (s_w s) fee chain_addr (OSudoTransfer a b v)) as ->.
  { rewrite pack_id by done. specialize (Hcalls (s_w s) fee (OSudoTransfer a b v)). unfold is_token in Ht. by rewrite Ht in Hcalls. }
  destruct (decide (v <= l_bal l a)) as [Hle|Hlt].
  - destruct (tok_sudo_send E fee w0 sup s l a b v (EMoved a b v) HR Hv Hle) as (s' & Hc & HR').
    unfold tok_call in Hc. destruct (call_tok _ _ _ _ _) as [ok w']. injection Hc as -> <-.
    exists w'. split; [done|]. apply (shows_log _ _ _ _ _ _ (s_log s)) in HR'. simpl in HR'.
    eapply shows_ext; [exact HR'|done|done|simpl]. by rewrite (sh_ev _ _ _ _ _ _ HR).
  - unfold call_tok. pose proof Ht as Ht'. unfold is_token in Ht'. rewrite Ht'. cbn [guards op_recipient body].
    rewrite bool_decide_eq_true_2 by done. rewrite tok_transfer_spec by done. rewrite decide_False; [done|].
    assert (bal t a = l_bal l a) as ->; [|done]. rewrite <- (sh_bal _ _ _ _ _ _ HR). unfold balance. by rewrite Ht'.
Qed.
Lemma pay_fee_shows (col : bytes) ps s l a x amount :
  be_restr B = None → be_modules B !! be_fee_collector B = Some (col, ps) → length col = 20%nat →
  R s l → length a = 20%nat → amount_ok amount →
  v_fee x = (if amount =? 0 then [] else [(fee_denom, amount)]) → 0 <= l_bal l a →
  if decide (amount <= l_bal l a)
  then ∃ w', pay_fee B x a (s_w s) = Some w' ∧ R (st_world w' s) (pay l a col amount)
  else pay_fee B x a (s_w s) = None.
Proof.
  intros Hre Hm Hcol HR Ha Hv Hx Hpos. unfold pay_fee. rewrite Hx. destruct (Z.eqb_spec amount 0) as [->|Hne].
  - rewrite decide_True by done. exists (s_w s). split; [done|].
    replace (st_world (s_w s) s) with s by by destruct s.
    eapply shows_ext; [exact HR| |done|done]. intros b. simpl. repeat case_bool_decide; lia.
  - cbv iota beta. unfold b_send_to_module. rewrite Hm. unfold b_send_coins. rewrite Hre. cbn [restr_apply coins_of map fst snd].
    pose proof (chain_move s l a col amount HR Ha Hcol Hv) as H.
    destruct (decide (amount <= l_bal l a)).
    + destruct H as (w' & -> & HR'). eexists. split; [done|].
      apply (shows_acct _ _ _ _ _ _ col) in HR'. exact HR'.
    + destruct (k_send_coins _ _ _ _ _) as [ok w']. simpl in H. by subst ok.
Qed.
End chain.
