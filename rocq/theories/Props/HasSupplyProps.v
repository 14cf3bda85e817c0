(** C147: a denomination has a supply exactly if it is in the list of supplies. *)
From Verif.Base Require Import Prelude Hex.
From Verif.Model Require Import Token Bank HasSupply.
From Verif.Spec Require Import TokenSpec.
From Verif.Proofs Require Import HexP TokenP BankP TokenMore.
From Verif.Props Require Import TokenProps.
Open Scope Z_scope.

Section supply.
Context (E : env) (ck : bytes → nat → bool) (w : world).
Hypothesis Hr : reachable E w.
Notation listed := (k_supplies ck w).

Lemma listed_is x : x ∈ listed → ∃ c, c ∈ w_reg w ∧ addr_ok c ∧ c_denom x = contract_to_denom ck w c ∧ c_amt x = supply w c.
Proof.
  intros Hx. unfold k_supplies in Hx. apply elem_of_list_fmap in Hx as (c & -> & Hc). apply elem_of_elements in Hc.
  exists c. split_and!; try done. by apply (iv_addr E w (inv_reachable E w Hr)).
Qed.
Lemma listed_in c : c ∈ w_reg w → Coin (contract_to_denom ck w c) (supply w c) ∈ listed.
Proof. intros Hc. unfold k_supplies. apply elem_of_list_fmap. exists c. split; [done|]. by apply elem_of_elements. Qed.

(** C147. A denomination that is not of the form evm/... has a supply exactly if it is listed, and
    asking never fails. *)
Theorem C147_listed d : is_erc20_denom d = false →
  b_has_supply w d = HasSupply (bool_decide (d ∈ c_denom <$> listed)).
Proof.
  intros Hd. unfold b_has_supply, k_has_supply. rewrite Hd.
  assert (d ∈ c_denom <$> listed ↔ ∃ c, denom_to_contract w d = Some c ∧ c ∈ w_reg w) as Hiff.
  { split.
    - intros Hin. apply elem_of_list_fmap in Hin as (x & -> & Hx). destruct (listed_is x Hx) as (c & Hc & Ha & -> & _).
      exists c. split; [|done]. by apply (C23_contract_round_trip E).
    - intros (c & Hc & Hreg). destruct (C23_plain_denom_round_trip E ck w d c Hr Hd Hc) as [<- _].
      apply elem_of_list_fmap. eexists. split; [|by apply listed_in]. done. }
  destruct (denom_to_contract w d) as [c|].
  - f_equal. apply bool_decide_ext. rewrite Hiff. split; [by eauto|]. by intros (? & [= <-] & ?).
  - f_equal. symmetry. apply bool_decide_eq_false. rewrite Hiff. by intros (? & ? & _).
Qed.
(** Of any form: if it has a supply, its contract is listed once, with the supply that is read for
    the denomination alone; every listed denomination has one. *)
Theorem C147_supply d : b_has_supply w d = HasSupply true →
  ∃ x c, x ∈ listed ∧ denom_to_contract w d = Some c ∧ denom_to_contract w (c_denom x) = Some c ∧
    (∀ s, k_supply w d = Some s → c_amt x = s) ∧
    ∀ y, y ∈ listed → denom_to_contract w (c_denom y) = Some c → y = x.
Proof.
  unfold b_has_supply, k_has_supply. destruct (denom_to_contract w d) as [c|] eqn:Ec; [|by destruct (is_erc20_denom d)].
  case_bool_decide as Hc; [|done]. intros _.
  assert (addr_ok c) as Ha by by apply (iv_addr E w (inv_reachable E w Hr)).
  exists (Coin (contract_to_denom ck w c) (supply w c)), c. split; [by apply listed_in|]. split; [done|].
  split; [by apply (C23_contract_round_trip E)|]. split.
  - intros s Hs. unfold k_supply in Hs. rewrite Ec in Hs. cbn. unfold supply. destruct (w_code w !! c) as [[]|]; congruence.
  - intros y Hy He. destruct (listed_is y Hy) as (c' & _ & Ha' & Ed & Es). rewrite Ed, (C23_contract_round_trip E) in He by done.
    injection He as ->. destruct y. cbn in *. by subst.
Qed.
Theorem C147_all_listed_have x : x ∈ listed → b_has_supply w (c_denom x) = HasSupply true.
Proof.
  intros Hx. destruct (listed_is x Hx) as (c & Hc & Ha & Ed & _). unfold b_has_supply, k_has_supply.
  rewrite Ed, (C23_contract_round_trip E) by done. by rewrite bool_decide_true.
Qed.
(** Not so the other way round for evm/...: a token of the chain has a supply under its own
    denomination and under evm/ with its address in any letter case, and only the first is listed: who
    adds up the supplies of the denominations that have one counts the token twice. *)
Theorem C147_second_name_refuted d c up : is_erc20_denom d = false → b_has_supply w d = HasSupply true → denom_to_contract w d = Some c →
  let d' := denom_prefix ++ hex_enc up c in
  d' ≠ d ∧ b_has_supply w d' = HasSupply true ∧ k_supply w d' = k_supply w d ∧ d' ∉ c_denom <$> listed.
Proof.
  intros Hd Hs Hc d'. unfold b_has_supply, k_has_supply in Hs. rewrite Hc in Hs. case_bool_decide as Hreg; [|done].
  assert (addr_ok c) as Ha by by apply (iv_addr E w (inv_reachable E w Hr)).
  assert (denom_to_contract w d' = Some c) as Hc' by by apply C23_evm_denom_names_its_address.
  assert (is_erc20_denom d' = true) as He by done.
  assert (d' ≠ d) as Hne by congruence. split; [done|]. split.
  - unfold b_has_supply, k_has_supply. rewrite Hc'. by rewrite bool_decide_true.
  - split; [unfold k_supply; by rewrite Hc', Hc|]. intros Hin. apply elem_of_list_fmap in Hin as (x & Ex & Hx).
    destruct (listed_is x Hx) as (c2 & _ & Ha2 & Ed & _). rewrite Ex, Ed, (C23_contract_round_trip E) in Hc' by done.
    injection Hc' as ->. destruct (C23_plain_denom_round_trip E ck w d c Hr Hd Hc) as [Hdd _]. congruence.
Qed.
(** evm/ and no address: the bank keeper panics. *)
Theorem C147_panic_refuted h : is_hex_address h = false → b_has_supply w (denom_prefix ++ h) = HasSupplyPanics.
Proof.
  intros Hh. unfold b_has_supply, k_has_supply, is_erc20_denom, denom_to_contract.
  assert (cut_prefix denom_prefix (denom_prefix ++ h) = Some h) as -> by done. by rewrite Hh.
Qed.
End supply.

(** A supply of zero is one: all of a token burned, and it is still listed (the Cosmos SDK's own bank
    module forgets it). *)
Definition hs_burned : world := snd (b_burn_coins (x_bank None) x_w2 (txt "mint") [Coin x_foo 40]).
Theorem C147_zero_refuted : reachable x_env hs_burned ∧ b_has_supply hs_burned x_foo = HasSupply true ∧ k_supply hs_burned x_foo = Some 0.
Proof.
  split; [|split; vm_compute; reflexivity]. apply x_reachable. etrans; [apply x_w2_steps|].
  apply (b_burn_steps (x_bank None)), x_call_ok.
Qed.
Example C147_example : reachable x_env x_w2 ∧ b_has_supply x_w2 x_stake = HasSupply true ∧ k_supply x_w2 x_stake = Some 100 ∧
  b_has_supply x_w2 (txt "unknown") = HasSupply false ∧ b_has_supply x_w2 (txt "evm/12") = HasSupplyPanics ∧
  b_has_supply x_w2 (denom_prefix ++ hex_enc (λ _, true) x_stake_at) = HasSupply true.
Proof. split; [apply x_reachable, x_w2_steps|]. split_and!; vm_compute; reflexivity. Qed.
