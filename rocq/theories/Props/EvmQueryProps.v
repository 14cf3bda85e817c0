(** C112, C113: the EVM module's queries, eth_getStorageAt, eth_getCode and net_version
    (Model/EvmQuery.v). *)
From Verif.Base Require Import Prelude Hex.
From Verif.Model Require Import EthTx Token Bank EvmQuery.
From Verif.Spec Require Import TokenSpec BankSpec AccountSpec.
From Verif.Proofs Require Import BytesP HexP TokenP BankP BankMore TokenMore.
From Verif.Props Require Import TokenProps AccountProps.

(** ** Specification *)
(** The number a text of hex digits stands for (most significant digit first). *)
Fixpoint hex_number (acc : N) (t : text) : option N :=
  match t with [] => Some acc | c :: t' => d ← unhexd c; hex_number (acc * 16 + d)%N t' end.

(** ** Lemmas *)
Lemma hex_dec_number n : forall t, (length t = 2 * n)%nat -> forall acc,
  match hex_dec t with
  | Some b => length b = n /\ bytes_ok b /\ hex_number acc t = Some (acc * 256 ^ N.of_nat n + of_be b)%N
  | None => hex_number acc t = None
  end.
Proof.
  induction n as [|n IH]; intros t Ht acc.
  - destruct t; [|done]. simpl. split; [done|]. split; [constructor|]. f_equal. change (of_be []) with 0%N. lia.
  - destruct t as [|c [|d t]]; try (simpl in Ht; lia). cbn [hex_dec hex_number].
    destruct (unhexd c) as [x|] eqn:Hx; cbn [mbind option_bind]; [|done].
    destruct (unhexd d) as [y|] eqn:Hy; cbn [mbind option_bind]; [|done].
    specialize (IH t ltac:(simpl in Ht; lia) ((acc * 16 + x) * 16 + y)%N).
    destruct (hex_dec t) as [b|]; cbn [mbind option_bind]; [|done].
    destruct IH as (Hl & Hb & He). split; [simpl; lia|].
    apply unhexd_lt in Hx, Hy. split; [constructor; [lia|done]|].
    rewrite He. f_equal. rewrite Nat2N.inj_succ, N.pow_succ_r by lia.
    assert (Hof : forall z, of_be (z :: b) = (z * 256 ^ N.of_nat n + of_be b)%N).
    { intros z. rewrite <- Hl. clear. induction b as [|w b IHb] using rev_ind.
      - unfold of_be. simpl. lia.
      - change (z :: b ++ [w]) with ((z :: b) ++ [w]). rewrite !of_be_snoc, IHb.
        rewrite app_length. simpl. rewrite Nat.add_1_r, Nat2N.inj_succ, N.pow_succ_r by lia. lia. }
    rewrite Hof. lia.
Qed.
Lemma of_be_zeros k b : of_be (replicate k 0%N ++ b) = of_be b.
Proof.
  induction b as [|w b IHb] using rev_ind.
  - rewrite app_nil_r. induction k as [|k IH]; [done|]. rewrite replicate_S_end, of_be_snoc, IH. unfold of_be. simpl. lia.
  - by rewrite app_assoc, !of_be_snoc, IHb.
Qed.
Lemma to_fixed_be k b : bytes_ok b -> (length b <= k)%nat -> to_fixed k b = be k (of_be b).
Proof.
  intros Hb Hl. rewrite <- (be_of_be (to_fixed k b)) at 1 by by apply to_fixed_ok.
  rewrite to_fixed_length. f_equal. unfold to_fixed. case_decide.
  - by replace (length b - k)%nat with 0%nat by lia.
  - apply of_be_zeros.
Qed.
Lemma decode_hash_number t : decode_hash t =
  match hex_number 0 (strip0x t) with
  | Some n => if decide (length (strip0x t) <= 64)%nat then Some (be 32 n) else None
  | None => None
  end.
Proof.
  unfold decode_hash. cbv zeta. set (s := strip0x t).
  match goal with |- (hex_dec ?x ≫= _) = _ => remember x as u eqn:Hu end.
  assert (Hn : exists n, length u = (2 * n)%nat /\
     hex_number 0 u = hex_number 0 s /\ (length s <= 64 <-> n <= 32)%nat).
  { rewrite Hu. match goal with |- context [if ?b then _ else _] => destruct b eqn:Ho end.
    - apply Nat.odd_spec in Ho as [m Hm]. exists (m + 1)%nat. split; [simpl; lia|]. split; [done|lia].
    - rewrite <- Nat.negb_even in Ho. apply negb_false_iff, Nat.even_spec in Ho as [m Hm]. exists m. split; [lia|]. split; [done|lia]. }
  destruct Hn as (n & Hl & He & Hle). rewrite <- He. clear He Hu.
  pose proof (hex_dec_number n u Hl 0%N) as H.
  destruct (hex_dec u) as [b|]; cbn [mbind option_bind]; [|by rewrite H].
  destruct H as (Hb & Hok & ->). destruct (Nat.ltb_spec 32 (length b)) as [H|H]; case_decide; try lia; [done|].
  rewrite to_fixed_be by (try done; lia). f_equal.
Qed.
Lemma contract_of_hex ck bech a : addr_ok a -> contract_address bech (address_hex ck a) = Some a.
Proof. intros [Hl Hb]. unfold contract_address. by rewrite is_hex_address_hex, hex_to_address_hex. Qed.
Lemma contract_of_plain up bech a : addr_ok a -> contract_address bech (hex_enc up a) = Some a.
Proof. intros [Hl Hb]. unfold contract_address. by rewrite is_hex_address_plain, hex_to_address_plain. Qed.

(** ** C112: the queries answer what is stored *)
(** eth_getStorageAt: the key is read as a number, with or without 0x, with any number of digits
    up to 64; anything else is refused. *)
Theorem C112_storage_at ck bech slot a key :
  addr_ok a -> (forall k, bytes_ok (slot a k)) ->
  get_storage_at ck bech slot a key =
  match hex_number 0 (strip0x key) with
  | Some n => if decide (length (strip0x key) <= 64)%nat then Some (slot a (be 32 n)) else None
  | None => None
  end.
Proof.
  intros Ha Hs. unfold get_storage_at. rewrite decode_hash_number.
  destruct (hex_number _ _) as [n|]; cbn [mbind option_bind]; [|done]. case_decide; cbn [mbind option_bind]; [|done].
  unfold q_state. rewrite contract_of_hex by done. cbn [mbind option_bind].
  unfold hash_hex. rewrite hexutil_decode_encode by apply be_bytes_ok. cbn [mbind option_bind].
  rewrite hexutil_decode_encode by done. rewrite to_fixed_id; [done|apply be_length].
Qed.
(** The gRPC query answers the same for the key's 32 bytes, whichever way the contract is
    written: checksummed or plain hex or bech32. *)
Theorem C112_state bech slot a name key :
  addr_ok a -> bytes_ok key -> length key = 32%nat ->
  ((exists ck, name = address_hex ck a) \/ (exists up, name = hex_enc up a) \/ (is_hex_address name = false /\ bech name = Some a)) ->
  q_state bech slot name (hexutil_encode key) = Some (hexutil_encode (slot a key)).
Proof.
  intros Ha Hk Hl Hn. unfold q_state.
  assert (contract_address bech name = Some a) as ->.
  { destruct Hn as [[ck ->]|[[up ->]|[H1 H2]]]; [by apply contract_of_hex|by apply contract_of_plain|].
    unfold contract_address. rewrite H1, H2. simpl. f_equal. apply to_fixed_id, Ha. }
  cbn [mbind option_bind]. rewrite hexutil_decode_encode by done. cbn [mbind option_bind].
  by rewrite to_fixed_id.
Qed.
(** eth_getCode and the gRPC query: the contract's code, byte for byte. *)
Theorem C112_code ck bech code a name :
  addr_ok a -> bytes_ok (code a) ->
  ((exists ck, name = address_hex ck a) \/ (exists up, name = hex_enc up a) \/ (is_hex_address name = false /\ bech name = Some a)) ->
  get_code ck bech code a = Some (code a) /\ q_code bech code name = Some (hexutil_encode (code a)).
Proof.
  intros Ha Hc Hn. unfold get_code, q_code. rewrite contract_of_hex by done. cbn [mbind option_bind].
  split; [by apply hexutil_decode_encode|].
  assert (contract_address bech name = Some a) as ->; [|done].
  destruct Hn as [[ck' ->]|[[up ->]|[H1 H2]]]; [by apply contract_of_hex|by apply contract_of_plain|].
  unfold contract_address. rewrite H1, H2. simpl. f_equal. apply to_fixed_id, Ha.
Qed.
(** Denom and ContractAddrByDenom are inverse to each other: every contract's denomination leads
    back to the contract, in the spelling Denom accepts; and a denomination the chain gave a
    token leads to a contract whose denomination it is. *)
Theorem C112_contract_of_denom E ck bech w a d :
  reachable E w -> addr_ok a -> q_denom ck bech w (address_hex ck a) = Some d ->
  q_contract_by_denom ck w d = Some (address_hex ck a).
Proof.
  intros Hr Ha. unfold q_denom, q_contract_by_denom. rewrite contract_of_hex by done. cbn [mbind option_bind].
  intros [= <-]. by rewrite (C23_contract_round_trip E).
Qed.
Theorem C112_denom_of_contract E ck bech w d c :
  reachable E w -> is_erc20_denom d = false -> q_contract_by_denom ck w d = Some c ->
  q_denom ck bech w c = Some d.
Proof.
  intros Hr Hd. unfold q_denom, q_contract_by_denom.
  destruct (denom_to_contract w d) as [a|] eqn:Hc; cbn [mbind option_bind]; [|done]. intros [= <-].
  destruct (C23_plain_denom_round_trip E ck w d a Hr Hd Hc) as (He & t & Ht & _).
  rewrite contract_of_hex; [simpl; by rewrite He|].
  pose proof (inv_reachable E w Hr) as Hi. rewrite plain_denom in Hc by done. apply (iv_bij E w Hi) in Hc.
  destruct (iv_den E w Hi a d Hc) as (_ & Hin & _). by apply (iv_addr E w Hi).
Qed.
(** Query.Call runs as the account MsgCall by the same sender would run as, whenever MsgCall
    finds one. *)
Theorem C112_call_sender bech m n sender e :
  bech [] = None -> msg_call_sender bech m n sender = Some e -> q_call_sender bech sender = Some e.
Proof.
  unfold msg_call_sender, q_call_sender. intros He. destruct sender as [|s0 s]; [by rewrite He|].
  destruct (bech (s0 :: s)) as [a|]; cbn [mbind option_bind fmap option_fmap option_map]; [|done].
  destruct (convert_to_evm m n a true) as [[[r m'] n']|] eqn:Hc; cbn [mbind option_bind]; [|done].
  intros [= <-]. simpl. f_equal. destruct (decide (length a = 20%nat)) as [Hl|Hl].
  - rewrite C33_short_maps_to_itself in Hc by done. injection Hc as <- _ _. by apply to_fixed_id.
  - by destruct (C33_long_signer_recorded _ _ _ _ _ _ Hl Hc) as (-> & _ & _).
Qed.
(** Without a sender it runs as the zero address. *)
Theorem C112_call_without_sender bech : q_call_sender bech [] = Some (replicate 20 0%N).
Proof. done. Qed.
(** net_version answers the chain id's version number: the digits after its last dash. *)
(** The number a list of decimal digits writes, most significant first. *)
Fixpoint number (ds : list N) : N := match ds with [] => 0 | d :: r => d * 10 ^ N.of_nat (length r) + number r end.
Lemma last_item_app p v : existsb (N.eqb 45) v = false -> last_item (p ++ 45%N :: v) = v.
Proof.
  intros Hv. induction p as [|c p IH]; cbn [app last_item].
  - by rewrite Hv.
  - rewrite existsb_app. cbn [existsb]. rewrite N.eqb_refl, orb_true_l, orb_true_r. done.
Qed.
Lemma digits_no_dash v : forall acc n, digits acc v = Some n -> existsb (N.eqb 45) v = false.
Proof.
  induction v as [|c v IH]; intros acc n; cbn [digits existsb]; [done|].
  unfold digit. destruct ((48 <=? c)%N && (c <=? 57)%N) eqn:Hd; cbn [mbind option_bind]; [|done].
  intros H. rewrite (IH _ _ H), orb_false_r. apply andb_true_iff in Hd as [Hd _]. apply N.leb_le in Hd. apply N.eqb_neq. lia.
Qed.
Lemma digits_value ds : forall acc, Forall (fun d => d < 10)%N ds ->
  digits acc (map (fun d => 48 + d)%N ds) = Some (acc * 10 ^ N.of_nat (length ds) + number ds)%N.
Proof.
  induction ds as [|d ds IH]; intros acc H; cbn [map digits length number]; [f_equal; cbn; lia|].
  apply Forall_cons in H as [Hd H]. unfold digit.
  destruct (N.leb_spec 48 (48 + d)); [|lia]. destruct (N.leb_spec (48 + d) 57); [|lia].
  cbn [andb mbind option_bind]. rewrite IH by done. f_equal.
  rewrite (Nat2N.inj_succ (length ds)), N.pow_succ_r'. replace (48 + d - 48)%N with d by lia. lia.
Qed.
(** A chain id that ends in a dash and digits, of whatever length: the digits are the answer when
    the number they write fits in 63 bits, and otherwise the answer is 1. *)
Theorem C112_net_version p ds :
  ds ≠ [] -> Forall (fun d => d < 10)%N ds ->
  let v := map (fun d => 48 + d)%N ds in
  net_version (p ++ 45%N :: v) = if decide (number ds < 2 ^ 63)%N then v else [49%N].
Proof.
  intros Hne Hds v. pose proof (digits_value ds 0 Hds) as Hd. rewrite N.mul_0_l, N.add_0_l in Hd. fold v in Hd.
  unfold net_version. cbv zeta. rewrite last_item_app by by eapply digits_no_dash.
  assert (atoi_ok v = bool_decide (number ds < 2 ^ 63)%N) as ->.
  2:{ destruct (decide (number ds < 2 ^ 63)%N); [by rewrite bool_decide_eq_true_2|by rewrite bool_decide_eq_false_2]. }
  destruct ds as [|d ds]; [done|]. apply Forall_cons in Hds as [Hd0 _]. subst v. cbn [map] in *. unfold atoi_ok. cbv zeta.
  rewrite (proj2 (N.eqb_neq (48 + d) 43)), (proj2 (N.eqb_neq (48 + d) 45)) by lia. cbn [orb]. rewrite Hd.
  destruct (N.ltb_spec (number (d :: ds)) (2 ^ 63)); [by rewrite bool_decide_eq_true_2|rewrite bool_decide_eq_false_2; [done|lia]].
Qed.

(** ** C113: what does not hold *)
(** The gRPC State query takes a key of any length and reads the slot of its last 32 bytes;
    eth_getStorageAt refuses the same key. *)
Theorem C113_long_key_refuted ck bech slot a key :
  addr_ok a -> bytes_ok key -> (32 < length key)%nat ->
  q_state bech slot (address_hex ck a) (hexutil_encode key) = Some (hexutil_encode (slot a (drop (length key - 32) key))) /\
  get_storage_at ck bech slot a (hexutil_encode key) = None.
Proof.
  intros Ha Hk Hl. split.
  - unfold q_state. rewrite contract_of_hex by done. cbn [mbind option_bind]. rewrite hexutil_decode_encode by done.
    cbn [mbind option_bind]. unfold to_fixed. by rewrite decide_True by lia.
  - unfold get_storage_at. rewrite decode_hash_number. unfold hexutil_encode.
    change (strip0x ([48; 120]%N ++ hex_enc lower key)) with (hex_enc lower key). rewrite hex_enc_length.
    destruct (hex_number _ _); [|done]. by rewrite decide_False by lia.
Qed.
(** A bech32 name of a 32-byte address that no contract has answers with the code, storage and
    denomination of whatever contract has its last 20 bytes. *)
Theorem C113_long_contract_refuted ck bech slot code w name a l key :
  is_hex_address name = false -> bech name = Some l -> (20 < length l)%nat -> a = drop (length l - 20) l ->
  bytes_ok l ->
  q_code bech code name = q_code bech code (address_hex ck a) /\
  q_state bech slot name key = q_state bech slot (address_hex ck a) key /\
  q_denom ck bech w name = q_denom ck bech w (address_hex ck a).
Proof.
  intros Hn Hb Hl -> Hok. unfold q_code, q_state, q_denom.
  assert (contract_address bech name = Some (drop (length l - 20) l)) as ->.
  { unfold contract_address. rewrite Hn, Hb. simpl. unfold to_fixed. by rewrite decide_True by lia. }
  rewrite contract_of_hex; [done|]. split; [rewrite drop_length; lia|]. by apply Forall_drop.
Qed.
(** Query.Call runs, as the account that has the last 20 bytes, for a sender whose MsgCall the
    chain refuses. *)
Theorem C113_call_sender_refuted bech m n sender l :
  sender ≠ [] -> bech sender = Some l -> length l ≠ 20%nat ->
  in_use m (bytes_to_address l) -> ¬ recorded m (bytes_to_address l) l ->
  msg_call_sender bech m n sender = None /\ q_call_sender bech sender = Some (bytes_to_address l).
Proof.
  intros Hs Hb Hl Hu Hr. unfold msg_call_sender, q_call_sender. rewrite Hb. cbn [mbind option_bind].
  rewrite (C33_used_address_not_taken m n l _ true Hl eq_refl Hu Hr). split; [done|]. by destruct sender.
Qed.
(** net_version is not the network's id: two chains whose ids end in the same item have the same
    net_version, so it can state the EIP-155 chain id of at most one of them, in whatever way
    the number is written. *)
Theorem C113_net_version_refuted keccak (write : Z -> text) p1 p2 v :
  (forall x y, write x = write y -> x = y) -> existsb (N.eqb 45) v = false ->
  eth_chain_id keccak (p1 ++ 45%N :: v) ≠ eth_chain_id keccak (p2 ++ 45%N :: v) ->
  net_version (p1 ++ 45%N :: v) = write (eth_chain_id keccak (p1 ++ 45%N :: v)) ->
  net_version (p2 ++ 45%N :: v) ≠ write (eth_chain_id keccak (p2 ++ 45%N :: v)).
Proof.
  intros Hi Hv Hne. unfold net_version. cbv zeta. rewrite !last_item_app by done. intros -> H.
  apply Hi in H. done.
Qed.
(** It is "1", Ethereum's, for every chain id whose last item is not a number. *)
Theorem C113_net_version_mainnet_refuted p v :
  existsb (N.eqb 45) v = false -> Exists (fun c => c < 48 \/ 57 < c)%N (tail v) -> net_version (p ++ 45%N :: v) = txt "1".
Proof.
  intros Hv He. unfold net_version. cbv zeta. rewrite last_item_app by done.
  assert (atoi_ok v = false) as ->; [|done].
  assert (Hd : forall t acc, Exists (fun c => c < 48 \/ 57 < c)%N t -> digits acc t = None).
  { intros t. induction t as [|c t IH]; intros acc H; [by inversion H|]. cbn [digits].
    destruct (digit c) as [d|] eqn:Hc; cbn [mbind option_bind]; [|done].
    apply Exists_cons in H as [H|H]; [|by apply IH].
    unfold digit in Hc. destruct ((48 <=? c)%N && (c <=? 57)%N) eqn:Hx; [|done].
    apply andb_true_iff in Hx as [H1 H2]. apply N.leb_le in H1, H2. lia. }
  destruct v as [|c v]; [by inversion He|]. simpl in He. unfold atoi_ok. cbv zeta.
  destruct ((c =? 43) || (c =? 45))%N.
  - destruct v; [done|]. by rewrite Hd.
  - rewrite Hd; [done|]. by constructor 2.
Qed.

(** ** Examples *)
Definition x_slot : bytes -> bytes -> bytes := fun a k => if bool_decide (k = be 32 26) then be 32 77 else be 32 0.
Definition x_adr : bytes := replicate 19 0%N ++ [171%N].
Definition x_name (t : text) : option bytes := if bool_decide (t = txt "init1long") then Some (replicate 12 9%N ++ x_adr) else None.
Example C112_example :
  addr_ok x_adr /\
  get_storage_at (fun _ _ => true) x_name x_slot x_adr (txt "0x1a") = Some (be 32 77) /\
  get_storage_at (fun _ _ => true) x_name x_slot x_adr (txt "01A") = Some (be 32 77) /\
  get_storage_at (fun _ _ => true) x_name x_slot x_adr (txt "0x1g") = None /\
  net_version (txt "minievm-2") = txt "2" /\ net_version (txt "mini-evm-17") = txt "17".
Proof.
  split. { split; [done|]. repeat constructor. }
  split; [vm_compute; reflexivity|]. split; [vm_compute; reflexivity|]. split; [vm_compute; reflexivity|]. split; vm_compute; reflexivity.
Qed.
(** A denomination the chain created, there and back. *)
Example C112_denom_example : exists w c, reachable x_env w /\
  q_contract_by_denom (fun _ _ => true) w x_stake = Some c /\ q_denom (fun _ _ => true) x_name w c = Some x_stake.
Proof.
  destruct C62_alias_refuted as (w & c & Hr & _ & Hd & _). exists w, (address_hex (fun _ _ => true) c).
  assert (q_contract_by_denom (fun _ _ => true) w x_stake = Some (address_hex (fun _ _ => true) c)) as Hq.
  { unfold q_contract_by_denom. by rewrite Hd. }
  split; [done|]. split; [done|]. eapply C112_denom_of_contract; [done| |done]. vm_compute. reflexivity.
Qed.
Example C113_example :
  is_hex_address (txt "init1long") = false /\ x_name (txt "init1long") = Some (replicate 12 9%N ++ x_adr) /\
  q_state x_name x_slot (txt "init1long") (hexutil_encode (9%N :: be 32 26)) = Some (hexutil_encode (be 32 77)) /\
  get_storage_at (fun _ _ => true) x_name x_slot x_adr (hexutil_encode (9%N :: be 32 26)) = None /\
  (let m := {[ x_adr := Acct 0 3 true KBase ]} in
   msg_call_sender x_name m 1 (txt "init1long") = None /\ q_call_sender x_name (txt "init1long") = Some x_adr) /\
  net_version (txt "minievm") = txt "1" /\ net_version (txt "minievm-+5") = txt "+5".
Proof.
  split; [vm_compute; reflexivity|]. split; [vm_compute; reflexivity|]. split; [vm_compute; reflexivity|].
  split; [vm_compute; reflexivity|]. split; [split; vm_compute; reflexivity|]. split; vm_compute; reflexivity.
Qed.
