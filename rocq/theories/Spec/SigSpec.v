(** What it means that a transaction is signed, stated without the verification code. *)
From Verif.Base Require Import Prelude Hex.
From Verif.Model Require Import Fees EthTx SigVerify.
Local Open Scope N_scope.

Fixpoint total (l : list N) : N := match l with [] => 0 | x :: l' => x + total l' end.

(** [picks ks bits sigs l]: the members of [ks] whose bit is set, in order, each paired with
    the next signature of [sigs]. *)
Inductive picks : list pubkey -> list bool -> list sigdata -> list (pubkey * sigdata) -> Prop :=
| picks_end sigs : picks [] [] sigs []
| picks_yes pk ks bits s sigs l : picks ks bits sigs l -> picks (pk :: ks) (true :: bits) (s :: sigs) ((pk, s) :: l)
| picks_no pk ks bits sigs l : picks ks bits sigs l -> picks (pk :: ks) (false :: bits) sigs l.

Definition plain_key (pk : pubkey) : Prop := match pk with KMulti _ _ => False | _ => True end.
(** The Cosmos sign modes: direct 1, textual 2, direct aux 3, amino JSON 127, EIP-191 191 *)
Definition cosmos_mode (m : Z) : Prop := (m = 1 \/ m = 2 \/ m = 3 \/ m = 127 \/ m = 191)%Z.

Section spec.
Variable key_addr : pubkey -> bytes.
Variable key_verify : pubkey -> bytes -> bytes -> bool.

(** [signed sb pk d]: the holder of [pk] made [d]. [sb] gives the bytes to sign in each
    mode. A k-of-n key: at least [k] members signed, and every listed signature is good. *)
Inductive signed (sb : Z -> option bytes) : pubkey -> sigdata -> Prop :=
| signed_one pk mode b m :
    plain_key pk -> cosmos_mode mode -> sb mode = Some m -> key_verify pk m b = true ->
    signed sb pk (SSingle mode b)
| signed_many k ks bits sigs l :
    picks ks bits sigs l -> (k <= length l)%nat -> (length sigs <= length ks)%nat ->
    (forall p, p ∈ l -> signed sb (fst p) (snd p)) ->
    signed sb (KMulti k ks) (SMulti bits sigs).

(** What verification costs: a fixed price per plain key, the sum over the members for a
    multisig; ed25519 and unknown keys have no price. *)
Variable cost_k1 cost_r1 : N.
Inductive due : pubkey -> sigdata -> N -> Prop :=
| due_secp b d : due (KSecp b) d cost_k1
| due_eth b d : due (KEth b) d cost_k1
| due_r1 b d : due (KR1 b) d cost_r1
| due_multi k ks bits sigs l gs :
    picks ks bits sigs l -> length gs = length l ->
    (forall i p g, l !! i = Some p -> gs !! i = Some g -> due (fst p) (snd p) g) ->
    due (KMulti k ks) (SMulti bits sigs) (total gs).
End spec.

(** When the signature [sg] of the signer [a] counts, for a transaction [x] and the accounts
    [accs] before it. [eth_signer x]: the address that signed the Ethereum transaction that
    [x] stands for, if it stands for one. *)
Section entry.
Variable key_addr : pubkey -> bytes.
Variable key_verify : pubkey -> bytes -> bytes -> bool.
Variable sign_bytes : Z -> bytes -> N -> N -> pubkey -> vtx -> option bytes.
Variable cost_k1 cost_r1 : N.
Variable eth_signer : vtx -> option bytes.

(** the key [a]'s signature is checked with: the one on its account, or the one in the
    transaction when the account has none yet *)
Definition key_for (acc : vacc) (sg : vsig) (pk : pubkey) : Prop :=
  a_key acc = Some pk \/ (a_key acc = None /\ v_key sg = Some pk).
Definition entry_ok (genesis : bool) (accs : vaccs) (x : vtx) (sg : vsig) (a : bytes) (g : N) : Prop :=
  exists acc key,
    accs !! a = Some acc /\
    (forall pk, v_key sg = Some pk -> key_addr pk = a) /\
    key_for acc sg key /\
    v_seq sg = a_seq acc /\
    due cost_k1 cost_r1 key (v_data sg) g /\
    let sb m := sign_bytes m a (if genesis then 0 else a_num acc) (a_seq acc) key x in
    match v_data sg with
    | SSingle mode _ => if decide (mode = mode_ethereum) then eth_signer x = Some a
                        else signed key_verify sb key (v_data sg)
    | SMulti _ _ => signed key_verify sb key (v_data sg)
    end.
End entry.
