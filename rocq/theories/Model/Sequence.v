(** Account sequences (= EVM nonces) across a transaction.
    app/ante/sigverify.go, app/posthandler/sequence.go, x/evm/keeper/msg_server.go.

    Sequences are integers here; Go uses uint64 with wrap-around, so the model and the code
    agree as long as no account has made 2^64 transactions (intermediate negative values of
    the model are the wrapped values of the code). *)
From Verif.Base Require Import Prelude.
Local Open Scope Z_scope.

Notation seqs := (gmap bytes Z).
Definition seqv (st : seqs) (a : bytes) : Z := default 0 (st !! a).
(** acc.SetSequence(acc.GetSequence() + d); SetAccount (sigverify.go:239-243, 270-275;
    sequence.go:76-80; msg_server.go:146-156; go-ethereum's SetNonce(caller, nonce+1) in
    EVM.create through statedb.go:444-450) *)
Definition bump (d : Z) (st : seqs) (a : bytes) : seqs := <[a := seqv st a + d]> st.

(** common.BytesToAddress: the last 20 bytes, left-padded with zeros. *)
Definition bytes_to_address (b : bytes) : bytes :=
  if decide (20 <= length b)%nat then drop (length b - 20) b else replicate (20 - length b) 0%N ++ b.
(** convertToEVMAddress (x/evm/keeper/address.go:16-54), the resulting address. *)
Definition evm_addr (a : bytes) : bytes := if decide (length a = 20)%nat then a else bytes_to_address a.

(** Transactions. EVM messages carry the sender as text; other messages only matter through
    their signers. *)
Inductive msg :=
| MCall (sender : string)
| MCreate (sender : string)
| MCreate2 (sender : string)
| MOther (signers : list bytes).
Record tx := Tx { t_msgs : list msg; t_payer : option bytes; t_seqs : list Z }.

(** What the EVM and the Cosmos messages it queued do to sequences while a message runs:
    contracts creating contracts, and nested messages. *)
Inductive effect := XBump (a : bytes) | XDeploy (a : bytes).

Section seq.
(** address codec: bech32 text to bytes *)
Variable decode : string -> bytes.

Definition msg_signers (m : msg) : list bytes :=
  match m with MCall s | MCreate s | MCreate2 s => [decode s] | MOther l => l end.
(** sdk.Tx.GetSigners: signers of the messages in order, without repetition, then the fee
    payer. *)
Fixpoint dedup {A} `{EqDecision A} (l : list A) : list A :=
  match l with [] => [] | x :: l' => x :: List.filter (fun y => negb (bool_decide (y = x))) (dedup l') end.
Definition signers (t : tx) : list bytes :=
  dedup (concat (map msg_signers (t_msgs t)) ++ match t_payer t with Some p => [p] | None => [] end).
(** The loop over EVM messages keyed by the sender text (sigverify.go:252-268,
    sequence.go:54-70). *)
Definition evm_sender (m : msg) : option string :=
  match m with MCall s | MCreate s | MCreate2 s => Some s | MOther _ => None end.
Definition evm_senders (t : tx) : list string := dedup (omap evm_sender (t_msgs t)).

(** SigVerificationDecorator (sigverify.go:50-137): account exists, number of signatures,
    sequence of each signature. The signatures themselves are in Model/EthTx.v. *)
Definition sigs_ok (st : seqs) (t : tx) : bool :=
  bool_decide (length (t_seqs t) = length (signers t)) &&
  forallb (fun p => match st !! fst p with Some s => s =? snd p | None => false end)
          (zip (signers t) (t_seqs t)).

(** IncrementSequenceDecorator (sigverify.go:224-284); [evm] is
    "simulate || ExecMode == Finalize". *)
Definition increment (evm : bool) (st : seqs) (t : tx) : seqs :=
  let st1 := fold_left (bump 1) (signers t) st in
  if evm then fold_left (bump (-1)) (map decode (evm_senders t)) st1 else st1.
Definition ante (evm : bool) (st : seqs) (t : tx) : option seqs :=
  if sigs_ok st t then Some (increment evm st t) else None.

(** One message (msg_server.go:28-197): Call increases the sender's nonce (msg_server.go:
    168); Create and Create2 let EVM.create increase the nonce of the caller, the EVM address
    of the sender, and deploy at the nonce before the increase. The second component lists
    the (creator, nonce) pairs of CREATE deployments. *)
Definition run_effect (st : seqs) (x : effect) : seqs * list (bytes * Z) :=
  match x with
  | XBump a => (bump 1 st a, [])
  | XDeploy a => (bump 1 st a, [(a, seqv st a)])
  end.
Fixpoint run_effects (st : seqs) (xs : list effect) : seqs * list (bytes * Z) :=
  match xs with
  | [] => (st, [])
  | x :: xs' => let '(st1, d1) := run_effect st x in
                let '(st2, d2) := run_effects st1 xs' in (st2, d1 ++ d2)
  end.
Definition msg_effects (m : msg) (extra : list effect) : list effect :=
  match m with
  | MCall s => XBump (decode s) :: extra
  | MCreate s => XDeploy (evm_addr (decode s)) :: extra
  | MCreate2 s => XBump (evm_addr (decode s)) :: extra
  | MOther _ => extra
  end.
(** All messages of a transaction; [extras] gives the nested effects of each. *)
Definition all_effects (t : tx) (extras : list (list effect)) : list effect :=
  concat (zip_with msg_effects (t_msgs t) extras).

(** SequenceIncrementDecorator on a failed delivered transaction (sequence.go:22-53) *)
Definition post_failed (st : seqs) (t : tx) : seqs :=
  fold_left (bump 1) (map decode (evm_senders t)) st.

(** baseapp.runTx in delivery. [Failed]: an error from a message; the writes of the messages
    are dropped and the post handler runs on the state the ante handler left; [keep_post]
    says whether its writes are kept (assumption of posthandler/sequence.go). *)
Inductive outcome := Succeeded (extras : list (list effect)) | Failed (keep_post : bool).
Definition deliver (st : seqs) (t : tx) (o : outcome) : option (seqs * list (bytes * Z)) :=
  match ante true st t with
  | None => None
  | Some st1 =>
      match o with
      | Succeeded extras => Some (run_effects st1 (all_effects t extras))
      | Failed true => Some (post_failed st1 t, [])
      | Failed false => Some (st1, [])
      end
  end.
(** CheckTx: only the ante handler runs. *)
Definition check_tx (st : seqs) (t : tx) : option seqs := ante false st t.

(** An outcome fits a transaction: one list of nested effects per message. *)
Definition outcome_fits (t : tx) (o : outcome) : Prop :=
  match o with Succeeded extras => length extras = length (t_msgs t) | Failed _ => True end.
End seq.
