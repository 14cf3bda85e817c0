(** Delivery of one transaction from the ante handler to the post handler, with the ways it
    can end. baseapp.runTx of cosmos-sdk v0.50.10 (not in /repo) around app/ante/ante.go,
    the message servers and app/posthandler/{posthandler,sequence,gasrefund}.go.

    runTx: the ante handler runs on a cached store that is written when it accepts; then the
    messages and the post handler run on a second cached store. A panic (an exhausted gas
    meter panics) anywhere after that is recovered at the top of runTx, and so the post
    handler does not run and the second store is dropped; the store is also dropped when the
    post handler returns an error, and when the block gas meter overflows after a success. *)
From Verif.Base Require Import Prelude.
From Verif.Model Require Import Sequence.
Local Open Scope Z_scope.

(** How the messages end: all succeed (with what they do to sequences), one returns an
    error, one panics (for instance out of gas: every read and write of the handlers is
    charged, x/evm/keeper/context.go:227, 271, 373 charge the EVM's gas). *)
Inductive msgs_end := MsgsOk (extras : list (list effect)) | MsgsError | MsgsPanic.
(** How GasRefundDecorator ends after successful messages (gasrefund.go:30-77): the coins
    given back, an error (SendCoins refused), a panic (IsEthereumTx on a signature without a
    key, x/evm/keeper/txutils.go:415). *)
Inductive refund_end := RefundDone (amount : Z) | RefundError | RefundPanic.
(** [en_block]: the block gas meter can take the gas; [en_keep]: the SDK keeps the post
    handler's writes when a message returned an error, which posthandler/sequence.go counts
    on. *)
Record ending := Ending { en_msgs : msgs_end; en_refund : refund_end; en_block : bool; en_keep : bool }.
(** What becomes of sequences (Model/Sequence.v) *)
Definition outcome_of (e : ending) : outcome :=
  match en_msgs e with
  | MsgsPanic => Failed false
  | MsgsError => Failed (en_keep e)
  | MsgsOk extras =>
      match en_refund e with
      | RefundDone _ => if en_block e then Succeeded extras else Failed false
      | _ => Failed false
      end
  end.
Definition refunded (e : ending) : Z :=
  match en_msgs e, en_refund e with MsgsOk _, RefundDone n => if en_block e then n else 0 | _, _ => 0 end.

Notation balances := (gmap bytes Z).
Definition balv (b : balances) (a : bytes) : Z := default 0 (b !! a).
Section run.
Variable decode : string -> bytes.
(** Fee and sequence of an included transaction: the fee is taken in the ante handler
    (app/ante/fee.go:86-147, refused when the payer cannot pay) and stays taken; [None]: the
    ante handler refuses. *)
Definition run_tx (st : seqs) (bal : balances) (t : tx) (payer : bytes) (fee : Z) (e : ending)
  : option (seqs * balances) :=
  if balv bal payer <? fee then None else
  match deliver decode st t (outcome_of e) with
  | None => None
  | Some (st', _) => Some (st', <[payer := balv bal payer - fee + refunded e]> bal)
  end.
(** The same transaction included [n] times in a row, ending each time in the same way *)
Fixpoint run_again (n : nat) (st : seqs) (bal : balances) (t : tx) (payer : bytes) (fee : Z) (e : ending)
  : option (seqs * balances) :=
  match n with
  | O => Some (st, bal)
  | S n' => match run_tx st bal t payer fee e with
            | Some (st', bal') => run_again n' st' bal' t payer fee e
            | None => None
            end
  end.
End run.
