(** Transactions with several messages, from the ante handler to the post handler: MsgCall,
    MsgCreate (x/evm/keeper/msg_server.go) and MsgSend (x/bank/keeper/msg_server.go 31-85).
    baseapp.runMsgs runs the messages in order on one store and drops the store at the first
    error or panic; the rest is as in Model/EthDeliver.v, of which this is the version for any
    number of messages (the loops over messages in app/ante/sigverify.go 249-281 and
    app/posthandler/sequence.go 54-80).

    Simplifications: as in Model/EthDeliver.v; what a message other than MsgCall, MsgCreate,
    MsgCreate2 is, is given by [send_of] (the MsgSend it encodes, [None]: something else, not
    described: it fails); MsgCreate2 is not run (it fails); the EVM events of a MsgSend are not
    in the log of the calls. *)
From Verif.Base Require Import Prelude Hex.
From Verif.Model Require Import Fees EthTx SigVerify Token Bank CallTree EthDeliver.
From Verif.Model Require Sequence.
Local Open Scope Z_scope.

Section multi.
Variable keccak : bytes -> bytes.
Variable bech_dec : text -> option bytes.
Variable recover_addr : content -> N -> Z -> Z -> option bytes.
Variable key_addr : pubkey -> bytes.
Variable key_verify : pubkey -> bytes -> bytes -> bool.
Variable sign_bytes : Z -> bytes -> N -> N -> pubkey -> vtx -> option bytes.
Variable fee_denom : text.
Variable decimals : Z.
Variable chain : bytes.
Variable cost_k1 cost_r1 : N.
Variable limit : N.
Variable E : env.
Variable B : bank_env.
Variable fee : bytes.
Variable code_at : bytes -> bytes -> prog.
Variable ratio : Z.
Variable publishers : list text.
Variable create_addr : bytes -> N -> bytes.
Variable init_of : bytes -> bytes -> prog.
(** bank parameters (send enabled) *)
Variable params : bank_params.
(** the MsgSend a message encodes: addresses ([None]: not an address) and coins *)
Variable send_of : bytes -> option (option bytes * option bytes * list coin).

(** The senders of EVM messages, by their text (app/ante/sigverify.go 252-268) *)
Definition caller_text (m : cmsg) : option text :=
  match m with CCall s _ _ _ _ | CCreate s _ _ _ | CCreate2 s _ _ _ _ => Some s | COther _ => None end.
Definition callers (x : vtx) : option (list bytes) := mapM bech_dec (Sequence.dedup (omap caller_text (v_msgs x))).

(** The ante handler: EthDeliver.ante with IncrementSequenceDecorator over all messages
    (sigverify.go 224-284); a sender that is no address is refused (269-272). *)
Definition ante_m (x : vtx) (n : node) : option node :=
  if (v_gas x =? 0)%N then None else
  payer ← head (v_signers x);
  w1 ← pay_fee B x payer (s_w (nd_st n));
  accs1 ← ante_sigs keccak bech_dec recover_addr key_addr key_verify sign_bytes fee_denom decimals chain
                    cost_k1 cost_r1 false false limit (nd_accs n) x;
  l ← callers x;
  Some (Node (st_world w1 (nd_st n)) (fold_left prev_seq l (fold_left next_seq (v_signers x) accs1))).

(** One message *)
Definition alone (x : vtx) (m : cmsg) : vtx := VTx [m] (v_memo x) (v_sigs x) (v_fee x) (v_gas x) (v_signers x) (v_rest x).
Definition exec_msg (x : vtx) (m : cmsg) (n : node) : ran :=
  match m with
  | COther body =>
      match send_of body with
      | Some (from, to, amt) =>
          let '(ok, w') := msg_send B params (s_w (nd_st n)) from to amt in
          if ok then MsgOk (Node (st_world w' (nd_st n)) (nd_accs n)) else MsgErr
      | None => MsgErr
      end
  | _ => exec bech_dec E fee code_at publishers create_addr init_of (alone x m) n
  end.
(** baseapp.runMsgs *)
Fixpoint exec_all (x : vtx) (l : list cmsg) (n : node) : ran :=
  match l with
  | [] => MsgOk n
  | m :: l' => match exec_msg x m n with MsgOk n1 => exec_all x l' n1 | r => r end
  end.
(** SequenceIncrementDecorator after a failure (app/posthandler/sequence.go 22-83) *)
Definition post_failed_m (x : vtx) (n : node) : node :=
  match callers x with Some l => Node (nd_st n) (fold_left next_seq l (nd_accs n)) | None => n end.

Definition run_tx_m (x : vtx) (used : option N) (keep : bool) (n : node) : receipt :=
  match ante_m x n with
  | None => Refused
  | Some n1 =>
      match used with
      | None => Included false n1
      | Some g =>
          match exec_all x (v_msgs x) n1 with
          | MsgPanic => Included false n1
          | MsgErr => Included false (if keep then post_failed_m x n1 else n1)
          | MsgOk n2 => match refund key_addr fee_denom B ratio x g n2 with
                        | Some n3 => Included true n3
                        | None => Included false n1
                        end
          end
      end
  end.
Definition deliver_m (x : vtx) (used : option N) (keep : bool) (n : node) : receipt := run_tx_m x used keep (sync n).
End multi.
