(** What may happen around the wrapping contract, and what it means to be backed. *)
From Verif.Base Require Import Prelude Hex Dec Json.
From Verif.Model Require Import Token Bank Wrapper.
From Verif.Spec Require Import TokenSpec.
Open Scope Z_scope.

(** Token storages survive unchanged, and a token that appears is new. *)
Definition tokens_kept (w w' : world) : Prop :=
  (∀ c t, is_token w c t → is_token w' c t) ∧
  (∀ c t, is_token w' c t → is_token w c t ∨ ∃ k ow, t = new_token k ow).

(** One step of a history. Calls of the wrapper are made by any sender; [okstr]
    restricts the channel and receiver texts passed to wrap. The rest of the chain
    does what it likes, except act in the wrapper's name (it has no key) and mint or
    burn wrapped tokens by decree (the bank module mints and burns only
    denominations it created itself, C25). A failed execution changes nothing. *)
Inductive wstep (V : wenv) (okstr : text → Prop) : wst → wst → Prop :=
| w_wrap s sender ch tok rcv a tm s' :
    okstr ch → okstr rcv → amount_ok a →
    (∃ t, is_token (ws_w s) tok t) →
    wrap V s sender ch tok rcv a tm = Some s' → wstep V okstr s s'
| w_unwrap s sender d r v s' :
    amount_ok v → unwrap V s sender d r v = Some s' → wstep V okstr s s'
| w_ack s sender id b s' :
    ibc_ack V s sender id b = Some s' → wstep V okstr s s'
| w_timeout s sender id s' :
    ibc_timeout V s sender id = Some s' → wstep V okstr s s'
| w_dispatch s s' :
    dispatch_one V s = Some s' → wstep V okstr s s'
| w_call s c sender o :
    (* anybody else calls a token *)
    sender ≠ we_self V → sender ≠ chain_addr → op_ok o →
    wstep V okstr s (put_w s (snd (call_tok (we_env V) (ws_w s) c sender o)))
| w_chain_send s c from to v :
    from ≠ we_self V → amount_ok v →
    wstep V okstr s (put_w s (snd (call_tok (we_env V) (ws_w s) c chain_addr (OSudoTransfer from to v))))
| w_chain_mint s c to v :
    ws_origin s !! c = None → amount_ok v →
    wstep V okstr s (put_w s (snd (call_tok (we_env V) (ws_w s) c chain_addr (OSudoMint to v))))
| w_chain_burn s c from v :
    from ≠ we_self V → amount_ok v →
    wstep V okstr s (put_w s (snd (call_tok (we_env V) (ws_w s) c chain_addr (OSudoBurn from v))))
| w_quiet s w' :
    (* any other step of the chain or of a contract *)
    step (we_env V) (ws_w s) w' → tokens_kept (ws_w s) w' → wstep V okstr s (put_w s w')
(* an origin token of unknown code: it may call back at any point of wrap and unwrap,
   so their parts are separate steps; the amounts it reports are arbitrary *)
| w_custom_create s tok s' :
    w_code (ws_w s) !! tok = Some CCustom → create_wrapped V s tok = Some s' → wstep V okstr s s'
| w_custom_mint s sender ch tok rcv v tm s' :
    okstr ch → okstr rcv → amount_ok v →
    w_code (ws_w s) !! tok = Some CCustom →
    finish_wrap V s sender ch tok rcv v tm = Some s' → wstep V okstr s s'
| w_custom_burn s sender c tok v s' :
    amount_ok v → ws_origin s !! c = Some tok → w_code (ws_w s) !! tok = Some CCustom →
    wcall V s c (OBurnFrom sender v) = Some s' → wstep V okstr s s'.

(** The wrapper just deployed on a chain reached somehow: nothing recorded, nothing
    waiting, no allowance given from its address. *)
Definition wfresh (V : wenv) (s : wst) : Prop :=
  reachable (we_env V) (ws_w s) ∧
  ws_wrapped s = ∅ ∧ ws_origin s = ∅ ∧ ws_cb s = ∅ ∧ ws_q s = [] ∧
  ∀ c sp, allowance (ws_w s) c (we_self V) sp = 0.

(** The history of a provided token [o]: nothing else was ever deployed at its
    address. It may be deployed at any time. *)
Definition unmixed (o : bytes) (s : wst) : Prop := w_code (ws_w s) !! o ≠ Some CCustom.
Definition wsteps (V : wenv) (okstr : text → Prop) (o : bytes) : wst → wst → Prop :=
  rtc (fun s s' => wstep V okstr s s' ∧ unmixed o s').

(** The wrapper's address and texts are well formed, its codec reads its own text. *)
Definition wenv_ok (V : wenv) : Prop :=
  addr_ok (we_self V) ∧ we_self V ≠ chain_addr ∧ plain (we_self_text V) ∧
  we_of_text V (we_self_text V) = Some (we_self V) ∧
  ∀ c, 0 <= we_decimals V c < 256.

(** Origin units that [v] wrapped units (6 decimals) are worth, for an origin token
    with [d] decimals; rounded down. *)
Definition worth (d v : Z) : Z := if 6 <=? d then v * 10 ^ (d - 6) else v / 10 ^ (6 - d).

(** The origin token [o] is backed: what the wrapper holds of it covers redeeming the
    whole supply of its wrapped token. *)
Definition backed (V : wenv) (s : wst) (o : bytes) : Prop :=
  ∀ c, ws_wrapped s !! o = Some c →
    worth (we_decimals V o) (supply (ws_w s) c) <= balance (ws_w s) o (we_self V).
