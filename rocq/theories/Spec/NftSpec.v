(** Histories of ERC-721 collections, and the vocabulary of C52. *)
From Verif.Base Require Import Prelude Hex Dec.
From Verif.Model Require Import Token Bank Nft.
From Verif.Spec Require Import TokenSpec.
From stdpp Require Export relations.
Local Open Scope N_scope.

Definition is_col (w : nworld) (c : bytes) (x : col) : Prop := nw_code w !! c = Some (NCol x).

(** The owner of a token; [None] when there is no such token. *)
Definition token_owner (w : nworld) (c : bytes) (id : N) : option bytes :=
  match nw_code w !! c with Some (NCol x) => n_owner x !! id | _ => None end.

(** How many tokens [a] owns. *)
Definition owned (x : col) (a : bytes) : N := N.of_nat (size (filter (fun p => p.2 = a) (n_owner x))).

(** The numbers of listed tokens. *)
Definition numbers (E : nenv) (class : text) (l : list text) : option (list N) := mapM (token_number E class) l.

(** What users and contracts of unknown code do, in any order and nesting: everything
    a collection offers, as any sender but 0x0 and 0x1 (for which no key exists);
    deployments and self-destruction; accounts change. *)
Inductive next : nworld → nworld → Prop :=
| nx_call w c s op : s ≠ chain_addr → s ≠ null_addr → next w (snd (ncall w c s op))
| nx_deploy w c s : nw_code w !! c = None → s ≠ chain_addr → next w (put_code w (insert c (NCol (new_col s))))
| nx_deploy_custom w c : nw_code w !! c = None → next w (put_code w (insert c NCustom))
| nx_destroy w c : nw_code w !! c = Some NCustom → next w (put_code w (delete c))
| nx_accounts w m n : next w (put_accts w m n).

(** Unknown code does nothing else. *)
Definition nenv_ok (E : nenv) : Prop :=
  (∀ n, addr_ok (ne_create E n)) ∧
  (∀ w to c id, rtc next w (snd (ne_recv E w to c id))) ∧
  (∀ w c s, rtc next w (fst (ne_custom E w c s))).

(** An account the chain acts for. *)
Definition sender_ok (a : bytes) : Prop := bytes_to_address a ≠ null_addr ∧ bytes_to_address a ≠ chain_addr.

(** The keeper's functions, for any arguments; classes are created under names that
    are not of the form evm/... *)
Inductive nstep (E : nenv) : nworld → nworld → Prop :=
| ns_next w w' : next w w' → nstep E w w'
| ns_class w class uri : cut_prefix denom_prefix class = None → nstep E w (snd (create_or_update E w class uri))
| ns_transfers w a b class l : sender_ok a → nstep E w (snd (k_transfers E w a b class l))
| ns_burns w a class l : sender_ok a → nstep E w (snd (k_burns E w a class l))
| ns_mints w b class l uris : nstep E w (snd (k_mints E w b class l uris)).

Definition ninitial (w : nworld) : Prop :=
  (∀ c x, ¬ is_col w c x) ∧ nw_addr_of w = ∅ ∧ nw_id_of w = ∅.
Definition nreachable (E : nenv) (w : nworld) : Prop :=
  nenv_ok E ∧ ∃ w0, ninitial w0 ∧ rtc (nstep E) w0 w.
