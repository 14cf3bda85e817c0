(** What an indexed chain means, said about the blocks themselves. *)
From Verif.Base Require Import Prelude.
From Verif.Model Require Import EthLog Indexer.
Open Scope N_scope.

(** The Ethereum transactions of a block, in block order, with their entries. *)
Definition eth_entries (b : iblock) : list (itx * ientry) :=
  omap (fun e => match ie_conv e with IEth t => Some (t, e) | _ => None end) (ib_entries b).

(** Whether a transaction succeeded, what it used, what it logged. *)
Definition e_ok (e : ientry) : bool := ie_code e =? 0.
Definition e_gas (e : ientry) : N := Z.to_N (ie_gas e mod 2 ^ 64)%Z.
Definition e_logs (e : ientry) : list eth_log :=
  if e_ok e then match ie_resp e with IRCall ls => ls | IRCreate ls _ => ls | IRNone => [] end else [].
Definition e_contract (e : ientry) : option bytes :=
  if e_ok e then match ie_resp e with IRCreate _ c => Some c | _ => None end else None.
Fixpoint nsum (l : list N) : N := match l with [] => 0 | x :: l' => x + nsum l' end.

(** A block the indexer can take: every transaction converts, and every successful one has
    the response of its kind. *)
Definition indexable (b : iblock) : Prop :=
  ∀ e, e ∈ ib_entries b →
    ie_conv e ≠ IConvErr ∧
    ∀ t, ie_conv e = IEth t → ie_code e = 0 →
      match ie_resp e with IRCall _ => it_creates t = false | IRCreate _ _ => it_creates t = true | IRNone => False end.

(** The logs of block [b], in order, with their places; [first] is the index of its first
    transaction. *)
Definition chain_logs (first : N) (bh : bytes) (b : iblock) : list placed_log :=
  mjoin (imap (fun i te => imap (fun j l => mkPlaced l bh (ib_height b) (it_hash te.1) (N.of_nat i + first) (N.of_nat j))
                                (e_logs te.2)) (eth_entries b)).

(** A log matches the criteria of a query. *)
Definition log_matches (c : crit) (l : eth_log) : Prop :=
  (cr_addresses c = [] ∨ el_address l ∈ cr_addresses c) ∧
  ∀ (i : nat) sub, cr_topics c !! i = Some sub →
    ∃ t, el_topics l !! i = Some t ∧ (sub = [] ∨ t ∈ sub).

(** A chain: blocks of heights 1, 2, ..., each indexable, no transaction twice. *)
Record chain (bs : list iblock) : Prop := mkChain {
  ch_heights : ∀ (i : nat) b, bs !! i = Some b → ib_height b = N.of_nat i + 1;
  ch_indexable : ∀ b, b ∈ bs → indexable b;
  ch_distinct : NoDup (bs ≫= fun b => map (fun te => it_hash te.1) (eth_entries b))
}.

(** No two headers of an index have the same hash. (Of a real hash, whose values are 32 bytes, this
    cannot be asked of all headers there are.) *)
Definition no_collisions (header_hash : header → bytes) (st : istate) : Prop :=
  ∀ n m h h', i_header st !! n = Some h → i_header st !! m = Some h' → header_hash h = header_hash h' → h = h'.
(** A chain of which no two headers, as the index makes them, have the same hash. *)
Record sound_chain (bloom_bits : bytes → list N) (header_hash : header → bytes) (bs : list iblock) : Prop := mkSound {
  sc_chain :> chain bs;
  sc_hashes : no_collisions header_hash (index_blocks bloom_bits header_hash bs)
}.
Arguments sc_chain {_ _ _} _.
