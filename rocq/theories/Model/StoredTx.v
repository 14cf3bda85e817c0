(** How the index keeps transactions and receipts: as JSON (indexer/indexer.go 108-110,
    indexer/utils.go 72-104), written when a block is indexed and read back for every answer
    (indexer/reader.go 34-86, jsonrpc/backend/tx.go 132-147, 198-222, 370-401, filters.go 10-50).
    Big numbers are the part of that which can fail: go-ethereum's hexutil.Big writes any number
    and reads only 256 bits without a sign (common/hexutil/hexutil.go EncodeBig, json.go
    Big.UnmarshalText, checkNumberText).
    Simplification: the other fields (64-bit numbers, addresses, hashes, byte strings, access
    lists, log lists, none of them nil where a value is required: x/evm/types/txutils.go 8-24,
    log.go 33-55, indexer/utils.go 18-21) are read as they were written. *)
From Verif.Base Require Import Prelude Hex.
From Verif.Model Require Import EthLog EthTx Indexer.
Open Scope N_scope.

(** big.Int.Text(16) *)
Fixpoint hex_num (k : nat) (n : N) : text :=
  match k with
  | O => []
  | S k' => if n <? 16 then [hexd false n] else hex_num k' (n / 16) ++ [hexd false (n mod 16)]
  end.
Definition hex_text (n : N) : text := hex_num (S (N.size_nat n)) n.
(** hexutil.EncodeBig *)
Definition encode_big (z : Z) : text :=
  if (z <? 0)%Z then [45; 48; 120] ++ hex_text (Z.to_N (- z)) else [48; 120] ++ hex_text (Z.to_N z).
Fixpoint hex_value (acc : N) (t : text) : option N :=
  match t with
  | [] => Some acc
  | c :: t' => match unhexd c with Some d => hex_value (acc * 16 + d) t' | None => None end
  end.
(** hexutil.Big.UnmarshalText with checkNumberText *)
Definition read_big (t : text) : option Z :=
  match t with
  | 48 :: p :: raw =>
      if (p =? 120) || (p =? 88) then
        match raw with
        | [] => None
        | c :: r =>
            if (c =? 48) && negb (bool_decide (r = [])) then None
            else if Nat.ltb 64 (length raw) then None
            else Z.of_N <$> hex_value 0 raw
        end
      else None
  | _ => None
  end.

(** An RPCTransaction as stored (jsonrpc/types/tx.go 12-36): its big numbers as texts, the rest as
    it is. [to] and the block are there or null; an empty access list comes back absent. *)
Record stored_tx := Stored { j_rest : rpc_tx; j_price : option text; j_fee : text; j_tip : text; j_value : text;
                             j_v : text; j_r : text; j_s : text; j_chain : text }.
Definition write_tx (q : rpc_tx) : stored_tx :=
  Stored q (encode_big <$> q_gas_price q) (encode_big (q_fee q)) (encode_big (q_tip q)) (encode_big (q_value q))
         (encode_big (q_v q)) (encode_big (q_r q)) (encode_big (q_s q)) (encode_big (q_chain q)).
Definition read_tx (s : stored_tx) : option rpc_tx :=
  price ← match j_price s with Some t => Some <$> read_big t | None => Some None end;
  fee ← read_big (j_fee s); tip ← read_big (j_tip s); value ← read_big (j_value s);
  v ← read_big (j_v s); r ← read_big (j_r s); s' ← read_big (j_s s); ch ← read_big (j_chain s);
  let q := j_rest s in
  Some (Rpc (q_type q) (q_gas q) price fee tip (q_input q) (q_nonce q) (q_to q) value v r s' ch
            (match q_al q with Some [] => None | al => al end) (q_yparity q) (q_block q)).

Section readers.
Variable bloom_bits : bytes → list N.
Variable header_hash : header → bytes.
(** The transaction that an entry of the index is. *)
Variable eth_of : itx → eth_tx.
Variable chain_id : Z.

(** TxMap.Get, TxReceiptMap.Get once there is an entry: can it be read? *)
Definition stored (q : rtx) : option rpc_tx :=
  new_rpc_tx (eth_of (rt_tx q)) (rt_block_hash q) (rt_number q) (rt_index q) chain_id ≫= (fun r => read_tx (write_tx r)).
Definition tx_readable (q : rtx) : bool := match stored q with Some _ => true | None => false end.
Definition receipt_readable (r : receipt) : bool :=
  match read_big (encode_big (rc_price r)) with Some _ => true | None => false end.

(** What a lookup answers: null, the object, or an error. *)
Inductive answer (A : Type) := Null | Found (x : A) | Failed.
Global Arguments Null {A}. Global Arguments Found {A} _. Global Arguments Failed {A}.
(** backend/tx.go 132-147, GetTransactionByHash *)
Definition get_tx (st : istate) (h : bytes) : answer rpc_tx :=
  match tx_by_hash st h with
  | None => Null
  | Some q => match stored q with Some r => Found r | None => Failed end
  end.
(** backend/tx.go 198-222, GetTransactionReceipt *)
Definition get_receipt (st : istate) (h : bytes) : answer (rtx * receipt) :=
  match tx_by_hash st h with
  | None => Null
  | Some q =>
      if tx_readable q then
        match receipt_by_hash st h with
        | None => Null
        | Some r => if receipt_readable r then Found (q, r) else Failed
        end
      else Failed
  end.
(** reader.go 54-65 with backend/tx.go 370-386 (getBlockTransactions, which eth_getBlockBy... and the transaction counts call too); [None]: an error *)
Definition tx_read (st : istate) (h : bytes) : option rtx :=
  match tx_by_hash st h with Some q => if tx_readable q then Some q else None | None => None end.
Definition receipt_read (st : istate) (h : bytes) : option receipt :=
  match receipt_by_hash st h with Some r => if receipt_readable r then Some r else None | None => None end.
Definition block_txs_read (st : istate) (n : N) : option (list rtx) := mapM (tx_read st) (block_hashes st n).
(** backend/filters.go 10-50 *)
Definition logs_by_height_read (st : istate) (n : N) : option (list placed_log) :=
  match header_by_number st n with
  | None => None
  | Some h =>
      match block_txs_read st n with
      | None => None
      | Some txs =>
          mjoin <$> mapM (fun t => (fun r => place_logs (rc_logs r) (header_hash h) n (it_hash (rt_tx t)) (rc_index r))
                                   <$> receipt_read st (it_hash (rt_tx t))) txs
      end
  end.
(** filter.go 173-188, 156-171, 73-135 and api.go 346-377 as in Model/Indexer.v *)
Definition block_logs_read (st : istate) (c : crit) (h : header) : option (list placed_log) :=
  if bloom_filter bloom_bits (hd_bloom h) c then filter_logs c <$> logs_by_height_read st (hd_number h) else Some [].
Fixpoint range_logs_read (st : istate) (c : crit) (b : N) (n : nat) : option (list placed_log) :=
  match n with
  | O => Some []
  | S n' =>
      match header_by_number st b with
      | None => Some []
      | Some h =>
          match block_logs_read st c h with
          | None => None
          | Some ls => (app ls) <$> range_logs_read st c (b + 1) n'
          end
      end
  end.
Definition logs_range_read (st : istate) (latest : N) (c : crit) (from to : Z) : lres :=
  match header_by_number st latest with
  | None => LLogs []
  | Some h =>
      let head := Z.of_N (hd_number h) in
      let b := resolve_bound from head in
      let e := resolve_bound to head in
      if (e <? b)%Z then LErr
      else if (head <? b)%Z then LLogs []
      else let e' := if (head <? e)%Z then head else e in
           lres_of (range_logs_read st c (Z.to_N b) (Z.to_nat (e' - b + 1)))
  end.
Definition get_logs_read (st : istate) (latest : N) (c : crit) (w : where_) : lres :=
  if Nat.ltb 4 (length (cr_topics c)) then LErr
  else match w with
  | AtHash bh =>
      if bool_decide (bh = zero_hash) then logs_range_read st latest c 0 0
      else match header_by_hash st bh with
           | None => LErr
           | Some h => lres_of (block_logs_read st c h)
           end
  | Between from to =>
      let b := default (-2)%Z from in
      let e := default (-2)%Z to in
      if ((0 <? b) && (0 <? e) && (e <? b))%Z then LErr else logs_range_read st latest c b e
  end.
End readers.
