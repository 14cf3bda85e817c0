(** eth_feeHistory: jsonrpc/backend/feehistory.go.

    Simplifications: reward percentiles are rationals (every finite float64 is one; JSON has
    no NaN); a gas ratio is kept as the pair (used, limit) whose float quotient the code returns;
    the float product gasUsed*p/100 truncated to uint64 is a parameter [fe_threshold]; lookups in
    the index do not fail other than by "not found"; a block's transactions and receipts are
    stored together (indexer/abci.go 41-118), so they are a list of pairs; the blob columns,
    always zero, are left out. *)
From Verif.Base Require Import Prelude.
From Coq Require Export QArith_base.
Open Scope N_scope.

(** The part of an indexed header the computation reads (indexer/abci.go 119-130). *)
Record fhead := FHead { fh_number : N; fh_base : N; fh_used : N; fh_limit : N }.
(** What the index holds for a block: the header, and for each transaction its effective tip
    (tx.EffectiveGasTip, may be negative) and the gas used of its receipt. *)
Record fblock := FBlock { fb_head : fhead; fb_txs : list (Z * N) }.
(** Configuration (jsonrpc/config/config.go 103-106) and the float threshold
    (feehistory.go 283: uint64(float64(GasUsed) * p / 100)). *)
Record fenv := FEnv { fe_max_headers : N; fe_max_blocks : N; fe_threshold : N → Q → N }.
(** The node: height reported by its status, and the index. *)
Record fnode := FNode { fn_height : N; fn_index : gmap N fblock }.

(** jsonrpc/backend/block.go 47-60 resolveBlockNr. *)
Definition resolve_nr (nd : fnode) (b : Z) : N :=
  if (b <? 0)%Z then fn_height nd else if (b =? 0)%Z then 1 else Z.to_N b.
(** jsonrpc/backend/block.go 62-81 GetHeaderByNumber: a missing header is not an error. *)
Definition header_by_number (nd : fnode) (b : Z) : option fhead :=
  fb_head <$> fn_index nd !! resolve_nr nd b.

(** go-ethereum consensus/misc/eip1559 CalcBaseFee with London active from block 0
    (x/evm/types/chain_config.go 51), elasticity 2, change denominator 8. *)
Definition calc_base_fee (h : fhead) : N :=
  let target := fh_limit h / 2 in
  if fh_used h =? target then fh_base h
  else if target <? fh_used h
  then fh_base h + N.max 1 (fh_base h * (fh_used h - target) / target / 8)
  else fh_base h - fh_base h * (target - fh_used h) / target / 8.

(** feehistory.go 45-51 processedFees. *)
Record fres := FRes { fr_reward : option (list Z); fr_base : N; fr_next : N; fr_ratio : N * N }.

(** slices.SortStableFunc by reward (feehistory.go 273-275): insertion sort that keeps equal
    rewards in order. *)
Fixpoint ins_reward (x : Z * N) (l : list (Z * N)) : list (Z * N) :=
  match l with
  | [] => [x]
  | y :: l' => if (fst x <=? fst y)%Z then x :: y :: l' else y :: ins_reward x l'
  end.
Fixpoint sort_rewards (l : list (Z * N)) : list (Z * N) :=
  match l with [] => [] | x :: l' => ins_reward x (sort_rewards l') end.

(** The inner loop (feehistory.go 284-287): [cur] is sorter[txIndex], [rest] what follows it. *)
Fixpoint advance (t : N) (sum : N) (cur : Z) (rest : list (Z * N)) : N * Z * list (Z * N) :=
  match rest with
  | [] => (sum, cur, [])
  | (r, g) :: rest' => if sum <? t then advance t (u64_add sum g) r rest' else (sum, cur, rest)
  end.
(** The outer loop over the percentiles (feehistory.go 282-289). *)
Fixpoint pick_rewards (thr : Q → N) (ps : list Q) (sum : N) (cur : Z) (rest : list (Z * N)) : list Z :=
  match ps with
  | [] => []
  | p :: ps' =>
    let '(sum', cur', rest') := advance (thr p) sum cur rest in
    cur' :: pick_rewards thr ps' sum' cur' rest'
  end.
(** feehistory.go 225-290 processBlock. *)
Definition process_block (e : fenv) (h : fhead) (txs : list (Z * N)) (ps : list Q) : fres :=
  FRes
    match ps with
    | [] => None
    | _ => Some match sort_rewards txs with
                | [] => (λ _, 0%Z) <$> ps
                | (r, g) :: rest => pick_rewards (fe_threshold e (fh_used h)) ps g r rest
                end
    end
    (fh_base h) (calc_base_fee h) (fh_used h, fh_limit h).

(** What a fetcher finds for a block number (feehistory.go 134-152). The header is looked up by
    the tag-resolving function (block 0 becomes block 1); transactions and receipts by the raw
    number (jsonrpc/backend/tx.go 370-404). *)
Definition fetch (e : fenv) (nd : fnode) (n : N) (ps : list Q) : option fres :=
  h ← header_by_number nd (Z.of_N n);
  Some (process_block e h match fn_index nd !! n with Some b => fb_txs b | None => [] end ps).

(** The cache of processed blocks (feehistory.go 131-133, 148), keyed by number and percentiles. *)
Notation fcache := (gmap (N * list (Z * positive)) fres).
Definition qkey (p : Q) : Z * positive := (Qnum p, Qden p).
Definition fkey (n : N) (ps : list Q) : N * list (Z * positive) := (n, qkey <$> ps).
Definition fetch_cached (e : fenv) (nd : fnode) (c : fcache) (n : N) (ps : list Q) : option fres * fcache :=
  match c !! fkey n ps with
  | Some r => (Some r, c)
  | None => let r := fetch e nd n ps in
            (r, match r with Some x => <[fkey n ps := x]> c | None => c end)
  end.

(** Errors (feehistory.go 86, 94, 97, 200) and the nil dereference of a missing head header
    (feehistory.go 196). *)
Inductive ferr := EPercentile | EBeyondHead.
Inductive frange := RErr (e : ferr) | RPanic | RRange (last blocks : N).

(** feehistory.go 186-223 resolveBlockRange. *)
Definition resolve_block_range (nd : fnode) (reqEnd : Z) (blocks : N) : frange :=
  match header_by_number nd (-2) with
  | None => RPanic
  | Some hd =>
    let head := Z.of_N (fh_number hd) in
    if (head <? reqEnd)%Z then RErr EBeyondHead
    else
      let reqEnd := if (reqEnd <? 0)%Z then head else reqEnd in
      if blocks =? 0 then RRange 0 0
      else
        let blocks := if (reqEnd + 1 <? Z.of_N blocks)%Z then Z.to_N (reqEnd + 1) else blocks in
        RRange (Z.to_N reqEnd) blocks
  end.

(** feehistory.go 92-99. *)
Fixpoint percentiles_ok (prev : option Q) (ps : list Q) : bool :=
  match ps with
  | [] => true
  | p :: ps' =>
    Qle_bool 0 p && Qle_bool p 100 &&
    match prev with Some q => negb (Qle_bool p q) | None => true end &&
    percentiles_ok (Some p) ps'
  end.

(** feehistory.go 79-105, up to the resolved range. *)
Definition plan (e : fenv) (nd : fnode) (blocks : N) (reqEnd : Z) (ps : list Q) : frange :=
  if blocks <? 1 then RRange 0 0
  else
    let cap := match ps with [] => fe_max_headers e | _ => fe_max_blocks e end in
    if (100 <? length ps)%nat then RErr EPercentile
    else
      let blocks := if cap <? blocks then cap else blocks in
      if negb (percentiles_ok None ps) then RErr EPercentile
      else resolve_block_range nd reqEnd blocks.

(** The arrays being filled (feehistory.go 158-165). *)
Record frows := FRows {
  w_reward : list (option (list Z)); w_base : list (option N);
  w_ratio : list (option (N * N)); w_missing : nat }.
Definition rows0 (blocks : nat) : frows :=
  FRows (replicate blocks None) (replicate (S blocks) None) (replicate blocks None) blocks.
(** One result received (feehistory.go 166-180). *)
Definition receive (w : frows) (i : nat) (r : option fres) : frows :=
  match r with
  | Some r =>
    FRows (<[i := fr_reward r]> (w_reward w))
      (<[S i := Some (fr_next r)]> (<[i := Some (fr_base r)]> (w_base w)))
      (<[i := Some (fr_ratio r)]> (w_ratio w)) (w_missing w)
  | None => FRows (w_reward w) (w_base w) (w_ratio w) (Nat.min i (w_missing w))
  end.

(** The answer: an error, a crashed handler, or the oldest block and the columns.
    [FEmpty] is the answer without columns (feehistory.go 80-82, 101-103, 181-183). *)
Inductive fanswer :=
  | FError (e : ferr) | FCrash | FEmpty
  | FHistory (oldest : N) (reward : option (list (option (list Z)))) (base : list (option N))
             (ratio : list (option (N * N))).
(** feehistory.go 181-192. *)
Definition finish (oldest : N) (ps : list Q) (w : frows) : fanswer :=
  match w_missing w with
  | O => FEmpty
  | m => FHistory oldest
           match ps with [] => None | _ => Some (take m (w_reward w)) end
           (take (S m) (w_base w)) (take m (w_ratio w))
  end.

(** ** The fetchers (feehistory.go 117-156)

    At most four goroutines (and at most as many as blocks) take block numbers from a counter and
    send one result each; the request loop receives [blocks] results. [fl_busy] holds the numbers
    taken and not yet sent. The block index may grow while the request runs; the node a fetcher
    reads is the node of the moment it reads. *)
Record fstage := FStage {
  fs_next : N; fs_busy : list N; fs_rows : frows; fs_cache : fcache; fs_left : nat }.
Definition workers (blocks : N) : nat := Nat.min 4 (N.to_nat blocks).

(** The index holds a block under its own number, starting with block 1 (indexer/abci.go 119-122,
    187), and never one the node has not reached. *)
Definition fnode_ok (nd : fnode) : Prop :=
  ∀ n b, fn_index nd !! n = Some b → fh_number (fb_head b) = n ∧ 1 <= n ∧ n <= fn_height nd.
(** Growth of the index: blocks are added, never changed (indexer/abci.go 187), and the height
    does not go back. *)
Definition grows (nd nd' : fnode) : Prop :=
  fnode_ok nd' ∧ fn_height nd <= fn_height nd' ∧ fn_index nd ⊆ fn_index nd'.

Inductive fstep (e : fenv) (ps : list Q) (oldest last : N) (W : nat) :
    fnode * fstage → fnode * fstage → Prop :=
  | FS_take nd s :
      (length (fs_busy s) < W)%nat → fs_next s <= last →
      fstep e ps oldest last W (nd, s)
        (nd, FStage (fs_next s + 1) (fs_next s :: fs_busy s) (fs_rows s) (fs_cache s) (fs_left s))
  | FS_result nd s n busy1 busy2 left :
      fs_busy s = busy1 ++ n :: busy2 → fs_left s = S left →
      fstep e ps oldest last W (nd, s)
        (nd, FStage (fs_next s) (busy1 ++ busy2)
           (receive (fs_rows s) (N.to_nat (n - oldest)) (fst (fetch_cached e nd (fs_cache s) n ps)))
           (snd (fetch_cached e nd (fs_cache s) n ps)) left)
  | FS_grow nd nd' s : grows nd nd' → fstep e ps oldest last W (nd, s) (nd', s)
  (* a fetcher of another request, with its own percentiles, shares the cache *)
  | FS_other nd s n ps' :
      fstep e ps oldest last W (nd, s)
        (nd, FStage (fs_next s) (fs_busy s) (fs_rows s)
           (snd (fetch_cached e nd (fs_cache s) n ps')) (fs_left s))
  | FS_evict nd s c : c ⊆ fs_cache s →
      fstep e ps oldest last W (nd, s)
        (nd, FStage (fs_next s) (fs_busy s) (fs_rows s) c (fs_left s)).

(** A whole request: the plan is made on the node at the start; then any schedule of the fetchers
    until all results are in. *)
Inductive fee_history (e : fenv) (blocks : N) (reqEnd : Z) (ps : list Q) :
    fnode * fcache → fanswer → fnode * fcache → Prop :=
  | FH_err nd c x : plan e nd blocks reqEnd ps = RErr x →
      fee_history e blocks reqEnd ps (nd, c) (FError x) (nd, c)
  | FH_panic nd c : plan e nd blocks reqEnd ps = RPanic →
      fee_history e blocks reqEnd ps (nd, c) FCrash (nd, c)
  | FH_empty nd c last : plan e nd blocks reqEnd ps = RRange last 0 →
      fee_history e blocks reqEnd ps (nd, c) FEmpty (nd, c)
  | FH_run nd c last n nd' s' :
      plan e nd blocks reqEnd ps = RRange last n → 0 < n →
      rtc (fstep e ps (last + 1 - n) last (workers n))
        (nd, FStage (last + 1 - n) [] (rows0 (N.to_nat n)) c (N.to_nat n)) (nd', s') →
      fs_left s' = 0%nat →
      fee_history e blocks reqEnd ps (nd, c) (finish (last + 1 - n) ps (fs_rows s')) (nd', fs_cache s').

(** A node's life: requests, growth of the index, evictions from the cache. *)
Inductive fnode_reach (e : fenv) : fnode * fcache → Prop :=
  | FN_start nd : fnode_ok nd → fnode_reach e (nd, ∅)
  | FN_grow nd nd' c : fnode_reach e (nd, c) → grows nd nd' → fnode_reach e (nd', c)
  | FN_evict nd c c' : fnode_reach e (nd, c) → c' ⊆ c → fnode_reach e (nd, c')
  | FN_request nd c blocks reqEnd ps a nd' c' :
      fnode_reach e (nd, c) → fee_history e blocks reqEnd ps (nd, c) a (nd', c') →
      fnode_reach e (nd', c').
