(** Filter polling: jsonrpc/namespaces/eth/filters/api.go and subscriptions.go, fed by the
    indexer's emitters (indexer/indexer.go 142-166, abci.go 185-207, mempool.go 32-52).

    All channels are unbuffered, so a send and its receive are one step. Goroutines: one
    emitter per committed block (or pending transaction), the event loop, one listener per
    filter, the clean-up ticker, and any number of API requests. Each constructor of [fstep]
    is one uninterruptible action: a channel rendezvous, or a section under filtersMut.

    Simplifications. The clean-up goroutine uninstalls the filters it removed one after
    another; here they are uninstalled in any order. Ticks may come at any time. Filter ids
    are random (rpc.NewID); here they are fresh. Websocket subscriptions (subscriptions.go
    35-196) are not modelled. *)
From Verif.Base Require Import Prelude.
From Verif.Model Require Import EthLog Indexer.
Open Scope nat_scope.

(** What the emitters send. [FLogs []] is the marker after a block's logs (indexer.go 158-160). *)
Inductive fevent :=
  | FLogs (ls : list placed_log)
  | FHeader (hash : bytes)
  | FTx (hash : bytes).
(** What a filter's answers contain. *)
Inductive fitem := ILog (l : placed_log) | IHash (h : bytes) | ITx (h : bytes).

(** The criteria of eth_newFilter (go-ethereum FilterCriteria). *)
Record fcrit := mkFC {
  fc_hash : option bytes;      (* BlockHash *)
  fc_from : option Z; fc_to : option Z;
  fc_crit : crit }.
Inductive kind := KLogs (c : fcrit) | KBlocks | KTxHashes | KTxs.

(** filter.go 190-222 with block bounds *)
Definition in_bounds (c : fcrit) (l : placed_log) : bool :=
  match fc_from c with Some f => negb ((0 <=? f)%Z && (Z.of_N (pl_number l) <? f)%Z) | None => true end &&
  match fc_to c with Some t => negb ((0 <=? t)%Z && (t <? Z.of_N (pl_number l))%Z) | None => true end.
Definition fwanted (c : fcrit) (l : placed_log) : bool := in_bounds c l && check_log (fc_crit c) (pl_log l).

(** api.go 275-300: which criteria NewFilter accepts; -2 is rpc.LatestBlockNumber. *)
Definition latest : Z := (-2)%Z.
Definition new_filter_ok (c : fcrit) : bool :=
  (length (cr_topics (fc_crit c)) <=? 4) &&
  (let from := default latest (fc_from c) in
   let to := default latest (fc_to c) in
   ((from =? latest)%Z && (to =? latest)%Z) || ((0 <=? from)%Z && (0 <=? to)%Z && (from <=? to)%Z) || ((0 <=? from)%Z && (to =? latest)%Z)).

(** api.go 122-149: which subscriptions the loop hands an event to *)
Definition wants (k : kind) (e : fevent) : bool :=
  match e, k with
  | FLogs (_ :: _), KLogs _ => true
  | FHeader _, KBlocks => true
  | FTx _, (KTxHashes | KTxs) => true
  | _, _ => false
  end.
(** What the listener appends (api.go 196-213, 249-263, 326-340) *)
Definition select (k : kind) (e : fevent) : list fitem :=
  match k, e with
  | KLogs c, FLogs ls => ILog <$> List.filter (fwanted c) ls
  | KBlocks, FHeader h => [IHash h]
  | KTxHashes, FTx h => [IHash h]
  | KTxs, FTx h => [ITx h]
  | _, _ => []
  end.

Definition fid := nat.
Record filt := mkFilt { fl_kind : kind; fl_used : option N; fl_buf : list fitem }.
(** How far a creation call has come: before the loop took the subscription, after it,
    and after the filter was put in api.filters. *)
Inductive creating := CInstall (k : kind) | CInstalled (k : kind) | CRegistered.
(** The filter's goroutine. *)
Inductive listener := Listening | Holding (e : fevent).

Record fstate := mkF {
  f_now : N;                            (* the clock *)
  f_emit : list (list fevent);          (* emitters: what each has still to send *)
  f_loop : option (fevent * list fid);  (* the loop is handing an event to these *)
  f_subs : gmap fid kind;               (* api.subscriptions *)
  f_filters : gmap fid filt;            (* api.filters *)
  f_create : gmap fid creating;
  f_gor : gmap fid listener;
  f_uninst : gset fid;                  (* uninstallSubscription in progress *)
  f_closed : gset fid;                  (* s.err closed *)
  f_used : gset fid;                    (* ids given out so far *)
  (* history *)
  f_taken : list (nat * fevent);        (* events the loop took, with their emitter *)
  f_start : gmap fid nat;               (* how many it had taken when the filter was installed *)
  f_answers : gmap fid (list (list fitem));  (* answers of eth_getFilterChanges *)
  f_active : gmap fid N                 (* time of the filter's creation or last poll *)
}.
Definition f_init : fstate := mkF 0 [] None ∅ ∅ ∅ ∅ ∅ ∅ ∅ [] ∅ ∅ ∅.

Definition rest (e : fevent) (r : list fid) : option (fevent * list fid) :=
  match r with [] => None | _ => Some (e, r) end.
(** time.Since(lastUsed) > timeout; a zero lastUsed is centuries ago *)
Definition expired (timeout now : N) (f : filt) : bool :=
  match fl_used f with None => true | Some u => (timeout <? now - u)%N end.

(** A label for the steps of the environment: requests from clients, blocks, the clock. *)
Inductive who := Inside | Client.

Section steps.
Variable timeout : N.

Inductive fstep : who → fstate → fstate → Prop :=
  (* abci.go 197-198, mempool.go 44-49: a new emitter *)
  | S_emit s es :
      fstep Client s (mkF (f_now s) (f_emit s ++ [es]) (f_loop s) (f_subs s) (f_filters s) (f_create s) (f_gor s)
        (f_uninst s) (f_closed s) (f_used s) (f_taken s) (f_start s) (f_answers s) (f_active s))
  | S_clock s t : (f_now s <= t)%N →
      fstep Client s (mkF t (f_emit s) (f_loop s) (f_subs s) (f_filters s) (f_create s) (f_gor s)
        (f_uninst s) (f_closed s) (f_used s) (f_taken s) (f_start s) (f_answers s) (f_active s))
  (* api.go 123-149: the idle loop takes an event; the map is walked in any order *)
  | S_take s i e es ids : f_loop s = None → f_emit s !! i = Some (e :: es) →
      NoDup ids → (∀ id, id ∈ ids ↔ ∃ k, f_subs s !! id = Some k ∧ wants k e = true) →
      fstep Inside s (mkF (f_now s) (<[i := es]> (f_emit s)) (rest e ids) (f_subs s) (f_filters s) (f_create s) (f_gor s)
        (f_uninst s) (f_closed s) (f_used s) (f_taken s ++ [(i, e)]) (f_start s) (f_answers s) (f_active s))
  (* the filter's goroutine receives (api.go 198-209, 251, 328) *)
  | S_deliver s e id r : f_loop s = Some (e, id :: r) → f_gor s !! id = Some Listening →
      fstep Inside s (mkF (f_now s) (f_emit s) (rest e r) (f_subs s) (f_filters s) (f_create s) (<[id := Holding e]> (f_gor s))
        (f_uninst s) (f_closed s) (f_used s) (f_taken s) (f_start s) (f_answers s) (f_active s))
  (* or uninstallSubscription does (subscriptions.go 213-217) *)
  | S_drain s e id r : f_loop s = Some (e, id :: r) → id ∈ f_uninst s →
      fstep Inside s (mkF (f_now s) (f_emit s) (rest e r) (f_subs s) (f_filters s) (f_create s) (f_gor s)
        (f_uninst s) (f_closed s) (f_used s) (f_taken s) (f_start s) (f_answers s) (f_active s))
  (* api.go 199-203, 252-256, 329-334 *)
  | S_append s e id f : f_gor s !! id = Some (Holding e) → f_filters s !! id = Some f →
      fstep Inside s (mkF (f_now s) (f_emit s) (f_loop s) (f_subs s)
        (<[id := mkFilt (fl_kind f) (fl_used f) (fl_buf f ++ select (fl_kind f) e)]> (f_filters s)) (f_create s) (<[id := Listening]> (f_gor s))
        (f_uninst s) (f_closed s) (f_used s) (f_taken s) (f_start s) (f_answers s) (f_active s))
  | S_append_gone s e id : f_gor s !! id = Some (Holding e) → f_filters s !! id = None →
      fstep Inside s (mkF (f_now s) (f_emit s) (f_loop s) (f_subs s) (f_filters s) (f_create s) (<[id := Listening]> (f_gor s))
        (f_uninst s) (f_closed s) (f_used s) (f_taken s) (f_start s) (f_answers s) (f_active s))
  (* api.go 210, 257, 335 *)
  | S_stop s id : f_gor s !! id = Some Listening → id ∈ f_closed s →
      fstep Inside s (mkF (f_now s) (f_emit s) (f_loop s) (f_subs s) (f_filters s) (f_create s) (delete id (f_gor s))
        (f_uninst s) (f_closed s) (f_used s) (f_taken s) (f_start s) (f_answers s) (f_active s))
  (* a creation call, its subscription ready to be installed *)
  | S_new s id k : id ∉ f_used s → match k with KLogs c => new_filter_ok c = true | _ => True end →
      fstep Client s (mkF (f_now s) (f_emit s) (f_loop s) (f_subs s) (f_filters s) (<[id := CInstall k]> (f_create s)) (f_gor s)
        (f_uninst s) (f_closed s) ({[id]} ∪ f_used s) (f_taken s) (f_start s) (f_answers s) (f_active s))
  (* api.go 151-153, subscriptions.go 198-201 *)
  | S_install s id k : f_loop s = None → f_create s !! id = Some (CInstall k) →
      fstep Inside s (mkF (f_now s) (f_emit s) (f_loop s) (<[id := k]> (f_subs s)) (f_filters s) (<[id := CInstalled k]> (f_create s)) (f_gor s)
        (f_uninst s) (f_closed s) (f_used s) (f_taken s) (<[id := length (f_taken s)]> (f_start s)) (f_answers s) (f_active s))
  (* api.go 186-192, 241-246, 318-324: only log filters get lastUsed *)
  | S_register s id k : f_create s !! id = Some (CInstalled k) →
      fstep Inside s (mkF (f_now s) (f_emit s) (f_loop s) (f_subs s)
        (<[id := mkFilt k (match k with KLogs _ => Some (f_now s) | _ => None end) []]> (f_filters s)) (<[id := CRegistered]> (f_create s)) (f_gor s)
        (f_uninst s) (f_closed s) (f_used s) (f_taken s) (f_start s) (f_answers s) (<[id := f_now s]> (f_active s)))
  (* api.go 194, 248, 326: the goroutine starts and the call returns *)
  | S_return s id : f_create s !! id = Some CRegistered →
      fstep Inside s (mkF (f_now s) (f_emit s) (f_loop s) (f_subs s) (f_filters s) (delete id (f_create s)) (<[id := Listening]> (f_gor s))
        (f_uninst s) (f_closed s) (f_used s) (f_taken s) (f_start s) (f_answers s) (f_active s))
  (* GetFilterChanges, api.go 437-474 *)
  | S_poll s id f : f_filters s !! id = Some f →
      fstep Client s (mkF (f_now s) (f_emit s) (f_loop s) (f_subs s)
        (<[id := mkFilt (fl_kind f) (Some (f_now s)) []]> (f_filters s)) (f_create s) (f_gor s)
        (f_uninst s) (f_closed s) (f_used s) (f_taken s) (f_start s)
        (<[id := default [] (f_answers s !! id) ++ [fl_buf f]]> (f_answers s)) (<[id := f_now s]> (f_active s)))
  (* UninstallFilter, api.go 376-388 *)
  | S_uninstall s id f : f_filters s !! id = Some f →
      fstep Client s (mkF (f_now s) (f_emit s) (f_loop s) (f_subs s) (delete id (f_filters s)) (f_create s) (f_gor s)
        ({[id]} ∪ f_uninst s) (f_closed s) (f_used s) (f_taken s) (f_start s) (f_answers s) (f_active s))
  (* one tick of clearUnusedFilters, api.go 100-108 *)
  | S_tick s :
      fstep Client s (mkF (f_now s) (f_emit s) (f_loop s) (f_subs s)
        (filter (λ p : fid * filt, expired timeout (f_now s) p.2 = false) (f_filters s)) (f_create s) (f_gor s)
        (dom (filter (λ p : fid * filt, expired timeout (f_now s) p.2 = true) (f_filters s)) ∪ f_uninst s) (f_closed s) (f_used s)
        (f_taken s) (f_start s) (f_answers s) (f_active s))
  (* api.go 154-156, subscriptions.go 212-225 *)
  | S_uninstalled s id : f_loop s = None → id ∈ f_uninst s →
      fstep Inside s (mkF (f_now s) (f_emit s) (f_loop s) (delete id (f_subs s)) (f_filters s) (f_create s) (f_gor s)
        (f_uninst s ∖ {[id]}) ({[id]} ∪ f_closed s) (f_used s) (f_taken s) (f_start s) (f_answers s) (f_active s)).

Inductive freach : fstate → Prop :=
  | FR_init : freach f_init
  | FR_step w s s' : freach s → fstep w s s' → freach s'.
(** Later states; [inside]: without help from clients. *)
Inductive fsteps (inside : bool) : fstate → fstate → Prop :=
  | FS_refl s : fsteps inside s s
  | FS_step w s s' s'' : fstep w s s' → (inside = true → w = Inside) → fsteps inside s' s'' → fsteps inside s s''.
End steps.

(** indexer.go 153-163: what the emitter of a block sends *)
Definition block_events (logs : list (list placed_log)) (hash : bytes) : list fevent :=
  (FLogs <$> logs) ++ [FLogs []; FHeader hash].
(** GetFilterChanges's answer *)
Definition poll_answer (s : fstate) (id : fid) : option (list fitem) := fl_buf <$> f_filters s !! id.
