(** x/evm/state/statedb.go: the EVM state database on top of the Cosmos stores.

    All stores the StateDB touches are one multistore, indexed by a typed key. A Go panic
    is [None]. *)
From Verif.Base Require Import Prelude Layers.
From Verif.Model Require Import Snapshots.

(** ** Keys of the VM store (x/evm/state/keys.go:9-13) *)
Definition code_prefix : bytes := [99; 111; 100; 101]%N.                          (* "code" *)
Definition codesize_prefix : bytes := [99; 111; 100; 101; 115; 105; 122; 101]%N.  (* "codesize" *)
Definition state_prefix : bytes := [115; 116; 97; 116; 101]%N.                    (* "state" *)
(** keys.go:15-17 *)
Definition code_key (addr codehash : bytes) : bytes := addr ++ code_prefix ++ codehash.
(** keys.go:19-21 *)
Definition codesize_key (addr codehash : bytes) : bytes := addr ++ codesize_prefix ++ codehash.
(** keys.go:23-25 *)
Definition state_key (addr slot : bytes) : bytes := addr ++ state_prefix ++ slot.
(** keys.go:27-29 *)
Definition state_key_prefix (addr : bytes) : bytes := addr ++ state_prefix.

(** ** Accounts (cosmos x/auth accounts plus x/evm/types/auth.go) *)
Inductive acc_kind :=
| ABase                          (* BaseAccount (or any other externally owned account) *)
| AContract (codehash : bytes)   (* ContractAccount, types/auth.go:25-30 *)
| AModule                        (* ModuleAccountI *)
| AShorthand (origin : bytes).   (* ShorthandAccount, types/auth.go:43-54 *)
Record account := Account {
  ac_kind : acc_kind;
  ac_num : N;          (* account number *)
  ac_seq : N;          (* sequence = EVM nonce, uint64 *)
  ac_pub : option bytes }.

(** IsEmptyAccount (types/auth.go:66-72) *)
Definition is_empty_account (a : account) : bool :=
  match ac_kind a with
  | ABase => match ac_pub a with None => (ac_seq a =? 0)%N | Some _ => false end
  | _ => false
  end.

Record log := Log { lg_addr : bytes; lg_topics : list bytes; lg_data : bytes }.

(** ** Stores.  The account keeper's accounts and next account number; the VM store
    (statedb.go:42); the transient stores (statedb.go:43-49), whose keys are pairs with the
    execution index; the fee token's balances and supply (they live in the VM store as the
    storage of the fee ERC-20 contract; the contract's storage layout is abstracted). *)
Inductive key :=
| KAcc (a : bytes)
| KNextNum
| KVm (k : bytes)
| KTVm (e : N) (k : bytes)
| KCreated (e : N) (a : bytes)
| KDestruct (e : N) (a : bytes)
| KLog (e : N) (i : N)
| KLogSize (e : N)
| KAccess (e : N) (k : bytes)
| KRefund (e : N)
| KBal (a : bytes)
| KSupply.

Inductive val :=
| VAcc (a : account)
| VNum (n : N)
| VBytes (b : bytes)
| VUnit
| VLog (l : log).

Global Instance key_eq_dec : EqDecision key.
Proof. solve_decision. Defined.
Definition key_code (k : key) : nat * (N * (N * bytes)) :=
  match k with
  | KAcc a => (0, (0%N, (0%N, a)))
  | KNextNum => (1, (0%N, (0%N, [])))
  | KVm b => (2, (0%N, (0%N, b)))
  | KTVm e b => (3, (e, (0%N, b)))
  | KCreated e b => (4, (e, (0%N, b)))
  | KDestruct e b => (5, (e, (0%N, b)))
  | KLog e i => (6, (e, (i, [])))
  | KLogSize e => (7, (e, (0%N, [])))
  | KAccess e b => (8, (e, (0%N, b)))
  | KRefund e => (9, (e, (0%N, [])))
  | KBal a => (10, (0%N, (0%N, a)))
  | KSupply => (11, (0%N, (0%N, [])))
  end.
Definition key_decode (c : nat * (N * (N * bytes))) : key :=
  match c with
  | (0, (_, (_, a))) => KAcc a
  | (1, _) => KNextNum
  | (2, (_, (_, b))) => KVm b
  | (3, (e, (_, b))) => KTVm e b
  | (4, (e, (_, b))) => KCreated e b
  | (5, (e, (_, b))) => KDestruct e b
  | (6, (e, (i, _))) => KLog e i
  | (7, (e, _)) => KLogSize e
  | (8, (e, (_, b))) => KAccess e b
  | (9, (e, _)) => KRefund e
  | (10, (_, (_, a))) => KBal a
  | (_, _) => KSupply
  end.
Global Instance key_countable : Countable key.
Proof. refine (inj_countable' key_code key_decode _). intros []; reflexivity. Defined.

Notation db := (sdb key val).
Notation world := (gmap key val).

(** Typed reads. A value of another type under a key is a decoding error, which cannot
    happen because each key is only ever written with its own type; it is read as absent. *)
Definition get_acc (w : world) (a : bytes) : option account :=
  match w !! KAcc a with Some (VAcc x) => Some x | _ => None end.
Definition get_vm (w : world) (k : bytes) : option bytes :=
  match w !! KVm k with Some (VBytes x) => Some x | _ => None end.
Definition get_num (w : world) (k : key) : option N :=
  match w !! k with Some (VNum n) => Some n | _ => None end.
Definition get_log (w : world) (k : key) : option log :=
  match w !! k with Some (VLog l) => Some l | _ => None end.
Definition has_key (w : world) (k : key) : bool :=
  match w !! k with Some _ => true | None => false end.

Definition vw (s : db) : world := db_view s.
Definition put (s : db) (k : key) (v : val) : db := db_put s k (Some v).
Definition del (s : db) (k : key) : db := db_put s k None.

(** AccountKeeper.NextAccountNumber (cosmos x/auth): returns the counter and increments it. *)
Definition next_acc_num (s : db) : db * N :=
  let n := default 0%N (get_num (vw s) KNextNum) in
  (put s KNextNum (VNum (n + 1)%N), n).
(** AccountKeeper.NewAccountWithAddress: a base account with the next account number. *)
Definition new_account (s : db) (a : bytes) : db * account :=
  let '(s', n) := next_acc_num s in (s', Account ABase n 0%N None).
Definition set_account (s : db) (a : bytes) (x : account) : db := put s (KAcc a) (VAcc x).

(** ** NewStateDB (statedb.go:63-119): reset of log size and refund counter of the new
    execution index [e]. *)
Definition init_exec (e : N) (s : db) : db :=
  put (put s (KLogSize e) (VNum 0%N)) (KRefund e) (VNum 0%N).

(** ** Refund counter *)
(** AddRefund (statedb.go:188-198) *)
Definition add_refund (e : N) (s : db) (gas : N) : option db :=
  match get_num (vw s) (KRefund e) with
  | None => None
  | Some r => Some (put s (KRefund e) (VNum (u64_add r gas)))
  end.
(** SubRefund (statedb.go:201-215) *)
Definition sub_refund (e : N) (s : db) (gas : N) : option db :=
  match get_num (vw s) (KRefund e) with
  | None => None
  | Some r => if (r <? gas)%N then None else Some (put s (KRefund e) (VNum (r - gas)%N))
  end.
(** GetRefund (statedb.go:453-460) *)
Definition get_refund (e : N) (s : db) : option N := get_num (vw s) (KRefund e).

(** ** Access list (statedb.go:218-263) *)
Definition add_address_al (e : N) (s : db) (a : bytes) : db := put s (KAccess e a) VUnit.
Definition address_in_al (e : N) (s : db) (a : bytes) : bool := has_key (vw s) (KAccess e a).
Definition add_slot_al (e : N) (s : db) (a slot : bytes) : db :=
  let s1 := if address_in_al e s a then s else add_address_al e s a in
  put s1 (KAccess e (a ++ slot)) VUnit.
Definition slot_in_al (e : N) (s : db) (a slot : bytes) : bool * bool :=
  if has_key (vw s) (KAccess e a)
  then (true, has_key (vw s) (KAccess e (a ++ slot)))
  else (false, false).
(** Prepare (statedb.go:605-627); Berlin and Shanghai rules are both active in
    DefaultChainConfig (x/evm/types/chain_config.go). *)
Definition prepare (e : N) (s : db) (sender coinbase : bytes) (dst : option bytes)
    (precompiles : list bytes) (al : list (bytes * list bytes)) : db :=
  let s1 := add_address_al e s sender in
  let s2 := match dst with Some d => add_address_al e s1 d | None => s1 end in
  let s3 := fold_left (add_address_al e) precompiles s2 in
  let s4 := fold_left (fun s el =>
              fold_left (fun s k => add_slot_al e s (fst el) k) (snd el)
                (add_address_al e s (fst el))) al s3 in
  add_address_al e s4 coinbase.

(** ** Logs *)
(** AddLog (statedb.go:661-676); logSize+1 on uint64 *)
Definition add_log (e : N) (s : db) (l : log) : option db :=
  match get_num (vw s) (KLogSize e) with
  | None => None
  | Some n => Some (put (put s (KLogSize e) (VNum (u64_add n 1%N))) (KLog e n) (VLog l))
  end.
(** Logs (statedb.go:678-696): a slice of [logSize] entries filled by walking the store.
    An entry that is missing from the store stays the zero log. *)
Definition zero_log : log := Log [] [] [].
Definition logs (e : N) (s : db) : option (list log) :=
  match get_num (vw s) (KLogSize e) with
  | None => None
  | Some n => Some (map (fun i => default zero_log (get_log (vw s) (KLog e (N.of_nat i))))
                        (seq 0 (N.to_nat n)))
  end.

(** ** Fee token. AddBalance/SubBalance/GetBalance (statedb.go:122-185) run the fee ERC-20
    contract through the EVM: a nested EVM.Call/StaticCall, which takes a snapshot of its
    own (go-ethereum), then sudoMint/sudoBurn/balanceOf of
    x/evm/contracts/erc20/ERC20.sol (checked 256-bit arithmetic, a Transfer log).  A failing
    call panics. [fee_log] is the Transfer event the contract emits. The registration of
    the recipient in the ERC-20 registry is modelled in Model/Registry.v. *)
Section fee.
Variable fee_log : bytes -> bytes -> N -> log.
Definition addr0 : bytes := replicate 20 0%N.
Definition two256 : N := (2 ^ 256)%N.
Definition bal (w : world) (a : bytes) : N := default 0%N (get_num w (KBal a)).
Definition supply (w : world) : N := default 0%N (get_num w KSupply).

Definition add_balance (e : N) (s : db) (a : bytes) (amt : N) : option db :=
  if (amt =? 0)%N then Some s else
  let s1 := fst (snapshot s) in
  let b := bal (vw s1) a in let t := supply (vw s1) in
  if (two256 <=? b + amt)%N || (two256 <=? t + amt)%N then None
  else add_log e (put (put s1 (KBal a) (VNum (b + amt)%N)) KSupply (VNum (t + amt)%N))
               (fee_log addr0 a amt).
Definition sub_balance (e : N) (s : db) (a : bytes) (amt : N) : option db :=
  if (amt =? 0)%N then Some s else
  let s1 := fst (snapshot s) in
  let b := bal (vw s1) a in let t := supply (vw s1) in
  if (b <? amt)%N || (t <? amt)%N then None
  else add_log e (put (put s1 (KBal a) (VNum (b - amt)%N)) KSupply (VNum (t - amt)%N))
               (fee_log a addr0 amt).
Definition get_balance (s : db) (a : bytes) : db * N :=
  let s1 := fst (snapshot s) in (s1, bal (vw s1) a).

(** ** Accounts *)
(** CreateAccount (statedb.go:266-269) *)
Definition create_account (s : db) (a : bytes) : db :=
  let '(s', x) := new_account s a in set_account s' a x.
(** CreateContract (statedb.go:272-303) *)
Definition create_contract (e : N) (s : db) (a : bytes) : option db :=
  let s1 := put s (KCreated e a) VUnit in
  match get_acc (vw s1) a with
  | Some x =>
      if is_empty_account x
      then Some (set_account s1 a (Account (AContract []) (ac_num x) 0%N None))
      else None
  | None =>
      let '(s2, n) := next_acc_num s1 in
      Some (set_account s2 a (Account (AContract []) n 0%N None))
  end.
(** getOrNewAccount (statedb.go:309-316) *)
Definition get_or_new (s : db) (a : bytes) : db * account :=
  match get_acc (vw s) a with Some x => (s, x) | None => new_account s a end.
(** Exist (statedb.go:331-334) *)
Definition exist (s : db) (a : bytes) : bool :=
  match get_acc (vw s) a with Some _ => true | None => false end.
(** Empty (statedb.go:319-327) *)
Definition empty (s : db) (a : bytes) : db * bool :=
  let '(s1, b) := get_balance s a in
  (s1, if (b =? 0)%N
       then match get_acc (vw s1) a with None => true | Some x => is_empty_account x end
       else false).
(** GetNonce (statedb.go:434-441), SetNonce (statedb.go:444-450) *)
Definition get_nonce (s : db) (a : bytes) : N :=
  match get_acc (vw s) a with None => 0%N | Some x => ac_seq x end.
Definition set_nonce (s : db) (a : bytes) (n : N) : db :=
  let '(s1, x) := get_or_new s a in
  set_account s1 a (Account (ac_kind x) (ac_num x) n (ac_pub x)).

(** ** Code *)
Variable keccak : bytes -> bytes.
(** uint64ToBytes / bytesToUint64 (keys.go:31-39) *)
Definition be64 (n : N) : bytes := be 8 n.
Definition of_be64 (b : bytes) : N := of_be b.
(** GetCode (statedb.go:337-356); nil is [] *)
Definition get_code (s : db) (a : bytes) : bytes :=
  match get_acc (vw s) a with
  | Some (Account (AContract h) _ _ _) => default [] (get_vm (vw s) (code_key a h))
  | _ => []
  end.
(** SetCode (statedb.go:360-383): the type assertion on a non-contract account panics. *)
Definition set_code (s : db) (a : bytes) (code : bytes) : option db :=
  let '(s1, x) := get_or_new s a in
  let x1 := if is_empty_account x then Account (AContract []) (ac_num x) 0%N None else x in
  match ac_kind x1 with
  | AContract _ =>
      let h := keccak code in
      let s2 := set_account s1 a (Account (AContract h) (ac_num x1) (ac_seq x1) (ac_pub x1)) in
      let s3 := put s2 (KVm (code_key a h)) (VBytes code) in
      Some (put s3 (KVm (codesize_key a h)) (VBytes (be64 (u64 (N.of_nat (length code))))))
  | _ => None
  end.
(** GetCodeHash (statedb.go:386-398). BytesToHash pads on the left; [keccak] returns 32
    bytes and an account whose code was never set has the zero hash. *)
Variable empty_code_hash : bytes.
Definition pad_hash (b : bytes) : bytes :=
  if decide (length b <= 32) then replicate (32 - length b) 0%N ++ b else drop (length b - 32) b.
Definition get_code_hash (s : db) (a : bytes) : bytes :=
  match get_acc (vw s) a with
  | None => zero_hash
  | Some (Account (AContract h) _ _ _) => pad_hash h
  | Some _ => empty_code_hash
  end.
(** GetCodeSize (statedb.go:401-420) *)
Definition get_code_size (s : db) (a : bytes) : N :=
  match get_acc (vw s) a with
  | Some (Account (AContract h) _ _ _) =>
      match get_vm (vw s) (codesize_key a h) with Some b => of_be64 b | None => 0%N end
  | _ => 0%N
  end.

(** ** Storage *)
(** GetState (statedb.go:463-477), reading from a given world *)
Definition get_state_w (w : world) (a slot : bytes) : bytes :=
  match get_acc w a with
  | None => zero_hash
  | Some _ => match get_vm w (state_key a slot) with Some v => pad_hash v | None => zero_hash end
  end.
Definition get_state (s : db) (a slot : bytes) : bytes := get_state_w (vw s) a slot.
(** SetState (statedb.go:530-534) *)
Definition set_state (s : db) (a slot value : bytes) : db := put s (KVm (state_key a slot)) (VBytes value).
(** GetCommittedState (statedb.go:423-431): reads through initialCtx *)
Definition get_committed_state (s : db) (a slot : bytes) : bytes :=
  get_state_w (view (db_store s) 0) a slot.
(** GetStorageRoot (statedb.go:700-723) *)
Definition non_empty_root : bytes := 1%N :: replicate 31 0%N.
Definition has_prefix (p b : bytes) : bool := bool_decide (take (length p) b = p).
Definition get_storage_root (s : db) (a : bytes) : bytes :=
  match get_acc (vw s) a with
  | Some x => if is_empty_account x then
                if existsb (fun kv => match fst kv with KVm k => has_prefix (state_key_prefix a) k | _ => false end)
                           (map_to_list (vw s)) then non_empty_root else zero_hash
              else non_empty_root
  | None => if existsb (fun kv => match fst kv with KVm k => has_prefix (state_key_prefix a) k | _ => false end)
                       (map_to_list (vw s)) then non_empty_root else zero_hash
  end.

(** ** Transient storage (statedb.go:537-558): the key is (execIndex, key); the contract
    address is not part of it. *)
Definition get_transient (e : N) (s : db) (a k : bytes) : bytes :=
  match vw s !! KTVm e k with Some (VBytes v) => pad_hash v | _ => zero_hash end.
Definition set_transient (e : N) (s : db) (a k value : bytes) : db :=
  if decide (get_transient e s a k = value) then s
  else put s (KTVm e k) (VBytes value).

(** ** Self-destruct *)
(** HasSelfDestructed (statedb.go:480-492) *)
Definition has_self_destructed (e : N) (s : db) (a : bytes) : bool :=
  match get_acc (vw s) a with None => false | Some _ => has_key (vw s) (KDestruct e a) end.
(** SelfDestruct (statedb.go:499-512) *)
Definition self_destruct (e : N) (s : db) (a : bytes) : option db :=
  match get_acc (vw s) a with
  | None => Some s
  | Some _ =>
      let s1 := put s (KDestruct e a) VUnit in
      let '(s2, b) := get_balance s1 a in
      sub_balance e s2 a b
  end.
(** Selfdestruct6780 (statedb.go:515-527) *)
Definition self_destruct6780 (e : N) (s : db) (a : bytes) : option db :=
  match get_acc (vw s) a with
  | None => Some s
  | Some _ => if has_key (vw s) (KCreated e a) then self_destruct e s a else Some s
  end.

(** Commit (statedb.go:629-658). The walk visits the destroyed addresses of this execution
    in key order; vmStore.Clear removes every VM-store record whose key starts with the
    address; RemoveAccount of a missing account panics. *)
Definition clear_prefix (s : db) (p : bytes) : db :=
  fold_left (fun s k => del s (KVm k))
    (omap (fun kv => match fst kv with
                     | KVm k => if has_prefix p k then Some k else None
                     | _ => None end) (map_to_list (vw s))) s.
Definition destroy_one (e : N) (s : db) (a : bytes) : option db :=
  let '(s1, b) := get_balance s a in
  match (if (b =? 0)%N then Some s1 else sub_balance e s1 a b) with
  | None => None
  | Some s2 =>
      let s3 := clear_prefix s2 a in
      match get_acc (vw s3) a with
      | None => None
      | Some _ => Some (del s3 (KAcc a))
      end
  end.
Fixpoint destroy_all (e : N) (s : db) (l : list bytes) : option db :=
  match l with
  | [] => Some s
  | a :: l' => match destroy_one e s a with None => None | Some s' => destroy_all e s' l' end
  end.
(** The addresses marked in the self-destruct set of execution [e]. The order of the walk
    (key order) does not matter for the result and is left unspecified: the order of
    [map_to_list]. *)
Definition destructed (e : N) (w : world) : list bytes :=
  omap (fun kv => match fst kv with
                  | KDestruct e' a => if decide (e' = e) then Some a else None
                  | _ => None end) (map_to_list w).
Definition commit (e : N) (s : db) : option db :=
  match destroy_all e s (destructed e (vw s)) with
  | None => None
  | Some s' => Some (flush_all s')
  end.
End fee.

(** The mutating part of the vm.StateDB interface, as commands of an execution with index
    [e] (statedb.go, functions named above). RevertToSnapshot and Commit are separate. *)
Inductive op :=
| OpSetState (a slot v : bytes)
| OpSetTransient (a k v : bytes)
| OpSetNonce (a : bytes) (n : N)
| OpSetCode (a code : bytes)
| OpAddRefund (g : N)
| OpSubRefund (g : N)
| OpAddLog (l : log)
| OpAddAddr (a : bytes)
| OpAddSlot (a slot : bytes)
| OpCreateAccount (a : bytes)
| OpCreateContract (a : bytes)
| OpAddBalance (a : bytes) (n : N)
| OpSubBalance (a : bytes) (n : N)
| OpSelfDestruct (a : bytes)
| OpSelfDestruct6780 (a : bytes)
| OpGetBalance (a : bytes)         (* a read that takes a snapshot *)
| OpSnapshotS.
#[global] Instance log_eq_dec : EqDecision log.
Proof. solve_decision. Defined.
#[global] Instance op_eq_dec : EqDecision op.
Proof. solve_decision. Defined.


Section steps.
Variable fee_log : bytes -> bytes -> N -> log.
Variable keccak : bytes -> bytes.
Definition step (e : N) (s : db) (o : op) : option db :=
  match o with
  | OpSetState a slot v => Some (set_state s a slot v)
  | OpSetTransient a k v => Some (set_transient e s a k v)
  | OpSetNonce a n => Some (set_nonce s a n)
  | OpSetCode a c => set_code keccak s a c
  | OpAddRefund g => add_refund e s g
  | OpSubRefund g => sub_refund e s g
  | OpAddLog l => add_log e s l
  | OpAddAddr a => Some (add_address_al e s a)
  | OpAddSlot a slot => Some (add_slot_al e s a slot)
  | OpCreateAccount a => Some (create_account s a)
  | OpCreateContract a => create_contract e s a
  | OpAddBalance a n => add_balance fee_log e s a n
  | OpSubBalance a n => sub_balance fee_log e s a n
  | OpSelfDestruct a => self_destruct fee_log e s a
  | OpSelfDestruct6780 a => self_destruct6780 fee_log e s a
  | OpGetBalance a => Some (fst (get_balance s a))
  | OpSnapshotS => Some (fst (snapshot s))
  end.
Fixpoint steps (e : N) (s : db) (l : list op) : option db :=
  match l with
  | [] => Some s
  | o :: l' => match step e s o with None => None | Some s' => steps e s' l' end
  end.
End steps.
