(** query_cosmos of the cosmos precompile: x/evm/precompiles/cosmos/contract.go 251-291
    and x/evm/types/query_cosmos.go.

    The request and response objects of each query the chain allows are made once, when
    the node starts (query_cosmos.go 17-33), and are shared by every execution in the
    process: blocks, simulations, eth_call. Their content is therefore part of the memory
    of a node, and not of the state the chain agrees on.

    Simplified: the request text is taken after JSON parsing (jsonpb reads the whole text
    as an object first); only string and list-of-string fields, the two kinds the default
    list uses. Gas is in Model/Precompile.v. *)
From Verif.Base Require Import Prelude Hex.

(** A JSON value; [JElse] is a number, a boolean or an object. *)
Inductive jval := JNull | JText (t : text) | JList (l : list jval) | JElse.

(** The request text: not a JSON object, or an object with these members (no two of the
    same name: encoding/json has put them in a map). The text null gives no members. *)
Inductive rdoc := DBad | DObj (l : list (text * jval)).

(** Fields of a protobuf message: original and camel-case name, and kind. *)
Inductive fkind := KStr | KStrs.
Definition schema := list (text * text * fkind).
Inductive fval := VStr (t : text) | VStrs (l : list text).
Definition zero_of (k : fkind) : fval := match k with KStr => VStr [] | KStrs => VStrs [] end.
Definition zeros (s : schema) : list fval := (λ f, zero_of f.2) <$> s.

(** query_cosmos.go 17-33 (the field lists are those of the oracle module of connect v2). *)
Definition q_prices : text := txt "/connect.oracle.v2.Query/GetPrices".
Definition q_price : text := txt "/connect.oracle.v2.Query/GetPrice".
Definition q_pairs : text := txt "/connect.oracle.v2.Query/GetAllCurrencyPairs".
Definition f_ids : text := txt "currency_pair_ids".
Definition f_pair : text := txt "currency_pair".
Definition default_list (p : text) : option schema :=
  if decide (p = q_prices) then Some [(f_ids, txt "currencyPairIds", KStrs)]
  else if decide (p = q_price) then Some [(f_pair, txt "currencyPair", KStr)]
  else if decide (p = q_pairs) then Some []
  else None.

(** ** cdc.UnmarshalJSON (gogoproto jsonpb) into an existing message *)
(** consumeField: either name; the camel-case one wins. *)
Definition jfind (n : text) (l : list (text * jval)) : option jval := snd <$> List.find (λ p, bool_decide (p.1 = n)) l.
Definition consume (orig camel : text) (l : list (text * jval)) : option jval :=
  match jfind camel l with Some v => Some v | None => jfind orig l end.

(** A string; null leaves the target as it is (encoding/json). The second component says
    whether the decoder goes on. *)
Definition dec_str (v : jval) (old : text) : text * bool :=
  match v with JNull => (old, true) | JText t => (t, true) | _ => (old, false) end.
(** The elements of a new list of empty strings, up to the first that does not decode. *)
Fixpoint dec_list (l : list jval) : list text * bool :=
  match l with
  | [] => ([], true)
  | v :: l' =>
      let '(t, ok) := dec_str v [] in
      if ok then let '(r, b) := dec_list l' in (t :: r, b)
      else (t :: replicate (length l') [], false)
  end.
Definition dec_field (k : fkind) (v : jval) (old : fval) : fval * bool :=
  match k, v with
  | KStr, _ => let '(t, ok) := dec_str v (match old with VStr o => o | VStrs _ => [] end) in (VStr t, ok)
  | KStrs, JNull => (old, true)
  | KStrs, JList l => let '(r, ok) := dec_list l in (VStrs r, ok)
  | KStrs, _ => (old, false)
  end.
(** The fields in order; members no field has used are an error, found at the end. *)
Definition known (s : schema) (n : text) : bool := existsb (λ f, bool_decide (f.1.1 = n) || bool_decide (f.1.2 = n)) s.
Fixpoint dec_fields (s : schema) (old : list fval) (l : list (text * jval)) : list fval * bool :=
  match s, old with
  | (o, c, k) :: s', v :: old' =>
      match consume o c l with
      | None => let '(r, b) := dec_fields s' old' l in (v :: r, b)
      | Some j =>
          let '(v', ok) := dec_field k j v in
          if ok then let '(r, b) := dec_fields s' old' l in (v' :: r, b) else (v' :: old', false)
      end
  | _, _ => ([], true)
  end.
Definition unmarshal_json (s : schema) (old : list fval) (d : rdoc) : list fval * bool :=
  match d with
  | DBad => (old, false)
  | DObj l => let '(m, ok) := dec_fields s old l in (m, ok && forallb (λ p, known s p.1) l)
  end.

Section node.
(** The module's handlers, the response messages and how they are written as JSON. *)
Context {store resp : Type}.
Record qenv := QEnv {
  q_list : text → option schema;                          (* the allowed queries *)
  q_route : text → list fval → store → option resp;       (* the handler: request, state *)
  q_empty : resp;                                         (* a fresh (or reset) response *)
  q_merge : resp → resp → resp;                           (* protobuf Unmarshal into a message *)
  q_render : text → resp → text }.                        (* MarshalJSON *)
Context (E : qenv).

(** What a node has in memory: the shared messages. *)
Record qmem := QMem { m_req : text → list fval; m_resp : text → resp }.
Definition fresh : qmem := QMem (λ p, match q_list E p with Some s => zeros s | None => [] end) (λ _, q_empty E).
Definition set_req (m : qmem) (p : text) (v : list fval) : qmem :=
  QMem (λ p', if decide (p' = p) then v else m_req m p') (m_resp m).
Definition set_resp (m : qmem) (p : text) (r : resp) : qmem :=
  QMem (m_req m) (λ p', if decide (p' = p) then r else m_resp m p').

(** ** One call, as the steps other executions may come between
    (contract.go 264-285; query_cosmos.go 35-65). Simplified: one step is one library
    call; the races inside a call are not modelled. *)
Inductive qpc :=
| QStart (p : text) (d : rdoc)      (* 264-268, then UnmarshalJSON: 54 *)
| QMarshal (p : text)               (* Marshal: 59 *)
| QReset (p : text) (v : list fval) (* Reset: 64 *)
| QRoute (p : text) (v : list fval) (* contract.go 274 *)
| QDecode (p : text) (r : resp)     (* Unmarshal: 38 *)
| QRender (p : text)                (* MarshalJSON: 43 *)
| QClear (p : text) (t : text)      (* Reset: 48 *)
| QDone (a : option text).
Definition qstep (st : store) (m : qmem) (c : qpc) : qmem * qpc :=
  match c with
  | QStart p d =>
      match q_list E p with
      | None => (m, QDone None)
      | Some s => let '(v, ok) := unmarshal_json s (m_req m p) d in
                  (set_req m p v, if ok then QMarshal p else QDone None)   (* 55-57: no Reset *)
      end
  | QMarshal p => (m, QReset p (m_req m p))
  | QReset p v => (set_req m p (match q_list E p with Some s => zeros s | None => [] end), QRoute p v)
  | QRoute p v => (m, match q_route E p v st with Some r => QDecode p r | None => QDone None end)
  | QDecode p r => (set_resp m p (q_merge E (m_resp m p) r), QRender p)
  | QRender p => (m, QClear p (q_render E p (m_resp m p)))
  | QClear p t => (set_resp m p (q_empty E), QDone (Some t))
  | QDone a => (m, QDone a)
  end.

(** A call with nothing in between: at most seven steps. *)
Fixpoint qrun (n : nat) (st : store) (m : qmem) (c : qpc) : qmem * qpc :=
  match n with O => (m, c) | S n' => let '(m', c') := qstep st m c in qrun n' st m' c' end.
Definition qcall (st : store) (m : qmem) (p : text) (d : rdoc) : qmem * option text :=
  match qrun 7 st m (QStart p d) with (m', QDone a) => (m', a) | (m', _) => (m', None) end.

(** Calls one after another, each on the state of its time. *)
Fixpoint qcalls (m : qmem) (h : list (store * text * rdoc)) : qmem * list (option text) :=
  match h with
  | [] => (m, [])
  | (st, p, d) :: h' => let '(m', a) := qcall st m p d in let '(m'', r) := qcalls m' h' in (m'', a :: r)
  end.

(** Two executions at once: [true] steps the first, [false] the second. *)
Fixpoint qpar (sched : list bool) (st1 st2 : store) (m : qmem) (c1 c2 : qpc) : qmem * qpc * qpc :=
  match sched with
  | [] => (m, c1, c2)
  | true :: k => let '(m', c') := qstep st1 m c1 in qpar k st1 st2 m' c' c2
  | false :: k => let '(m', c') := qstep st2 m c2 in qpar k st1 st2 m' c1 c'
  end.
End node.
Arguments qenv : clear implicits.
Arguments qmem : clear implicits.
Arguments qpc : clear implicits.
