(** How an IBC hook's memo is read: app/ibc-hooks/util.go 53-82, 90-113, message.go 30-50.

    The memo is read into a map[string]interface{}, what stands under "evm" is written out again
    and that is read into HookData. On the way every number is a float64 (Go's encoding/json reads
    numbers of an interface{} so), written with the fewest digits that read back as the same
    float64 (strconv.AppendFloat with precision -1; from 10^21 on with an exponent), and read with
    strconv.ParseUint for a uint64 field.

    Simplifications. Numbers written as plain digits are modelled, other number literals (signs,
    fractions, exponents) are left out. [json] scans the text into a tree; bad text and trailing
    characters are [None]. Keys of the structs are matched without regard to ASCII case; the two
    other letters Go folds (U+017F, U+212A) are left out. Reading the message (MsgCall) is a
    parameter; that it may stop the reading early changes nothing, for its key comes last
    (json.Marshal sorts keys). Invalid UTF-8 in strings is left out. *)
From Verif.Base Require Import Prelude Hex.
From Verif.Model Require Import IbcHooks.
From stdpp Require Import sorting.
Open Scope N_scope.

Inductive gjson := GNull | GBool (b : bool) | GNum (n : N) | GStr (t : text) | GArr (l : list gjson) | GObj (l : list (text * gjson)).

(** The float64 nearest to [n], which is an integer again: 53 binary digits, ties to even. *)
Definition nearest (n : N) : N :=
  let k := N.size n - 53 in
  let q := n / 2 ^ k in
  let r := n mod 2 ^ k in
  if (2 * r <? 2 ^ k) || ((2 * r =? 2 ^ k) && N.even q) then q * 2 ^ k else (q + 1) * 2 ^ k.
(** strconv.ParseFloat: out of range is an error *)
Definition read_float (n : N) : option N := if nearest n <? 2 ^ 1024 then Some (nearest n) else None.
(** The multiple of [10^e] that reads back as [f], the closer one if both neighbours do. *)
Definition shorter (f : N) (e : nat) : option N :=
  let lo := f / 10 ^ N.of_nat e * 10 ^ N.of_nat e in
  let hi := lo + 10 ^ N.of_nat e in
  match nearest lo =? f, nearest hi =? f with
  | true, true => Some (if f - lo <=? hi - f then lo else hi)
  | true, false => Some lo
  | false, true => Some hi
  | false, false => None
  end.
(** The shortest decimal of [f]: as many zeros at the end as possible. *)
Fixpoint shortest_from (f : N) (e : nat) : N :=
  match shorter f e with
  | Some m => m
  | None => match e with O => f | S e' => shortest_from f e' end
  end.
Definition shortest (f : N) : N := shortest_from f 20.
(** encoding/json floatEncoder and strconv.ParseUint(s, 10, 64) *)
Definition uint64_of_float (f : N) : option N :=
  if f <? 10 ^ 21 then (if shortest f <? 2 ^ 64 then Some (shortest f) else None) else None.
(** A number of the memo as a uint64 field gets it. *)
Definition number_back (n : N) : option N := f ← read_float n; uint64_of_float f.

(** json.Unmarshal into an interface{} fails on one number out of range *)
Fixpoint floats_ok (v : gjson) : bool :=
  match v with
  | GNum n => match read_float n with Some _ => true | None => false end
  | GArr l => forallb floats_ok l
  | GObj l => forallb (fun kv => floats_ok (snd kv)) l
  | _ => true
  end.
(** A map keeps the last value of a key; the same for ASCII-folded keys of a struct, in the order
    of the sorted keys. *)
Definition last_of (k : text) (l : list (text * gjson)) : option gjson := snd <$> last (filter (λ kv, fst kv = k) l).
Definition fold_key (k : text) : text := (λ c, if (65 <=? c) && (c <=? 90) then c + 32 else c) <$> k.
Fixpoint text_le (a b : text) : bool :=
  match a, b with
  | [], _ => true
  | _ :: _, [] => false
  | x :: a', y :: b' => if x =? y then text_le a' b' else x <? y
  end.
Definition values_of (name : text) (l : list (text * gjson)) : list gjson :=
  omap (λ k, last_of k l) (merge_sort (λ a b, Is_true (text_le a b)) (remove_dups (fst <$> filter (λ kv, fold_key (fst kv) = name) l))).

(** One uint64 field, one string field; the flag is the error that reading reports in the end. *)
Fixpoint read_id (vs : list gjson) (cur : N) : N * bool :=
  match vs with
  | [] => (cur, false)
  | GNull :: vs' => read_id vs' cur
  | GNum n :: vs' => match number_back n with Some m => read_id vs' m | None => (fst (read_id vs' cur), true) end
  | _ :: vs' => (fst (read_id vs' cur), true)
  end.
Fixpoint read_string (vs : list gjson) (cur : text) : text * bool :=
  match vs with
  | [] => (cur, false)
  | GNull :: vs' => read_string vs' cur
  | GStr t :: vs' => read_string vs' t
  | _ :: vs' => (fst (read_string vs' cur), true)
  end.
(** message.go 32-36: a pointer; null makes it nil, anything else makes it point somewhere *)
Fixpoint read_callback (vs : list gjson) (cur : option hcallback) : option hcallback * bool :=
  match vs with
  | [] => (cur, false)
  | GNull :: vs' => read_callback vs' None
  | GObj l :: vs' =>
      let c := default (HCallback 0 []) cur in
      let '(i, e1) := read_id (values_of (txt "id") l) (hc_id c) in
      let '(a, e2) := read_string (values_of (txt "contract_address") l) (hc_contract c) in
      let '(c', e3) := read_callback vs' (Some (HCallback i a)) in
      (c', e1 || e2 || e3)
  | _ :: vs' => (fst (read_callback vs' (Some (default (HCallback 0 []) cur))), true)
  end.

Section memo.
Variable json : text → option gjson.
Variable read_message : list gjson → option hmsg * bool.
(** util.go 65-79 for what stands under "evm" *)
Definition read_hook (v : gjson) : hmemo :=
  match v with
  | GNull => HMemo true None None false
  | GObj l =>
      let '(c, e1) := read_callback (values_of (txt "async_callback") l) None in
      let '(m, e2) := read_message (values_of (txt "message") l) in
      HMemo true m c (e1 || e2)
  | _ => HMemo true None None true
  end.
Definition unrouted : hmemo := HMemo false None None false.
(** util.go 90-113 with 58-63. A memo that is null is an empty map. *)
Definition read_memo (memo : text) : hmemo :=
  match memo with
  | [] => unrouted
  | _ => match json memo with
         | Some (GObj l) => if floats_ok (GObj l) then match last_of (txt "evm") l with Some v => read_hook v | None => unrouted end
                            else unrouted
         | _ => unrouted
         end
  end.
End memo.
