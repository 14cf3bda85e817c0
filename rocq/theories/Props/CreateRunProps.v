(** C128, C129: the making of a contract (Model/CreateRun.v). *)
From Verif.Base Require Import Prelude Layers.
From Verif.Model Require Import Snapshots Paths CreateRun.
From Verif.Spec Require Import Frames.
From Verif.Proofs Require Import LayersP SnapshotsP PathsP.
Open Scope N_scope.

(** Programs on the path of contexts (Model/Paths.v). *)
Fixpoint prun {K V : Type} `{Countable K} (p : prog K V) (m : path (gmap K V)) : option (bool * path (gmap K V)) :=
  match p with
  | Done ok => Some (ok, m)
  | Write k o p' => prun p' (pt_set m (set_view (pt_cur m) k o))
  | Read k f => prun (f (pt_cur m !! k)) m
  | Call c f =>
      match prun c (fst (pt_snapshot m)) with
      | None => None
      | Some (true, m2) => prun (f true) m2
      | Some (false, m2) => match pt_revert m2 (snd (pt_snapshot m)) with None => None | Some m3 => prun (f false) m3 end
      end
  end.
Lemma walks_prun {K V : Type} `{Countable K} (p : prog K V) : forall s m, walks s m ->
  match run revert_to p s with
  | None => prun p m = None
  | Some (ok, s') => exists m', prun p m = Some (ok, m') /\ walks s' m'
  end.
Proof.
  induction p as [ok|k o p IH|k f IH|c IHc f IH]; intros s m Hw; cbn [run prun].
  - by exists m.
  - apply IH. by apply walks_put.
  - assert (E : db_get s k = pt_cur m !! k) by (rewrite <- (walks_view s m Hw); done).
    rewrite E. by apply IH.
  - destruct (walks_snapshot s m Hw) as [Hs Hid]. destruct (snapshot s) as [s1 sid]. cbn [fst snd] in Hs, Hid.
    specialize (IHc s1 (fst (pt_snapshot m)) Hs). destruct (run revert_to c s1) as [[[|] s2]|].
    + destruct IHc as (m2 & -> & H2). by apply IH.
    + destruct IHc as (m2 & -> & H2). rewrite <- Hid. pose proof (walks_revert s2 m2 sid H2) as Hr.
      destruct (revert_to s2 sid) as [s3|]; [destruct Hr as (m3 & -> & H3); by apply IH|by rewrite Hr].
    + by rewrite IHc.
Qed.
Lemma create_paths v a y init code m :
  evm_create v a y init code m =
    match prun (create_prog v a y init code) (Path m []) with
    | None => None
    | Some (true, p) => Some (true, pt_commit p)
    | Some (false, _) => Some (false, m)
    end.
Proof.
  unfold evm_create, evm_create_with. pose proof (walks_prun (create_prog v a y init code) (new_sdb m) (Path m []) (walks_new m)) as H.
  destruct (run _ _ _) as [[[|] s]|].
  - destruct H as (p & -> & Hw). by rewrite (walks_commit _ _ Hw).
  - by destruct H as (p & -> & _).
  - by rewrite H.
Qed.

(** A program in which no call fails, on a path whose branches are all in the list. *)
Definition clean {A : Type} (u : list (bool * A)) : Prop := Forall (fun e => e.1 = true) u.
Lemma prun_ok {K V : Type} `{Countable K} (p : prog K V) : forall m, clean (pt_up m) -> inner_ok p (pt_cur m) = true ->
  exists u, clean u /\ prun p m = Some (fst (sem p (pt_cur m)), Path (snd (sem p (pt_cur m))) (u ++ pt_up m)).
Proof.
  induction p as [ok|k o p IH|k f IH|c IHc f IH]; intros m Hc Hok; cbn [prun].
  - exists []. split; [by apply Forall_nil|]. by destruct m.
  - rewrite inner_ok_write in Hok. rewrite sem_write. by apply (IH (pt_set m (set_view (pt_cur m) k o))).
  - by apply IH.
  - apply inner_ok_call in Hok as (H1 & m' & H2 & H3).
    destruct (IHc (fst (pt_snapshot m))) as (u1 & Hu1 & E1); [by apply Forall_cons|done|]. cbn [pt_snapshot fst pt_cur] in E1. rewrite H2 in E1. cbn [fst snd] in E1.
    cbn [pt_snapshot fst]. rewrite E1. cbn [sem]. rewrite H2.
    destruct (IH true (Path m' (u1 ++ pt_up (fst (pt_snapshot m))))) as (u2 & Hu2 & E2); [apply Forall_app; split; [done|by apply Forall_cons]|done|].
    exists (u2 ++ u1 ++ [(true, pt_cur m)]). split; [apply Forall_app; split; [done|]; apply Forall_app; split; [done|]; apply Forall_singleton; done|].
    cbn [pt_snapshot fst pt_up] in *. rewrite E2. cbn [pt_cur]. by rewrite <- !app_assoc.
Qed.
Lemma back_some {A : Type} i (cur : A) u : (i < pt_live u)%nat -> exists p, pt_back i cur u = Some p.
Proof.
  revert cur. induction u as [|[b c] u IH]; intros cur Hi; cbn in *; [lia|].
  destruct b; cbn; [|by apply IH]. destruct (Nat.eqb_spec (pt_live u) i); [by eexists|]. apply IH. lia.
Qed.
Lemma live_app {A : Type} (u u' : list (bool * A)) : pt_live (u ++ u') = (pt_live u + pt_live u')%nat.
Proof. induction u as [|[b c] u IH]; [done|]. cbn. rewrite IH. lia. Qed.
Lemma commit_clean {A : Type} (u : list (bool * A)) cur : clean u -> pt_flush cur u = cur.
Proof. intros H. revert cur. induction H as [|[b c] u Hb _ IH]; intros cur; [done|]. cbn in *. subst b. apply IH. Qed.

(** ** C128: a creation that catches no failure *)
(** The plain meaning: the sender's nonce goes up by one, and at the address there is, after the
    value has been moved, what the init code leaves, with the code it returns. *)
Definition start_state (v : option (nat * list (fld * N))) (a y : bytes) (m : gmap fld N) : gmap fld N :=
  let m1 := <[nonce_of a := default 0 (m !! nonce_of a) + 1]> m in
  let m2 := <[nonce_of y := 1]> (<[made_at y := 1]> m1) in
  match v with None => m2 | Some (_, ws) => fold_left (fun acc e => <[fst e := snd e]> acc) ws m2 end.
Lemma sem_put_all ws p m : sem (put_all ws p) m = sem p (fold_left (fun acc e => <[fst e := snd e]> acc) ws m).
Proof. revert m. induction ws as [|[k x] ws IH]; intros m; [done|]. cbn. apply IH. Qed.
Lemma inner_put_all ws p m : inner_ok (put_all ws p) m = inner_ok p (fold_left (fun acc e => <[fst e := snd e]> acc) ws m).
Proof. revert m. induction ws as [|[k x] ws IH]; intros m; [done|]. cbn. apply IH. Qed.
Lemma sem_frames k p m : sem (Nat.iter k (fun q : cprog => Call (Done true) (fun _ => q)) p) m = sem p m.
Proof. induction k as [|k IH]; [done|]. exact IH. Qed.
Lemma inner_frames k p m : inner_ok (Nat.iter k (fun q : cprog => Call (Done true) (fun _ => q)) p) m = inner_ok p m.
Proof. induction k as [|k IH]; [done|]. exact IH. Qed.
Lemma sem_then p q m : sem (and_then p q) m = match sem p m with (true, m') => sem q m' | (false, m') => (false, m') end.
Proof.
  revert m. induction p as [[|]|k [x|] p IH|k f IH|c IHc f IH]; intros m; cbn; try done.
  destruct (sem c m) as [[|] m']; apply IH.
Qed.
Lemma inner_then p q m : inner_ok p m = true -> (forall m', sem p m = (true, m') -> inner_ok q m' = true) -> inner_ok (and_then p q) m = true.
Proof.
  revert m. induction p as [[|]|k [x|] p IH|k f IH|c IHc f IH]; intros m; cbn; try done.
  - intros _ H. by apply H.
  - apply IH.
  - apply IH.
  - apply IH.
  - intros [H1 H2]%andb_true_iff H. apply andb_true_iff. split; [done|]. destruct (sem c m) as [[|] m']; [|done]. by apply IH.
Qed.
(** Full statement: as below for every init code; false (C129). Proved where no call made by the
    init code fails. *)
Theorem C128_create_partial (v : option (nat * list (fld * N))) (a y : bytes) (init : cprog) (code : N) (m : gmap fld N) :
  a <> y -> inner_ok init (start_state v a y m) = true ->
  evm_create v a y init code m = Some (
    if bool_decide (default 0 (m !! nonce_of y) ≠ 0 ∨ m !! code_of y ≠ None) then (false, m)
    else match sem init (start_state v a y m) with
         | (true, m') => (true, <[code_of y := code]> m')
         | (false, _) => (false, m)
         end).
Proof.
  intros Hne Hok. rewrite create_paths.
  set (m1 := <[nonce_of a := default 0 (m !! nonce_of a) + 1]> m). set (m2 := <[nonce_of y := 1]> (<[made_at y := 1]> m1)).
  assert (Hy1 : m1 !! nonce_of y = m !! nonce_of y) by (unfold m1; rewrite lookup_insert_ne; [done|congruence]).
  assert (Hy2 : m1 !! code_of y = m !! code_of y) by (unfold m1; rewrite lookup_insert_ne; [done|congruence]).
  set (q := move v (and_then init (Write (code_of y) (Some code) (Done true)))).
  set (u0 := match v with None => [] | Some _ => [(true, m)] end).
  assert (E : prun (create_prog v a y init code) (Path m []) =
    prun (if bool_decide (default 0 (m !! nonce_of y) ≠ 0 ∨ m !! code_of y ≠ None) then Done false else
      Call (Write (made_at y) (Some 1) (Write (nonce_of y) (Some 1) q)) Done) (Path m1 u0)).
  { rewrite <- Hy1, <- Hy2. unfold create_prog, ask, u0. destruct v; reflexivity. }
  rewrite E. clear E. destruct (bool_decide _); [done|].
  assert (Hq : inner_ok q m2 = true /\ sem q m2 =
    match sem init (start_state v a y m) with (true, m') => (true, <[code_of y := code]> m') | (false, m') => (false, m') end).
  { assert (Hi : inner_ok (and_then init (Write (code_of y) (Some code) (Done true))) (start_state v a y m) = true) by by apply inner_then.
    unfold q, start_state in *. fold m1 in Hi |- *. fold m2 in Hi |- *. destruct v as [[k ws]|]; unfold move, token_call.
    - cbn [sem inner_ok]. rewrite !sem_frames, inner_frames, !sem_put_all, inner_put_all. cbn [sem inner_ok]. rewrite sem_then. split; [exact Hi|done].
    - rewrite sem_then. split; [exact Hi|done]. }
  destruct Hq as [Hq1 Hq2].
  destruct (prun_ok q (Path m2 ((true, m1) :: u0))) as (u & Hu & Hr).
  { apply Forall_cons. split; [done|]. unfold u0. destruct v; [|by apply Forall_nil]. by apply Forall_singleton. }
  { exact Hq1. }
  assert (E : prun (Call (Write (made_at y) (Some 1) (Write (nonce_of y) (Some 1) q)) Done) (Path m1 u0) =
    match prun q (Path m2 ((true, m1) :: u0)) with
    | None => None
    | Some (true, p2) => Some (true, p2)
    | Some (false, p2) => match pt_revert p2 (Z.of_nat (pt_live u0) - 1) with None => None | Some p3 => Some (false, p3) end
    end) by reflexivity.
  rewrite E, Hr. clear E. cbn [pt_cur pt_up]. rewrite Hq2.
  destruct (sem init (start_state v a y m)) as [[|] m']; cbn [fst snd].
  - f_equal. f_equal. unfold pt_commit. cbn [pt_cur pt_up]. apply commit_clean. apply Forall_app. split; [done|].
    apply Forall_cons. split; [done|]. unfold u0. destruct v; [|by apply Forall_nil]. by apply Forall_singleton.
  - assert (Hs : exists p3, pt_revert (Path m' (u ++ (true, m1) :: u0)) (Z.of_nat (pt_live u0) - 1) = Some p3).
    { unfold u0. destruct v; cbn [pt_live Nat.add]; [|by eexists]. unfold pt_revert. cbn [Z.of_nat Z.sub Z.add Z.opp Z.pos_sub Pos.of_succ_nat Z.eqb Z.ltb Z.compare Z.to_nat pt_cur pt_up].
      apply back_some. rewrite live_app. cbn. lia. }
    destruct Hs as (p3 & ->). done.
Qed.

(** In full, for every init code, with the repaired RevertToSnapshot of C01: the defect is the only
    reason for which the full statement fails. *)
Theorem C128_create_repaired (v : option (nat * list (fld * N))) (a y : bytes) (init : cprog) (code : N) (m : gmap fld N) :
  a <> y ->
  evm_create_with revert_to_repaired v a y init code m = Some (
    if bool_decide (default 0 (m !! nonce_of y) ≠ 0 ∨ m !! code_of y ≠ None) then (false, m)
    else match sem init (start_state v a y m) with
         | (true, m') => (true, <[code_of y := code]> m')
         | (false, _) => (false, m)
         end).
Proof.
  intros Hne. unfold evm_create_with.
  destruct (run_sim revert_to_repaired 0 (create_prog v a y init code) (new_sdb m) (Inv_new m)) as (s & -> & HI & Hv & _); [by left|].
  assert (E0 : db_view (new_sdb m) = m) by reflexivity. rewrite E0 in *.
  set (m1 := <[nonce_of a := default 0 (m !! nonce_of a) + 1]> m). set (m2 := <[nonce_of y := 1]> (<[made_at y := 1]> m1)).
  assert (Hy1 : m1 !! nonce_of y = m !! nonce_of y) by (unfold m1; rewrite lookup_insert_ne; [done|congruence]).
  assert (Hy2 : m1 !! code_of y = m !! code_of y) by (unfold m1; rewrite lookup_insert_ne; [done|congruence]).
  set (q := move v (and_then init (Write (code_of y) (Some code) (Done true)))).
  assert (E : sem (create_prog v a y init code) m =
    sem (if bool_decide (default 0 (m !! nonce_of y) ≠ 0 ∨ m !! code_of y ≠ None) then Done false else
      Call (Write (made_at y) (Some 1) (Write (nonce_of y) (Some 1) q)) Done) m1).
  { rewrite <- Hy1, <- Hy2. unfold create_prog, ask. destruct v; reflexivity. }
  rewrite E in *. clear E. destruct (bool_decide _); [done|].
  assert (Hq : sem q m2 = match sem init (start_state v a y m) with (true, m') => (true, <[code_of y := code]> m') | (false, m') => (false, m') end).
  { unfold q, start_state in *. fold m1. fold m2. destruct v as [[k ws]|]; unfold move, token_call.
    - cbn [sem]. rewrite !sem_frames, !sem_put_all. cbn [sem]. by rewrite sem_then.
    - by rewrite sem_then. }
  assert (E : sem (Call (Write (made_at y) (Some 1) (Write (nonce_of y) (Some 1) q)) Done) m1 =
    match sem q m2 with (true, m') => (true, m') | (false, _) => (false, m1) end) by reflexivity.
  rewrite E in *. clear E. rewrite Hq in *. destruct (sem init (start_state v a y m)) as [[|] m']; [|done].
  cbn [fst snd] in *. by rewrite flush_all_base, Hv.
Qed.

(** ** C129: init code that catches failures *)
(** Init code that writes [ws], then makes calls that write something and fail, one after another,
    and goes on. *)
Definition catching (l : list (list (fld * N))) : cprog :=
  foldr (fun bw p => Call (put_all bw (Done false)) (fun _ => p)) (Done true) l.
Definition catching_init (ws : list (fld * N)) (l : list (list (fld * N))) : cprog := put_all ws (catching l).
Lemma prun_put_all ws (p : cprog) m : prun (put_all ws p) m = prun p (pt_set m (fold_left (fun acc e => <[fst e := snd e]> acc) ws (pt_cur m))).
Proof. revert m. induction ws as [|[k x] ws IH]; intros m; [by destruct m|]. cbn. by rewrite IH. Qed.
Lemma live_clean {A : Type} (u : list (bool * A)) : clean u -> pt_live u = length u.
Proof. induction 1 as [|[b c] u Hb _ IH]; [done|]. cbn in *. subst b. cbn. by rewrite IH. Qed.
Lemma fail_first (bw : list (fld * N)) (f : bool -> cprog) (cur c : gmap fld N) (u : list (bool * gmap fld N)) : clean u ->
  prun (Call (put_all bw (Done false)) f) (Path cur ((true, c) :: u)) = prun (f false) (Path cur ((false, c) :: u)).
Proof.
  intros Hu. cbn [prun]. rewrite prun_put_all. cbn [prun pt_snapshot fst snd pt_up pt_set pt_cur pt_live].
  replace (Z.of_nat (1 + pt_live u) - 1)%Z with (Z.of_nat (pt_live u)) by lia.
  unfold pt_revert, pt_set. cbn [pt_up pt_cur]. rewrite (proj2 (Z.eqb_neq _ _)), (proj2 (Z.ltb_ge _ _)) by lia. rewrite Nat2Z.id.
  change (pt_back (pt_live u) (fold_left (fun acc e => <[fst e := snd e]> acc) bw cur) ((true, cur) :: (true, c) :: u)) with
    (if (S (pt_live u) =? pt_live u)%nat then Some (Path (fold_left (fun acc e => <[fst e := snd e]> acc) bw cur) ((false, cur) :: (true, c) :: u))
     else if (pt_live u =? pt_live u)%nat then Some (Path cur ((false, c) :: u)) else pt_back (pt_live u) c u).
  rewrite (proj2 (Nat.eqb_neq (S (pt_live u)) _)) by lia. by rewrite Nat.eqb_refl.
Qed.
Lemma fail_next (bw : list (fld * N)) (f : bool -> cprog) (cur d c : gmap fld N) (u : list (bool * gmap fld N)) : clean u ->
  prun (Call (put_all bw (Done false)) f) (Path cur ((false, d) :: (true, c) :: u)) = prun (f false) (Path d ((false, c) :: u)).
Proof.
  intros Hu. cbn [prun]. rewrite prun_put_all. cbn [prun pt_snapshot fst snd pt_up pt_set pt_cur pt_live].
  replace (Z.of_nat (0 + (1 + pt_live u)) - 1)%Z with (Z.of_nat (pt_live u)) by lia.
  unfold pt_revert, pt_set. cbn [pt_up pt_cur]. rewrite (proj2 (Z.eqb_neq _ _)), (proj2 (Z.ltb_ge _ _)) by lia. rewrite Nat2Z.id.
  change (pt_back (pt_live u) (fold_left (fun acc e => <[fst e := snd e]> acc) bw cur) ((true, cur) :: (false, d) :: (true, c) :: u)) with
    (if (S (pt_live u) =? pt_live u)%nat then Some (Path (fold_left (fun acc e => <[fst e := snd e]> acc) bw cur) ((false, cur) :: (false, d) :: (true, c) :: u))
     else if (pt_live u =? pt_live u)%nat then Some (Path d ((false, c) :: u)) else pt_back (pt_live u) c u).
  rewrite (proj2 (Nat.eqb_neq (S (pt_live u)) _)) by lia. by rewrite Nat.eqb_refl.
Qed.
Lemma catch_more (l : list (list (fld * N))) (w : cprog) : forall (cur d : gmap fld N) (u : list (bool * gmap fld N)), clean u -> (length l <= length u)%nat ->
  exists x c, ((false, d) :: u) !! length l = Some (bool_decide (l ≠ []), c) /\
    prun (and_then (catching l) w) (Path cur ((false, d) :: u)) = prun w (Path x ((false, c) :: drop (length l) u)).
Proof.
  induction l as [|bw l IH]; intros cur d u Hu Hl; [by exists cur, d|].
  destruct u as [|[b c] u]; [cbn in Hl; lia|]. apply Forall_cons in Hu as [Hb Hu]. cbn in Hb. subst b.
  cbn [length] in Hl. destruct (IH d c u Hu ltac:(lia)) as (x & e & H1 & H2). exists x, e.
  split.
  - destruct l as [|bw' l]; [|exact H1]. cbn in H1 |- *. by simplify_eq.
  - change (and_then (catching (bw :: l)) w) with (Call (put_all bw (Done false)) (fun _ => and_then (catching l) w)).
    rewrite fail_next by done. exact H2.
Qed.
Lemma catch_all (l : list (list (fld * N))) (w : cprog) (cur : gmap fld N) (u : list (bool * gmap fld N)) : clean u -> (1 <= length l <= length u)%nat ->
  exists x c, u !! (length l - 1)%nat = Some (true, c) /\
    prun (and_then (catching l) w) (Path cur u) = prun w (Path x ((false, c) :: drop (length l) u)).
Proof.
  intros Hu Hl. destruct l as [|bw l]; [cbn in Hl; lia|]. destruct u as [|[b c] u]; [cbn in Hl; lia|].
  apply Forall_cons in Hu as [Hb Hu]. cbn in Hb. subst b. cbn [length] in Hl.
  destruct (catch_more l w cur c u Hu ltac:(lia)) as (x & e & H1 & H2). exists x, e. split.
  - cbn [length]. replace (S (length l) - 1)%nat with (length l) by lia. destruct l as [|bw' l]; [|exact H1]. cbn in H1 |- *. by simplify_eq.
  - change (and_then (catching (bw :: l)) w) with (Call (put_all bw (Done false)) (fun _ => and_then (catching l) w)).
    rewrite fail_first by done. exact H2.
Qed.
Lemma then_put_all ws p q : and_then (put_all ws p) q = put_all ws (and_then p q).
Proof. induction ws as [|[k x] ws IH]; [done|]. cbn. f_equal. exact IH. Qed.
Lemma token_frames (k : nat) (ws : list (fld * N)) (rest : cprog) (cur : gmap fld N) (u : list (bool * gmap fld N)) :
  prun (token_call k ws rest) (Path cur u) =
  prun rest (Path (fold_left (fun acc e => <[fst e := snd e]> acc) ws cur) (replicate (S k) (true, cur) ++ u)).
Proof.
  assert (H : forall j u', prun (Nat.iter j (fun p : cprog => Call (Done true) (fun _ => p)) (put_all ws (Done true))) (Path cur u') =
    Some (true, Path (fold_left (fun acc e => <[fst e := snd e]> acc) ws cur) (replicate j (true, cur) ++ u'))).
  { induction j as [|j IH]; intros u'; [cbn; by rewrite prun_put_all|].
    change (Nat.iter (S j) (fun p : cprog => Call (Done true) (fun _ => p)) (put_all ws (Done true))) with
      (Call (Done true) (fun _ => Nat.iter j (fun p : cprog => Call (Done true) (fun _ => p)) (put_all ws (Done true)))).
    cbn [prun pt_snapshot fst pt_cur pt_up]. rewrite IH. do 3 f_equal.
    change (replicate (S j) (true, cur)) with ((true, cur) :: replicate j (true, cur)). clear.
    induction j as [|j IH]; [done|]. cbn. by rewrite IH. }
  unfold token_call. cbn [prun pt_snapshot fst pt_cur pt_up]. rewrite H. do 2 f_equal. clear.
  induction k as [|k IH]; [done|]. cbn in *. by rewrite IH.
Qed.
(** What is kept of a creation with value after the init code has caught failures, one by one: from
    the first failure on neither the code, nor what the init code wrote, nor the value; with as
    many as there are frames below, not even the contract, and in the end not the sender's nonce
    either. The creation succeeds every time. *)
Theorem C129_what_is_kept_refuted (k : nat) (vs : list (fld * N)) (a y : bytes) (ws : list (fld * N)) (l : list (list (fld * N))) (code : N) (m : gmap fld N) :
  a <> y -> default 0 (m !! nonce_of y) = 0 -> m !! code_of y = None -> (1 <= length l <= k + 3)%nat ->
  let m1 := <[nonce_of a := default 0 (m !! nonce_of a) + 1]> m in
  let m2 := <[nonce_of y := 1]> (<[made_at y := 1]> m1) in
  evm_create (Some (k, vs)) a y (catching_init ws l) code m =
    Some (true, if (length l <=? k + 1)%nat then m2 else if (length l =? k + 2)%nat then m1 else m).
Proof.
  intros Hne Hn0 Hc0 Hl m1 m2. rewrite create_paths.
  assert (Hy1 : m1 !! nonce_of y = m !! nonce_of y) by (unfold m1; rewrite lookup_insert_ne; [done|congruence]).
  assert (Hy2 : m1 !! code_of y = m !! code_of y) by (unfold m1; rewrite lookup_insert_ne; [done|congruence]).
  set (w := Write (code_of y) (Some code) (Done true)).
  assert (E : prun (create_prog (Some (k, vs)) a y (catching_init ws l) code) (Path m []) =
    prun (if bool_decide (default 0 (m1 !! nonce_of y) ≠ 0 ∨ m1 !! code_of y ≠ None) then Done false else
      Call (Write (made_at y) (Some 1) (Write (nonce_of y) (Some 1) (token_call k vs (and_then (catching_init ws l) w)))) Done) (Path m1 [(true, m)])) by reflexivity.
  rewrite E, Hy1, Hy2, Hn0, Hc0, bool_decide_eq_false_2 by naive_solver. clear E.
  set (q := token_call _ _ _).
  assert (E : prun (Call (Write (made_at y) (Some 1) (Write (nonce_of y) (Some 1) q)) Done) (Path m1 [(true, m)]) =
    match prun q (Path m2 [(true, m1); (true, m)]) with
    | None => None
    | Some (true, p2) => Some (true, p2)
    | Some (false, p2) => match pt_revert p2 0 with None => None | Some p3 => Some (false, p3) end
    end) by reflexivity.
  rewrite E. clear E. unfold q. rewrite token_frames. unfold catching_init. rewrite then_put_all, prun_put_all. cbn [pt_cur pt_set pt_up].
  set (u := replicate (S k) (true, m2) ++ [(true, m1); (true, m)]).
  assert (Hu : clean u).
  { unfold u. apply Forall_app. split; [by apply Forall_replicate|]. apply Forall_cons. split; [done|]. by apply Forall_singleton. }
  assert (Hlen : length u = (k + 3)%nat) by (unfold u; rewrite app_length, replicate_length; cbn; lia).
  destruct (catch_all l w (fold_left (fun acc e => <[fst e := snd e]> acc) ws (fold_left (fun acc e => <[fst e := snd e]> acc) vs m2)) u Hu) as (x & c & H1 & H2); [lia|].
  cbv [pt_set]. cbn [pt_up]. rewrite H2. unfold w. cbn [prun pt_set pt_cur pt_up]. do 2 f_equal. unfold pt_commit. cbn [pt_cur pt_up pt_flush pt_set].
  rewrite commit_clean by by apply Forall_drop.
  unfold u in H1. destruct (Nat.leb_spec (length l) (k + 1)).
  - rewrite lookup_app_l in H1 by (rewrite replicate_length; lia). apply lookup_replicate in H1 as [[= <-] _]. done.
  - rewrite lookup_app_r in H1 by (rewrite replicate_length; lia). rewrite replicate_length in H1.
    destruct (Nat.eqb_spec (length l) (k + 2)).
    + replace (length l - 1 - S k)%nat with 0%nat in H1 by lia. by injection H1 as <-.
    + replace (length l - 1 - S k)%nat with 1%nat in H1 by lia. by injection H1 as <-.
Qed.
(** Without value, one failure that is caught is enough for the contract not to be made. *)
Theorem C129_no_contract_refuted (a y : bytes) (ws bw : list (fld * N)) (code : N) (m : gmap fld N) :
  a <> y -> default 0 (m !! nonce_of y) = 0 -> m !! code_of y = None ->
  evm_create None a y (catching_init ws [bw]) code m = Some (true, <[nonce_of a := default 0 (m !! nonce_of a) + 1]> m).
Proof.
  intros Hne Hn0 Hc0. rewrite create_paths. set (m1 := <[nonce_of a := default 0 (m !! nonce_of a) + 1]> m).
  set (m2 := <[nonce_of y := 1]> (<[made_at y := 1]> m1)).
  assert (Hy1 : m1 !! nonce_of y = m !! nonce_of y) by (unfold m1; rewrite lookup_insert_ne; [done|congruence]).
  assert (Hy2 : m1 !! code_of y = m !! code_of y) by (unfold m1; rewrite lookup_insert_ne; [done|congruence]).
  set (w := Write (code_of y) (Some code) (Done true)).
  assert (E : prun (create_prog None a y (catching_init ws [bw]) code) (Path m []) =
    prun (if bool_decide (default 0 (m1 !! nonce_of y) ≠ 0 ∨ m1 !! code_of y ≠ None) then Done false else
      Call (Write (made_at y) (Some 1) (Write (nonce_of y) (Some 1) (and_then (catching_init ws [bw]) w))) Done) (Path m1 [])) by reflexivity.
  rewrite E, Hy1, Hy2, Hn0, Hc0, bool_decide_eq_false_2 by naive_solver. clear E.
  set (q := and_then _ _).
  assert (E : prun (Call (Write (made_at y) (Some 1) (Write (nonce_of y) (Some 1) q)) Done) (Path m1 []) =
    match prun q (Path m2 [(true, m1)]) with
    | None => None
    | Some (true, p2) => Some (true, p2)
    | Some (false, p2) => match pt_revert p2 (-1) with None => None | Some p3 => Some (false, p3) end
    end) by reflexivity.
  rewrite E. clear E. unfold q, catching_init. rewrite then_put_all, prun_put_all. cbn [pt_cur pt_up].
  change (and_then (catching [bw]) w) with (Call (put_all bw (Done false)) (fun _ => w)).
  unfold pt_set. cbn [pt_up]. rewrite fail_first by by apply Forall_nil. reflexivity.
Qed.
(** Both against what the wallet is told and should find: the creation succeeds, there should be
    code at the address and the sender's nonce should have moved. *)
Lemma sem_catching l m : sem (catching l) m = (true, m).
Proof. induction l as [|bw l IH]; [done|]. cbn [catching foldr sem]. rewrite sem_put_all. exact IH. Qed.
Theorem C129_no_code_refuted (v : option (nat * list (fld * N))) (a y : bytes) (ws : list (fld * N)) (l : list (list (fld * N))) (code : N) (m : gmap fld N) :
  a <> y -> default 0 (m !! nonce_of y) = 0 -> m !! code_of y = None ->
  (1 <= length l <= match v with None => 1 | Some (k, _) => k + 3 end)%nat ->
  fst (sem (catching_init ws l) (start_state v a y m)) = true /\
  exists m', evm_create v a y (catching_init ws l) code m = Some (true, m') /\ m' !! code_of y = None.
Proof.
  intros Hne Hn0 Hc0 Hl. split; [unfold catching_init; by rewrite sem_put_all, sem_catching|].
  destruct v as [[k vs]|].
  - rewrite C129_what_is_kept_refuted by done. eexists. split; [reflexivity|].
    repeat case_match; rewrite ?lookup_insert_ne by congruence; done.
  - destruct l as [|bw [|]]; [cbn in Hl; lia| |cbn in Hl; lia]. rewrite C129_no_contract_refuted by done. eexists. split; [reflexivity|].
    by rewrite lookup_insert_ne by congruence.
Qed.
(** A creation with value that leaves the state it found, so that the sender's nonce is still the
    transaction's and the same transaction is taken, and pays its fee, again and again. *)
Definition again (f : gmap fld N -> option (bool * gmap fld N)) (r : option (bool * gmap fld N)) : option (bool * gmap fld N) :=
  match r with Some (true, m') => f m' | r => r end.
Theorem C129_nonce_lost_refuted (k : nat) (vs : list (fld * N)) (a y : bytes) (ws : list (fld * N)) (l : list (list (fld * N))) (code : N) (m : gmap fld N) (n : nat) :
  a <> y -> default 0 (m !! nonce_of y) = 0 -> m !! code_of y = None -> length l = (k + 3)%nat ->
  Nat.iter n (again (fun m' => evm_create (Some (k, vs)) a y (catching_init ws l) code m')) (Some (true, m)) = Some (true, m).
Proof.
  intros Hne Hn0 Hc0 Hl. induction n as [|n IH]; [done|].
  change (again (fun m' => evm_create (Some (k, vs)) a y (catching_init ws l) code m')
    (Nat.iter n (again (fun m' => evm_create (Some (k, vs)) a y (catching_init ws l) code m')) (Some (true, m))) = Some (true, m)).
  rewrite IH. cbn [again]. rewrite C129_what_is_kept_refuted by (done || lia).
  by rewrite Hl, (proj2 (Nat.leb_gt _ _)), (proj2 (Nat.eqb_neq _ _)) by lia.
Qed.
(** An address with a nonce takes no creation, whatever the sender, the value and the init code: after
    a creation with value whose init code caught a failure, nothing can be created there. *)
Lemma taken_fails (v : option (nat * list (fld * N))) (a y : bytes) (init : cprog) (code : N) (m : gmap fld N) :
  a <> y -> default 0 (m !! nonce_of y) <> 0 \/ m !! code_of y <> None -> evm_create v a y init code m = Some (false, m).
Proof.
  intros Hne Hn. rewrite create_paths.
  set (m1 := <[nonce_of a := default 0 (m !! nonce_of a) + 1]> m).
  assert (Hy1 : m1 !! nonce_of y = m !! nonce_of y) by (unfold m1; rewrite lookup_insert_ne; [done|congruence]).
  assert (Hy2 : m1 !! code_of y = m !! code_of y) by (unfold m1; rewrite lookup_insert_ne; [done|congruence]).
  set (q := move v (and_then init (Write (code_of y) (Some code) (Done true)))).
  set (u0 := match v with None => [] | Some _ => [(true, m)] end).
  assert (E : prun (create_prog v a y init code) (Path m []) =
    prun (if bool_decide (default 0 (m !! nonce_of y) ≠ 0 ∨ m !! code_of y ≠ None) then Done false else
      Call (Write (made_at y) (Some 1) (Write (nonce_of y) (Some 1) q)) Done) (Path m1 u0)).
  { rewrite <- Hy1, <- Hy2. unfold create_prog, ask, u0. destruct v; reflexivity. }
  rewrite E, bool_decide_eq_true_2 by done. done.
Qed.
Theorem C129_address_taken_refuted (k : nat) (vs : list (fld * N)) (a y : bytes) (ws : list (fld * N)) (l : list (list (fld * N))) (code : N) (m : gmap fld N) :
  a <> y -> default 0 (m !! nonce_of y) = 0 -> m !! code_of y = None -> (1 <= length l <= k + 1)%nat ->
  exists m', evm_create (Some (k, vs)) a y (catching_init ws l) code m = Some (true, m') /\ m' !! code_of y = None /\
    forall v b init code', b <> y -> evm_create v b y init code' m' = Some (false, m').
Proof.
  intros Hne Hn0 Hc0 Hl. rewrite C129_what_is_kept_refuted by (done || lia). rewrite (proj2 (Nat.leb_le _ _)) by lia.
  eexists. split; [reflexivity|]. split; [rewrite !lookup_insert_ne by congruence; done|].
  intros v b init code' Hb. apply taken_fails; [done|]. left. by rewrite lookup_insert.
Qed.
(** ** Examples *)
Definition x_a : bytes := [1]. Definition x_y : bytes := [2].
Example C128_example :
  let m := {[ nonce_of x_a := 7 ]} : gmap fld N in
  let init : cprog := Call (Write (x_y, 9) (Some 5) (Done true)) (fun ok => if ok then Write (x_y, 8) (Some 6) (Done true) else Done false) in
  inner_ok init (start_state (Some (2%nat, [((x_y, 3), 10)])) x_a x_y m) = true /\
  match evm_create (Some (2%nat, [((x_y, 3), 10)])) x_a x_y init 77 m with
  | Some (true, m') => m' !! nonce_of x_a = Some 8 /\ m' !! code_of x_y = Some 77 /\ m' !! (x_y, 3) = Some 10 /\ m' !! (x_y, 8) = Some 6
  | _ => False
  end.
Proof. vm_compute. auto. Qed.
(** With two inner frames of the token, five caught failures lose the nonce. *)
Example C129_example :
  let m := {[ nonce_of x_a := 7 ]} : gmap fld N in
  evm_create (Some (2%nat, [((x_y, 3), 10)])) x_a x_y (catching_init [((x_y, 9), 5)] [[]; []; []; []; []]) 77 m = Some (true, m).
Proof. vm_compute. reflexivity. Qed.
