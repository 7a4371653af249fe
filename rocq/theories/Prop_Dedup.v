(* Properties C25-C29: duplicate detection. *)
From Verif Require Import Base Dedup DedupProofs.
From Coq Require Import Permutation.

(* C25. With a clock that does not run backwards and stays below the 32 bit limit, and no hash collision among
   the packets of the history: a packet is dropped iff an identical packet was let through at most
   [period] milliseconds before. *)
Theorem C25_window : forall hash period evs,
  0 < period < 4294967296 ->
  nondecreasing 0 (map fst evs) -> last (map fst evs) 0 + period < 4294967296 ->
  (forall m1 m2, In m1 (map snd evs) -> In m2 (map snd evs) -> hash m1 = hash m2 -> m1 = m2) ->
  exists d oks, dedup_run hash (dedup_new period) evs = Ok (d, oks) /\ length oks = length evs /\
    forall i t m, nth_error evs i = Some (t, m) ->
      (nth_error oks i = Some false <->
       exists j t', (j < i)%nat /\ nth_error evs j = Some (t', m) /\ nth_error oks j = Some true /\
                    t <= t' + period).
Proof.
  intros hash period evs PP ND LB INJ.
  destruct (dedup_exact hash period evs PP ND LB) as (d & oks & R & LEN & _ & _ & _ & SP).
  exists d, oks. split; [exact R|]. split; [exact LEN|]. intros i t m Hi. rewrite (SP i t m Hi). split.
  - intros (j & t' & m' & Lj & H1 & H2 & H3 & H4). exists j, t'.
    assert (m' = m).
    { apply INJ; auto; apply nth_error_In in Hi, H1; [change m' with (snd (t', m')) | change m with (snd (t, m))];
        apply in_map; auto. }
    subst m'. auto.
  - intros (j & t' & Lj & H1 & H2 & H3). exists j, t', m. auto.
Qed.

(* Without the collision hypothesis: the same with "identical hash". *)
Theorem C25_window_by_hash : forall hash period evs,
  0 < period < 4294967296 ->
  nondecreasing 0 (map fst evs) -> last (map fst evs) 0 + period < 4294967296 ->
  exists d oks, dedup_run hash (dedup_new period) evs = Ok (d, oks) /\ length oks = length evs /\
    forall i t m, nth_error evs i = Some (t, m) ->
      (nth_error oks i = Some false <->
       exists j t' m', (j < i)%nat /\ nth_error evs j = Some (t', m') /\ hash m' = hash m /\
                       nth_error oks j = Some true /\ t <= t' + period).
Proof.
  intros hash period evs PP ND LB.
  destruct (dedup_exact hash period evs PP ND LB) as (d & oks & R & LEN & _ & _ & _ & SP).
  exists d, oks. auto.
Qed.

(* a collision free hash on short messages, for the examples *)
Definition ex_hash (m : list Z) : Z := fold_left (fun a b => a * 256 + b + 1) m 0.

Example C25_nonvacuous :
  let evs := [(5, [1;2]); (7, [3]); (15, [1;2]); (16, [1;2]); (17, [3]); (26, [1;2]); (27, [1;2])] in
  nondecreasing 0 (map fst evs) /\ last (map fst evs) 0 + 10 < 4294967296 /\
  match dedup_run ex_hash (dedup_new 10) evs with
  | Ok (_, oks) => oks = [true; true; false; true; false; false; true]
  | _ => False end.
Proof. vm_compute. repeat split; discriminate. Qed.

(* C26. Refuted: a duplicate does not restart the timer.  Copies 8 and 4 ms apart, period 10 ms: the third
   copy is let through although every copy came within the period of the one before. *)
Theorem C26_restart_refuted : exists hash period evs d oks,
  0 < period /\ (forall i t t' m, nth_error evs i = Some (t, m) -> nth_error evs (S i) = Some (t', m) -> t' <= t + period) /\
  Forall (fun e => snd e = snd (hd (0, []) evs)) evs /\
  dedup_run hash (dedup_new period) evs = Ok (d, oks) /\ nth_error oks 2 = Some true.
Proof.
  exists ex_hash, 10, [(0, [1]); (8, [1]); (12, [1])]. do 2 eexists. split; [lia|]. split.
  - intros [|[|[|i]]] t t' m H1 H2; cbn in H1, H2; try discriminate; inversion H1; inversion H2; subst; try lia; destruct i; discriminate.
  - split; [repeat constructor|]. split; vm_compute; reflexivity.
Qed.

(* What holds: the timer of a message runs from the copy that was let through.  Copies that arrive while it runs are dropped, however many;
   two copies let through are more than a period apart; and a copy after a period without any is let through. *)
Theorem C26_timer_partial : forall hash period evs,
  0 < period < 4294967296 ->
  nondecreasing 0 (map fst evs) -> last (map fst evs) 0 + period < 4294967296 ->
  (forall m1 m2, In m1 (map snd evs) -> In m2 (map snd evs) -> hash m1 = hash m2 -> m1 = m2) ->
  exists d oks, dedup_run hash (dedup_new period) evs = Ok (d, oks) /\
    (forall i j t t' m, (i < j)%nat -> nth_error evs i = Some (t, m) -> nth_error oks i = Some true -> nth_error evs j = Some (t', m) ->
      (t' <= t + period -> nth_error oks j = Some false) /\ (nth_error oks j = Some true -> t + period < t')) /\
    (forall j t' m, nth_error evs j = Some (t', m) -> (forall i t, (i < j)%nat -> nth_error evs i = Some (t, m) -> t + period < t') -> nth_error oks j = Some true).
Proof.
  intros hash period evs PP ND LB INJ. destruct (C25_window hash period evs PP ND LB INJ) as (d & oks & R & LEN & W). exists d, oks. split; auto. split.
  - intros i j t t' m LT Hi Oi Hj. assert (A : t' <= t + period -> nth_error oks j = Some false). { intros B. apply (W _ _ _ Hj). exists i, t. auto. }
    split; auto. intros Oj. destruct (Z_lt_dec (t + period) t'); auto. rewrite A in Oj by lia. discriminate.
  - intros j t' m Hj Q. assert (J : (j < length oks)%nat). { rewrite LEN. apply nth_error_Some. congruence. }
    destruct (nth_error oks j) as [[|]|] eqn:O; auto. 2:{ apply nth_error_None in O. lia. }
    apply (W _ _ _ Hj) in O. destruct O as (i & t & LT & Hi & _ & B). specialize (Q i t LT Hi). lia.
Qed.

(* C27. For every history (clock values arbitrary integers, any period changes) expiry never erases a missing
   entry (which would be undefined behaviour) and the set is exactly the queued hashes, each once. *)
Theorem C27_consistent : forall hash p evs, exists d,
  dedup_steps hash (dedup_new p) evs = Ok d /\
  NoDup (map snd (dd_queue d)) /\ Permutation (map snd (dd_queue d)) (dd_set d).
Proof.
  intros. destruct (dedup_steps_ok hash evs (dedup_new p) (dd_ok_new p)) as (d & E & H1 & H2). eauto.
Qed.

Example C27_nonvacuous :
  match dedup_steps ex_hash (dedup_new 10)
    [DCheck 5 [1]; DCheck (-3) [2]; DCheck 4294967290 [1]; DPeriod 4294967295; DCheck 3 [3]; DCheck 1 [1]] with
  | Ok d => length (dd_queue d) = 2%nat | _ => False end.
Proof. vm_compute. reflexivity. Qed.

(* C28. Refuted, first way: when timestamp + period passes 2^32 ms (49.7 days), the entry expires at once
   and a copy one millisecond later is let through. *)
Theorem C28_early_expiry_refuted : forall hash period t0 m,
  0 < period < 4294967296 -> 0 <= t0 -> t0 + 1 < 4294967296 -> 4294967296 <= t0 + period ->
  exists d, dedup_run hash (dedup_new period) [(t0, m); (t0 + 1, m)] = Ok (d, [true; true]).
Proof.
  intros hash period t0 m P T0 T1 W.
  assert (E : u32 (t0 + period) = t0 + period - 4294967296).
  { unfold u32. symmetry. apply Z.mod_unique with 1; lia. }
  cbn [dedup_run]. unfold dedup_check, dedup_new. cbn [dd_period dd_queue dd_set].
  rewrite (u32_small period), (u32_small t0), (u32_small (t0 + 1)) by lia.
  destruct (Z.eqb_spec period 0); [lia|]. cbn [expire bind set_mem existsb]. cbn [dd_period dd_queue dd_set app].
  destruct (Z.eqb_spec period 0); [lia|]. cbn [expire]. rewrite E.
  destruct (Z.ltb_spec (t0 + period - 4294967296) (t0 + 1)); [|lia].
  cbn [set_erase]. rewrite Z.eqb_refl. cbn [bind expire set_mem existsb]. eauto.
Qed.

(* Second way: once the clock has wrapped, an old entry blocks a copy that arrives (almost 50 days) later. *)
Theorem C28_stuck_refuted : forall hash period t0 m k,
  0 < period -> 0 <= t0 -> t0 + period < 4294967296 -> 0 <= k <= t0 + period ->
  exists d, dedup_run hash (dedup_new period) [(t0, m); (4294967296 + k, m)] = Ok (d, [true; false]).
Proof.
  intros hash period t0 m k P T0 W K.
  assert (E : u32 (4294967296 + k) = k).
  { unfold u32. symmetry. apply Z.mod_unique with 1; lia. }
  cbn [dedup_run]. unfold dedup_check, dedup_new. cbn [dd_period dd_queue dd_set].
  rewrite (u32_small period), (u32_small t0), E by lia.
  destruct (Z.eqb_spec period 0); [lia|]. cbn [expire bind set_mem existsb]. cbn [dd_period dd_queue dd_set app].
  destruct (Z.eqb_spec period 0); [lia|]. cbn [expire]. rewrite (u32_small (t0 + period)) by lia.
  destruct (Z.ltb_spec (t0 + period) k); [lia|].
  cbn [bind set_mem existsb]. rewrite Z.eqb_refl. cbn [orb bind]. eauto.
Qed.

Example C28_nonvacuous : (* period 1 s; entry made one minute before the wrap, copy one hour after it is dropped *)
  match dedup_run ex_hash (dedup_new 1000) [(4294907296, [1]); (4298567296, [1])] with
  | Ok (_, oks) => oks = [true; false] | _ => False end.
Proof. vm_compute. reflexivity. Qed.

(* What holds: below 2^32 ms of uptime an entry older than the period never blocks. *)
Theorem C28_long_uptime_partial : forall hash period evs now m,
  0 < period -> nondecreasing 0 (map fst evs ++ [now]) -> now + period < 4294967296 ->
  (forall t m', In (t, m') evs -> hash m' = hash m -> t + period < now) ->
  exists d oks, dedup_run hash (dedup_new period) (evs ++ [(now, m)]) = Ok (d, oks ++ [true]).
Proof.
  intros hash period evs now m P ND LB OLD.
  destruct (dedup_exact hash period (evs ++ [(now, m)])) as (d & oks & R & LEN & _ & _ & _ & SP).
  - assert (0 <= now); [|lia]. apply nondecreasing_app in ND. destruct ND as [ND L]. apply last_bound in ND. lia.
  - rewrite map_app. exact ND.
  - rewrite map_app. cbn [map fst]. rewrite last_last. exact LB.
  - rewrite app_length in LEN. cbn [length] in LEN.
    destruct (exists_last (l := oks)) as (oks' & b & ->); [intros ->; cbn in LEN; lia|].
    exists d, oks'. rewrite R. rewrite app_length in LEN. cbn in LEN.
    destruct b; auto. exfalso.
    destruct (SP (length evs) now m) as [S _].
    { rewrite nth_error_app2, Nat.sub_diag by lia. reflexivity. }
    destruct S as (j & t' & m' & Lj & H1 & H2 & _ & H4).
    { rewrite nth_error_app2 by lia. replace (length evs - length oks')%nat with O by lia. reflexivity. }
    rewrite nth_error_app1 in H1 by lia. apply nth_error_In in H1. specialize (OLD _ _ H1 H2). lia.
Qed.

(* C29. Period 0: everything passes and nothing is remembered. *)
Theorem C29_off : forall hash evs,
  dedup_run hash (dedup_new 0) evs = Ok (dedup_new 0, map (fun _ => true) evs).
Proof.
  intros hash. induction evs as [|[now msg] evs]; [reflexivity|].
  cbn [dedup_run map]. rewrite dedup_check_off by reflexivity. cbn [bind]. rewrite IHevs. reflexivity.
Qed.

Print Assumptions C25_window.
Print Assumptions C25_window_by_hash.
Print Assumptions C26_restart_refuted.
Print Assumptions C26_timer_partial.
Print Assumptions C27_consistent.
Print Assumptions C28_early_expiry_refuted.
Print Assumptions C28_stuck_refuted.
Print Assumptions C28_long_uptime_partial.
Print Assumptions C29_off.
