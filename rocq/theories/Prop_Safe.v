(* Property C84: no traffic, timing or failing system call brings the router into undefined behaviour or an endless loop. *)
From Verif Require Import Base Mav SpecFrame Frame Dedup Accept Names NamesProofs Sys LogFile LogFileProofs ULog Loggers Router RouterSetup RouterRoute RouterStart
  SpecRouter RouterBytes LogSafe RouterSafe RouterSafe2 SpecCrc FrameProofs FrameLink ExFrame ExRouter Prop_Router Prop_Link.

(* Whatever the router did so far, whatever epoll then reports and whatever the system calls answer (v_orc v is arbitrary): the iteration of the main
   loop comes to its end.  [step] is UB for an access outside of a buffer, to a destroyed endpoint or timer, for a division by zero, and Fuel for a
   loop that does not end; f, the only bound, is arbitrary, too.  The message definition of REMOTE_LOG_DATA_BLOCK is 206 bytes long. *)
Theorem C84_iteration_partial : forall f v c its w evs, wf_table (v_tbl v) -> block_table (v_tbl v) -> ~ ulog_configured c -> runs f v c its w ->
  w_exit w = None -> Forall (wf_event w) evs -> exists w' its', step f v w evs = Ok (w', its') /\ runs f v c (its ++ its') w'.
Proof.
  intros f v c its w evs WT BT NU R X WE. destruct (step_fine _ _ _ _ _ _ WT BT NU R WE) as [[w' its'] E]. exists w', its'. split; auto.
  destruct R as (d & pos & w0 & S & EX). exists d, pos, w0. split; auto. econstructor; eauto.
Qed.

(* nor does the end of the program, at any moment *)
Theorem C84_exit_partial : forall f v c its w, wf_table (v_tbl v) -> block_table (v_tbl v) -> ~ ulog_configured c -> runs f v c its w ->
  exists w' its', finish f v w = Ok (w', its').
Proof. intros f v c its w WT BT NU R. destruct (finish_fine _ _ _ _ _ WT BT NU R) as [[w' its'] E]. eauto. Qed.

(* hence, for every way the world outside goes on, the router goes on until it is asked to exit *)
Theorem C84_goes_on_partial : forall f v c d pos w0 (world_outside : list item -> world -> list event), wf_table (v_tbl v) -> block_table (v_tbl v) -> ~ ulog_configured c ->
  start v (boot d pos) c = Some w0 -> (forall its w, Forall (wf_event w) (world_outside its w)) ->
  forall n, exists its w k, runs f v c its w /\ (k = n \/ (k < n)%nat /\ w_exit w <> None) /\
    Nat.iter k (fun r => match r with Ok (w, its) => match step f v w (world_outside its w) with Ok (w', its') => Ok (w', its ++ its') | UB => UB | Fuel => Fuel end | x => x end)
      (Ok (w0, [])) = Ok (w, its).
Proof.
  intros f v c d pos w0 out WT BT NU S WO. induction n as [|n (its & w & k & R & K & E)].
  - exists [], w0, O. split. { exists d, pos, w0. split; auto. constructor. } auto.
  - destruct (w_exit w) eqn:X. { exists its, w, k. split; auto. split; auto. right. split; [|congruence]. lia. }
    assert (k = n) by (destruct K as [|[_ K]]; [auto|congruence]). subst k. destruct (C84_iteration_partial f v c its w (out its w) WT BT NU R X (WO its w)) as (w' & its' & ST & R').
    exists (its ++ its'), w', (Datatypes.S n). split; auto. split; auto. change (Nat.iter (Datatypes.S n)) with (fun (F : res (world * list item) -> res (world * list item)) x => F (Nat.iter n F x)). cbv beta. rewrite E, ST. reflexivity.
Qed.

(* ---- refuted with the ULog logger ---------------------------------------------------------------------------------------- *)

(* A vehicle that logs; then one valid packet, after a lost one, whose first message offset lies behind its data. *)
Definition sf_data (seq off : Z) (data : list Z) : packet := seal 193 (mkPacket (V2 0 0 []) 0 1 1 266 (le16 seq ++ [0; 0; Z.of_nat (length data); off] ++ data) 0 0).
Definition sf_head : packet := sf_data 0 16 ([85; 76; 111; 103; 1; 18; 53] ++ [1; 2; 3; 4; 5; 6; 7; 8; 9] ++ [3; 0; 65; 7; 8; 9] ++ [2; 0; 66]).
Theorem C84_ulog_refuted : exists f v c its w p, wf_table (v_tbl v) /\ block_table (v_tbl v) /\ runs f v c its w /\ w_exit w = None /\ wf_packet p /\ acceptable (v_tbl v) p /\
  Forall (wf_event w) [rx_from 0 (5, 1000) p] /\ step f v w [rx_from 0 (5, 1000) p] = UB.
Proof.
  destruct (after_runs 700 (rx_env []) (Some []) lk_ulog [[rx_from 0 (5, 1000) (rx_hb 1 1 0)]; [rx_from 0 (5, 1000) sf_head]]
    (fun w _ => match w_exit w with None => forallb (wf_eventb w) [rx_from 0 (5, 1000) (sf_data 9 200 [1; 0; 65])] && match step 700 (rx_env []) w [rx_from 0 (5, 1000) (sf_data 9 200 [1; 0; 65])] with UB => true | _ => false end | Some _ => false end))
    as (w & its & _ & R & P). { vm_compute. reflexivity. }
  destruct (w_exit w) eqn:X; [discriminate|]. apply andb_prop in P. destruct P as [P1 P2].
  exists 700%nat, (rx_env []), lk_ulog, its, w, (sf_data 9 200 [1; 0; 65]). split; [apply rx_tbl_wf|].
  split. { intros e E. vm_compute in E. injection E as <-. reflexivity. }
  split; auto. split; auto. split; [apply wf_packetb_ok; vm_compute; reflexivity|]. split; [vm_compute; reflexivity|].
  split. { apply Forall_forall. intros e I. rewrite forallb_forall in P1. apply wf_eventb_ok. auto. }
  destruct (step 700 (rx_env []) w _); try discriminate. reflexivity.
Qed.

(* ---- example ------------------------------------------------------------------------------------------------------------------- *)

(* a UART at two speeds and a UDP client in a group, a UDP server, a TCP client and a TCP server, a binary and a telemetry log *)
Example C84_nonvacuous : exists w its, runs 9 (rx_env []) rt_conf its w /\ wf_table (v_tbl (rx_env [])) /\ block_table (v_tbl (rx_env [])) /\ ~ ulog_configured rt_conf /\
  w_exit w = None /\ (0 < length (rt_seen its))%nat /\ Forall (wf_event w) [rx_from 2 (5, 1000) (rx_cmd 255 190 1 1 0); EServer; ETimer 1 true false].
Proof.
  destruct (after_runs 9 (rx_env []) (Some []) rt_conf rt_events (fun w its => match w_exit w with None => Nat.ltb 0 (length (rt_seen its)) &&
    forallb (wf_eventb w) [rx_from 2 (5, 1000) (rx_cmd 255 190 1 1 0); EServer; ETimer 1 true false] | Some _ => false end)) as (w & its & _ & R & P). { vm_compute. reflexivity. }
  destruct (w_exit w) eqn:X; [discriminate|]. apply andb_prop in P. destruct P as [P1 P2]. exists w, its. split; auto. split; [apply rx_tbl_wf|].
  split. { intros e E. vm_compute in E. injection E as <-. reflexivity. } split. { intros (lc & E & N). injection E as <-. apply N. reflexivity. } split; auto.
  split. { apply Nat.ltb_lt; auto. } apply Forall_forall. intros e I. rewrite forallb_forall in P2. apply wf_eventb_ok. auto.
Qed.

Print Assumptions C84_iteration_partial.
Print Assumptions C84_exit_partial.
Print Assumptions C84_goes_on_partial.
Print Assumptions C84_ulog_refuted.
