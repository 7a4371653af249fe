(* C61, C33: the end of the program, reconnection in the middle of a packet. *)
From Verif Require Import Base Mav SpecCrc SpecFrame Frame FrameProofs FrameRefine FrameLink Dedup SpecAccept Accept AcceptProofs Names NamesProofs Sys LogFile LogFileProofs ULog Loggers LogInv LogStep LogMono RouterCtl Router
  RouterRoute RouterRoute2 RouterSetup RouterActs RouterInv RouterLearn RouterStep RouterStart RouterHist SpecRouter SpecLife RouterTrace RouterLife RouterLife2 RouterLife3 RouterTimers RouterTimers2 RouterLife5 RouterStays SpecEnd RouterEnd RouterEnd2 RouterFinish
  Prop_Router4 ExFrame ExRouter.

Definition lx_log (d : dialect) (tlog : bool) : logconf := mkLc d 0 0 MAlways (-1) tlog.
Definition fin_conf (d : dialect) (tlog : bool) : config := mkCf [] [mkEc (CUdp true 8 14551) true no_filters []] [] 0 (Some (lx_log d tlog)) 0 false 0.
Definition fin_events : list (list event) := [[rx_from 0 (5, 1000) (rx_hb 1 1 0)]; [rx_from 0 (5, 1000) (rx_hb 1 1 1)]; [ESignal]].
Definition fin_view (f : nat) (v : env) (c : config) (w : world) :=
  (w_exit w, map (fun k => match lookup w k with Some e => log_file e | None => None end) [1; 2]%nat,
   match finish f v w with
   | Ok (w', _) => Some (map (fun k => match lookup w' k with Some e => log_file e | None => None end) [1; 2]%nat, map (fun d => (d_name d, d_w d)) (entries (y_fs (w_sys w'))))
   | _ => None end).

(* 00000-3506-05-03_16-16-22 *)
Definition fin_stem (i : Z) : list Z := [48; 48; 48; 48; 48 + i; 45; 51; 53; 48; 54; 45; 48; 53; 45; 48; 51; 95; 49; 54; 45; 49; 54; 45; 50; 50].
Definition fin_bin : list Z := fin_stem 0 ++ [46; 98; 105; 110].
Definition fin_tlog : list Z := fin_stem 1 ++ [46; 116; 108; 111; 103].

(* C61.  Full statement: whatever the run, after [finish] every logger endpoint has its file closed, and its file is read-only. *)
Definition all_closed (w : world) : Prop := forall k e o n, lookup w k = Some e -> log_file e = Some (o, n) ->
  o = false /\ forall d, In d (entries (y_fs (w_sys w))) -> d_name d = n -> d_w d = false.

(* the flight stack log is stopped, the telemetry log is not: mainloop.cpp:314-325 *)
Theorem C61_telemetry_log_refuted : exists f v c its w w' its' k e n, wf_table (v_tbl v) /\ runs f v c its w /\ w_exit w = Some 0 /\ (forall i, 0 <= v_orc v i) /\
  finish f v w = Ok (w', its') /\ lookup w' k = Some e /\ log_file e = Some (true, n) /\
  exists d, In d (entries (y_fs (w_sys w'))) /\ d_name d = n /\ d_w d = true.
Proof.
  destruct (view_runs _ (fun w its => fin_view 20 (rx_env []) (fin_conf DArdupilot true) w) 
    (Some 0, [Some (true, fin_bin); Some (true, fin_tlog)], Some ([Some (false, fin_bin); Some (true, fin_tlog)], [(fin_bin, false); (fin_tlog, true)]))
    20 (rx_env []) (Some []) (fin_conf DArdupilot true) fin_events) as (w & its & R & X). { vm_compute. reflexivity. }
  unfold fin_view in X. destruct (finish 20 (rx_env []) w) as [[w' its']| |] eqn:FI; try (exfalso; clear - X; discriminate X). cbn [map] in X. injection X as EX _ _ _ O2 EN.
  destruct (lookup w' 2) as [e|] eqn:L; [|exfalso; clear - O2; discriminate O2].
  exists 20%nat, (rx_env []), (fin_conf DArdupilot true), its, w, w', its', 2%nat, e, fin_tlog. split; [apply rx_tbl_wf|]. split; [exact R|]. split; [exact EX|].
  split. { intros i. cbn. unfold rx_orc. cbn. lia. } split; [exact FI|]. split; [exact L|]. split; [exact O2|].
  assert (IN : In (fin_tlog, true) (map (fun d => (d_name d, d_w d)) (entries (y_fs (w_sys w'))))) by (rewrite EN; right; left; reflexivity).
  apply in_map_iff in IN. destruct IN as (d & D & ID). injection D as D1 D2. exists d. auto.
Qed.

(* proved: the flight stack log.  Missing: the telemetry log, see above *)
Theorem C61_flight_stack_log_partial : forall f v c lc its w w' its', wf_table (v_tbl v) -> runs f v c its w -> cf_log c = Some lc -> finish f v w = Ok (w', its') ->
  exists e e', lookup w (length (confs c)) = Some e /\ lookup w' (length (confs c)) = Some e' /\
  match log_file e with
  | None => log_file e' = None
  | Some (open, n) => log_file e' = Some (false, n) /\
      (open = true -> (forall i, 0 <= v_orc v i) -> forall d, In d (entries (y_fs (w_sys w'))) -> d_name d = n -> d_w d = false)
  end.
Proof.
  intros f v c lc its w w' its' WT R CL FI. destruct (settled_runs _ _ _ _ _ WT R) as ([I (arm & Tw) LF SY FA] & HG & VA).
  pose proof (runs_log _ _ _ _ _ WT R) as WL. rewrite CL in WL.
  destruct (finish_closed _ _ _ _ _ _ _ _ _ I Tw SY WL FI) as (e & e' & L & L' & M). exists e, e'. split; auto. split; auto.
  destruct (log_file e) as [[o n]|]; auto. destruct M as [M1 M2]. split; auto. intros O V. apply M2; auto. intros i _. apply V.
Qed.
(* without telemetry log and with every call succeeding, an open flight stack log is closed and read-only: the full statement *)
Corollary C61_no_telemetry_partial : forall f v c lc its w w' its', wf_table (v_tbl v) -> runs f v c its w -> cf_log c = Some lc -> lc_tlog lc = false ->
  (forall i, 0 <= v_orc v i) -> (exists e n, lookup w (length (confs c)) = Some e /\ log_file e = Some (true, n)) -> finish f v w = Ok (w', its') ->
  exists e' n, lookup w' (length (confs c)) = Some e' /\ log_file e' = Some (false, n) /\ forall d, In d (entries (y_fs (w_sys w'))) -> d_name d = n -> d_w d = false.
Proof.
  intros f v c lc its w w' its' WT R CL NT V (e0 & n & L0 & O0) FI. destruct (C61_flight_stack_log_partial _ _ _ _ _ _ _ _ WT R CL FI) as (e & e' & L & L' & M).
  assert (e = e0) by congruence. subst e0. rewrite O0 in M. destruct M as [M1 M2]. exists e', n. auto.
Qed.
Example C61_nonvacuous : exists w its w' its' e n, runs 20 (rx_env []) (fin_conf DArdupilot false) its w /\ finish 20 (rx_env []) w = Ok (w', its') /\ (forall i, 0 <= v_orc (rx_env []) i) /\
  lookup w (length (confs (fin_conf DArdupilot false))) = Some e /\ log_file e = Some (true, n).
Proof.
  destruct (view_runs _ (fun w its => fin_view 20 (rx_env []) (fin_conf DArdupilot false) w) (Some 0, [Some (true, fin_bin); None], Some ([Some (false, fin_bin); None], [(fin_bin, false)]))
    20 (rx_env []) (Some []) (fin_conf DArdupilot false) fin_events) as (w & its & R & X). { vm_compute. reflexivity. }
  unfold fin_view in X. destruct (finish 20 (rx_env []) w) as [[w' its']| |] eqn:FI; try (exfalso; clear - X; discriminate X). cbn [map] in X. injection X as EX O1 _ _ _ EN.
  destruct (lookup w 1) as [e|] eqn:L; [|exfalso; clear - O1; discriminate O1]. exists w, its, w', its', e, fin_bin. repeat split; auto. intros i. cbn. unfold rx_orc. cbn. lia.
Qed.

(* ---- C33 -------------------------------------------------------------------------------------------------------------- *)

(* ten bytes of a heartbeat, end of file, reconnection, a whole heartbeat *)
Definition re_conf : config := mkCf [] [] [mkEc (CTcp 5 5760) true no_filters []; mkEc (CTcp 5 5761) true no_filters []] 0 None 0 false 0.
Definition re_events : list (list event) := 
  [[EEp 0 (Some (OsData (firstn 10 (encode (rx_hb 1 1 0))) (0, 0))) false false]; [EEp 0 (Some (OsData [] (0, 0))) false false]; [ETimer 1 true false]; [rx_from 0 (0,0) (rx_hb 1 1 1)]].

(* the data read on endpoint k, and the packets received from it *)
Definition reads (h : list item) (k : nat) : list (list Z) :=
  flat_map (fun x => match x with IRead i (OsData bs _) => if Nat.eqb i k then [bs] else [] | _ => [] end) h.
Definition got (h : list item) (k : nat) : list (list Z) :=
  flat_map (fun x => match x with IRecv i bs _ _ _ => if Nat.eqb i k then [bs] else [] | _ => [] end) h.

(* the first packet of the new connection is not received: its beginning is taken as the end of the packet the old connection left
   unfinished (reopening the connection does not reset the receive buffer) *)
Theorem C33_clean_framing_refuted : exists f v c its w k p pre post t, wf_table (v_tbl v) /\ runs f v c its w /\ its = pre ++ IFire t (CbRetry k) :: post /\
  ended pre k = true /\ wf_packet p /\ acceptable (v_tbl v) p /\ reads post k = [encode p] /\ got post k = [].
Proof.
  destruct (view_runs _ (fun w its => its) 
    [IRead 0 (OsData (firstn 10 (encode (rx_hb 1 1 0))) (0, 0)); IRead 0 (OsData [] (0, 0)); IFire 1 (CbRetry 0); IRead 0 (OsData (encode (rx_hb 1 1 1)) (0, 0))]
    20 (rx_env []) (Some []) re_conf re_events) as (w & its & R & X). { vm_compute. reflexivity. }
  exists 20%nat, (rx_env []), re_conf, its, w, 0%nat, (rx_hb 1 1 1), [IRead 0 (OsData (firstn 10 (encode (rx_hb 1 1 0))) (0, 0)); IRead 0 (OsData [] (0, 0))], [IRead 0 (OsData (encode (rx_hb 1 1 1)) (0, 0))], 1%nat.
  split; [apply rx_tbl_wf|]. split; [exact R|]. split; [exact X|]. split; [reflexivity|]. 
  split. { apply wf_packetb_ok. vm_compute. reflexivity. } split. { vm_compute. reflexivity. } split; reflexivity.
Qed.

Print Assumptions C61_telemetry_log_refuted.
Print Assumptions C61_flight_stack_log_partial.
Print Assumptions C61_no_telemetry_partial.
Print Assumptions C33_clean_framing_refuted.
