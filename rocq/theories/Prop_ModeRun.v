(* C47 along every run of the program: while-armed mode. *)
From Verif Require Import Base Mav SpecCrc SpecFrame Frame FrameProofs SpecAccept Accept AcceptProofs Names NamesProofs Sys LogFile LogFileProofs ULog Loggers LogInv LogStep SpecLog LogRun LogModes LogModes2
  ExFrame BinProofs Prop_LogModes Prop_TLog RouterCtl Router RouterRoute RouterRoute2 RouterSetup RouterActs RouterInv RouterStart RouterHist RouterTimers SpecRouter RouterTrace Prop_Router Prop_Hangup LogSpare LogHist RouterLogs RouterLives LogLive TeleRun ExRouter Prop_TeleRun
  Prop_Dialogue ModeRun.

(* ---- specification ------------------------------------------------------------------------------------------------- *)

(* endpoint [i] is a logger with a log file open; one that was switched off because a file could not be opened *)
Definition writing (w : world) (i : nat) : Prop := exists e g b, lookup w i = Some e /\ ep_kind e = KLog (LFile g b) /\ l_open g = true.
Definition switched_off (w : world) (i : nat) : Prop := exists e g b, lookup w i = Some e /\ ep_kind e = KLog (LFile g b) /\ l_mode g = MDisabled.
(* the log data of the configured protocol: REMOTE_LOG_DATA_BLOCK, or LOGGING_DATA and LOGGING_DATA_ACKED *)
Definition protocol_of (d : dialect) : LogModes.kind := match d with DCommon => KULog | _ => KBin end.
Definition the_armed_vehicle (fcu : Z) (ps : list packet) : bool := reported_armed (monitored fcu ps) ps false.

(* ---- theorem -------------------------------------------------------------------------------------------------------- *)

(* [ps]: the messages to the logger (C101).  Provided log data only come while the vehicle says it is armed, and heartbeats are complete,
   a log that is open belongs to an armed vehicle.  Without log data and checks for silence the log is open exactly if the vehicle is
   armed.  In both cases unless a file could not be opened. *)
Theorem C47_run_partial : forall f v c lc its w, wf_table (v_tbl v) -> 0 <= cf_sniffer c < 256 -> runs f v c its w ->
  cf_log c = Some lc -> lc_mode lc = MWhileArmed -> lc_dialect lc <> DAuto ->
  let i := length (SpecRouter.confs c) in
  exists ps, Forall wf_packet ps /\ to_record (cf_sniffer c) its ps /\
    (full_heartbeats ps ->
     (forall a p b, ps = a ++ p :: b -> data_packet (protocol_of (lc_dialect lc)) p = true -> the_armed_vehicle (lc_fcu lc) a = true) ->
     (writing w i -> ~ switched_off w i -> the_armed_vehicle (lc_fcu lc) ps = true) /\
     ((forall p, In p ps -> data_packet (protocol_of (lc_dialect lc)) p = false) ->
      (switched_off w i -> ~ writing w i) /\
      ((forall x, In x its -> ~ checks i x) -> ~ switched_off w i -> (writing w i <-> the_armed_vehicle (lc_fcu lc) ps = true)))).
Proof.
  intros f v c lc its w WT SN RUN LOG MD DI i.
  destruct (lives_runs f v c its w lc WT RUN LOG) as (y0 & l0 & l & NF & S & T & AT & LV). change (flight c) with i in *.
  assert (LG : is_logger c i). { unfold is_logger, loggers, i. rewrite LOG. destruct (lc_tlog lc); lia. }
  assert (A0 : armed_log (protocol_of (lc_dialect lc)) (lc_fcu lc) i [] [] l0).
  { unfold new_flight in NF. rewrite MD in NF. destruct (lc_dialect lc); [|destruct NF as (uj & _ & NF)|congruence]; rewrite NF; eexists; eexists; (split; [reflexivity|]);
      unfold armed_state, monitored; cbn; destruct (Z.eqb_spec (lc_fcu lc) (-1)); repeat (split; auto); try discriminate. }
  destruct (armed_lives _ _ _ _ _ _ _ _ _ _ _ LV (conj S T) A0) as (ps & W & HD & ST). exists ps. split; auto. split.
  { exists (for_logb (cf_sniffer c)). split; [intros; apply for_log_b|]. rewrite <- HD. eapply logger_traffic; eauto. }
  intros FH DA. destruct (ST FH DA) as (g & b & -> & _ & _ & M & O & P & Q). destruct AT as (e & L & K).
  assert (WR : writing w i <-> l_open g = true). { split; [intros (e' & g' & b' & L' & K' & X)|intros X; exists e, g, b; auto]. rewrite L in L'. injection L' as <-. rewrite K in K'. injection K' as <- <-. exact X. }
  assert (SO : switched_off w i <-> l_mode g = MDisabled). { split; [intros (e' & g' & b' & L' & K' & X)|intros X; exists e, g, b; auto]. rewrite L in L'. injection L' as <-. rewrite K in K'. injection K' as <- <-. exact X. }
  rewrite WR, SO. unfold the_armed_vehicle. split; [|intros ND; split].
  - intros X Y. apply O; auto. left. destruct M; [auto|contradiction].
  - intros X. rewrite (P ND X). discriminate.
  - intros NA Y. destruct M as [M|M]; [|contradiction]. rewrite (Q ND NA M). reflexivity.
Qed.

(* ---- example ---------------------------------------------------------------------------------------------------------- *)

Definition mr_conf : config := mkCf [] [mkEc (CUdp true 8 14551) true no_filters []] [] 0 (Some (mkLc DArdupilot 0 0 MWhileArmed (-1) false)) 0 false 0.
Definition mr_logger (w : world) : option (bool * lmode) := match lookup w 1 with Some e => match ep_kind e with KLog (LFile g _) => Some (l_open g, l_mode g) | _ => None end | None => None end.
(* disarmed, armed; then disarmed again *)
Definition mr_packets : list packet := [lx_hb 1 81 3; lx_hb 1 209 3; lx_hb 1 81 3].
Definition mr_checks (x : item) : bool := match x with IFire _ (CbAlive _) => true | _ => false end.
Lemma mr_run : forall n o, view (session 9 (rx_env []) (Some []) mr_conf (map dg_recv (firstn n mr_packets))) (fun w its => (mr_logger w, map fst (traffic its), existsb mr_checks its)) =
    Some (Some (o, MWhileArmed), map encode (firstn n mr_packets), false) ->
  exists its w, runs 9 (rx_env []) mr_conf its w /\ map fst (traffic its) = map encode (firstn n mr_packets) /\ (forall x, In x its -> ~ checks (length (SpecRouter.confs mr_conf)) x) /\
    (writing w (length (SpecRouter.confs mr_conf)) <-> o = true) /\ ~ switched_off w (length (SpecRouter.confs mr_conf)).
Proof.
  intros n o V. destruct (view_runs _ _ _ _ _ _ _ _ V) as (w & its & R & X). injection X as X1 X2 X3. exists its, w. split; [exact R|]. split; [exact X2|]. split.
  - intros x I (t & ->). assert (Y : existsb mr_checks its = true) by (apply existsb_exists; exists (IFire t (CbAlive (length (SpecRouter.confs mr_conf)))); auto). rewrite X3 in Y. discriminate Y.
  - unfold mr_logger in X1. change (length (SpecRouter.confs mr_conf)) with 1%nat. unfold writing, switched_off. destruct (lookup w 1) as [e|]; [|discriminate X1]. destruct (ep_kind e) as [| | |[g b|a]] eqn:K; try discriminate X1. injection X1 as X0 X1. split.
    + split; [intros (e' & g' & b' & L' & K' & Y)|intros Y; exists e, g, b; repeat split; congruence]. injection L' as <-. rewrite K in K'. injection K' as <- <-. congruence.
    + intros (e' & g' & b' & L' & K' & Y). injection L' as <-. rewrite K in K'. injection K' as <- <-. congruence.
Qed.
Example C47_run_nonvacuous :
  wf_table (v_tbl (rx_env [])) /\ Forall wf_packet mr_packets /\ full_heartbeats mr_packets /\ (forall p, In p mr_packets -> data_packet KBin p = false) /\
  (exists its w, runs 9 (rx_env []) mr_conf its w /\ map fst (traffic its) = map encode (firstn 2 mr_packets) /\ (forall x, In x its -> ~ checks (length (SpecRouter.confs mr_conf)) x) /\
    writing w (length (SpecRouter.confs mr_conf)) /\ ~ switched_off w (length (SpecRouter.confs mr_conf)) /\ the_armed_vehicle (-1) (firstn 2 mr_packets) = true) /\
  (exists its w, runs 9 (rx_env []) mr_conf its w /\ map fst (traffic its) = map encode mr_packets /\ (forall x, In x its -> ~ checks (length (SpecRouter.confs mr_conf)) x) /\
    ~ writing w (length (SpecRouter.confs mr_conf)) /\ ~ switched_off w (length (SpecRouter.confs mr_conf)) /\ the_armed_vehicle (-1) mr_packets = false).
Proof.
  split; [apply rx_tbl_wf|]. split; [repeat (apply Forall_cons; [wfb|]); apply Forall_nil|]. split. { intros p I _. cbn [mr_packets In] in I. repeat (destruct I as [<-|I]; [vm_compute; repeat constructor|]). destruct I. }
  split. { intros p I. cbn [mr_packets In] in I. repeat (destruct I as [<-|I]; [reflexivity|]). destruct I. } split.
  - destruct (mr_run 2 true) as (its & w & R & T & C & WR & SO). { vm_compute. reflexivity. } exists its, w. repeat (split; auto). apply WR. reflexivity.
  - destruct (mr_run 3 false) as (its & w & R & T & C & WR & SO). { vm_compute. reflexivity. } exists its, w. split; auto. split; auto. split; auto. split; [intros X; apply WR in X; discriminate X|]. split; auto.
Qed.

Print Assumptions C47_run_partial.
Print Assumptions C47_run_nonvacuous.
