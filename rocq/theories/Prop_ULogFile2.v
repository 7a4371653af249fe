(* Property C83, for every log of a logger and not only its first one. *)
From Verif Require Import Base Mav SpecCrc SpecFrame Frame FrameProofs Names NamesProofs Sys LogFile LogFileProofs ULog Loggers LogInv LogStep
  SpecLog SpecULog LogRun LogModes LogModes2 BinProofs ULogProofs ULogStream ULogRun ULogMore CrcProofs ExFrame Prop_LogModes Prop_BinLog
  Prop_ULog Prop_ULogEx SpecVehicle ULogVehicle Prop_TLog Prop_ULogNew Prop_ULogFile.

(* The logger is always on and has done anything before; an event e opens a new log (the first message from the monitored
   system, or the alive timer, which also closes the old log).  However the packets that follow are lost, repeated and
   delayed, the file of the new log is the header followed by whole messages of the vehicle in order. *)
Theorem C83_new_log_partial : forall fuel v y0 g0 u0 ev y g b c0 p0 tail0 evs hd x ms ps,
  ulog_dialect v -> ulog_reached v y0 g0 u0 -> l_mode g0 = MAlways -> (forall p tail, ev = LMsg p tail -> is_ulog p = false) ->
  levent fuel v y0 g0 (BULog u0) ev = Ok (y, g, b, c0) -> l_open g = true -> l_open g0 = false \/ l_name g <> l_name g0 ->
  opens_stream p0 tail0 hd x -> ul_event_ok v (LMsg p0 tail0) ->
  vehicle ms x ps -> arrives v ps 0 evs -> mild_writes v y ms -> (2049 <= fuel)%nat ->
  exists y' g' u' cs data rest, lrun fuel v y g b (LMsg p0 tail0 :: evs) = Ok (y', g', BULog u', cs) /\
    content y' (l_name g) data /\ log_of hd ms data rest.
Proof.
  intros fuel v y0 g0 u0 ev y g b c0 p0 tail0 evs hd x ms ps T RE M NU EV O D OS OK V AR MW F.
  destruct (new_file _ _ _ _ _ _ _ _ _ _ RE M NU EV O D) as (u & -> & ST). eapply C83_whole_partial; eauto.
Qed.
Print Assumptions C83_new_log_partial.

(* the logger of C53_new_log_nonvacuous, which starts a second log, and the vehicle of C83_nonvacuous *)
Definition wx_env : env := mkEnv un_tbl (fun _ => 0) (fun k => nth (Nat.modulo k 3) [4; 65536; 5] 0) (fun _ => true).
Definition wx_at := match lrun 2049 wx_env lx_sys (lg_new 0 ext_ulg 0 0 MAlways 1) ux_new un_before with
  | Ok (y, g, BULog u, _) => (y, g, u) | _ => (lx_sys, lg_new 0 ext_ulg 0 0 MAlways 1, ul_new []) end.
Lemma wx_arrives : arrives wx_env vx_ps 0 vx_evs.
Proof.
  unfold vx_evs. eapply (ar_data _ _ _ 0); [reflexivity|constructor|cbn; lia|].
  apply ar_other; [split; [constructor|]; vm_compute; discriminate|reflexivity|].
  eapply (ar_data _ _ _ 2); [reflexivity|constructor|cbn; lia|]. eapply (ar_data _ _ _ 1); [reflexivity|constructor|cbn; lia|].
  apply ar_other; [exact I|reflexivity|]. eapply (ar_data _ _ _ 0); [reflexivity|constructor|cbn; lia|]. apply ar_end.
Qed.
Example C83_new_log_nonvacuous :
  let y0 := fst (fst wx_at) in let g0 := snd (fst wx_at) in let u0 := snd wx_at in
  ulog_dialect wx_env /\ ulog_reached wx_env y0 g0 u0 /\ u_exp u0 = 2 /\ l_open g0 = true /\ l_mode g0 = MAlways /\
  vehicle vx_ms vx_x vx_ps /\ arrives wx_env vx_ps 0 vx_evs /\ (forall y, mild_writes wx_env y vx_ms) /\
  match levent 2049 wx_env y0 g0 (BULog u0) LAlive with
  | Ok (y, g, b, _) => l_open g = true /\ beqs (l_name g) (l_name g0) = false /\
     match lrun 2049 wx_env y g b (LMsg (ux_data 0 16 (ux_hd ++ vx_x)) [] :: vx_evs) with
     | Ok (y', g', BULog u, _) => contentb y' (l_name g) (ux_hd ++ ux_msg ++ [2; 0; 66; 1; 7] ++ [0; 0; 69]) = true
     | _ => False end
  | _ => False end.
Proof.
  cbv zeta. split. { intros id [-> | ->]; eexists; split; reflexivity. } split.
  { exists 2049%nat, lx_sys, 0%nat, 0, 0, MAlways, 1, (repeat 0 3072), un_before. eexists. split. { split; [split; constructor|intros t []]. }
    split; [apply repeat_length|]. split. { apply Forall_forall. intros z X. apply repeat_spec in X. subst. unfold is_byte. lia. }
    split. { unfold un_before. repeat (apply Forall_cons; [first [exact Logic.I|split; [wfb|apply Forall_nil]]|]). apply Forall_nil. } vm_compute. reflexivity. }
  split; [vm_compute; reflexivity|]. split; [vm_compute; reflexivity|]. split; [vm_compute; reflexivity|].
  split; [exact vx_vehicle|]. split; [exact wx_arrives|].
  split. { intros y k m _ M _. assert (L : Z.of_nat (length m) <= 7). { cbn [vx_ms In] in M. destruct M as [<-|[<-|[<-|[<-|[<-|[]]]]]]; vm_compute; discriminate. }
    change (v_orc wx_env k) with (nth (Nat.modulo k 3) [4; 65536; 5] 0). destruct (Nat.modulo k 3) as [|[|[|[|]]]]; cbn [nth]; lia. }
  vm_compute. repeat split.
Qed.
