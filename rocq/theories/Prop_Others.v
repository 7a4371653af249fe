(* C109: files in the log directory that are no logs. *)
From Verif Require Import RouterCtl RouterRoute RouterRoute2 RouterActs RouterInv RouterStep RouterLearn RouterStart RouterHist RouterBytes RouterTimers RouterTimers2 Prop_Router3 RouterFinish Prop_End.
From Verif Require Import Base Mav SpecFrame Frame FrameProofs Names NamesProofs Sys LogFile LogFileProofs ULog Loggers LogInv LogStep LogRun Router RouterSetup SpecRouter ExRouter LogSpare LogHist RouterLogs RouterLives Prop_LogFile Accept ULAppend.

(* not the name of a log: it neither begins like one (number-date_time) nor is it the name the program gives to any log *)
Definition no_log (n : list Z) : Prop := n <> [] /\ (forall i, ~ log_pattern n i) /\ forall k t ext, n <> log_name k t ext.
(* the entries of a directory with that name *)
Definition entries_of (n : list Z) (l : list dirent) : list dirent := filter (fun e => beqs (d_name e) n) l.

Lemma no_foreign : forall ext, foreign_ext no_log ext.
Proof. intros ext. split; [intros k t (_ & _ & N); eapply N; reflexivity|intros (N & _); auto]. Qed.
Lemma new_foreign : forall c lc l, new_flight c lc l -> foreign no_log l.
Proof.
  intros c lc l H. unfold new_flight in H. pose proof (no_foreign ext_bin) as A. pose proof (no_foreign ext_ulg) as B. destruct (lc_dialect lc).
  - subst l. split; [exact A|apply A].
  - destruct H as (uj & _ & ->). split; [exact B|apply B].
  - subst l. split; [exact A|]. split; [exact B|exact I].
Qed.
Lemma levent_spare : forall P f v y g b e y' g' b' cs, levent f v y g b e = Ok (y', g', b', cs) -> spare P y g y' g'.
Proof.
  intros P f v y g b e y' g' b' cs H. destruct e as [p t| |]; cbn [levent] in H.
  - inv_bind H. inversion H; subst. eapply spare_lwrite; eauto.
  - destruct (l_tstart g); [|inversion H; subst; apply spare_refl]. destruct (lcb_start y g b) as [[y1 g1] c1] eqn:C. inversion H; subst. eapply spare_cb_start; eauto.
  - destruct (l_talive g); [|inversion H; subst; apply spare_refl]. eapply spare_cb_alive; eauto.
Qed.
Lemma kevent_spare : forall P f v y l e y' l' cs, kevent f v y l e = Ok (y', l', cs) -> foreign P l -> foreign P l' /\ spared P y y'.
Proof.
  intros P f v y l e y' l' cs H F. destruct l as [g b|a]; cbn [kevent] in H.
  - inv_bind H. inversion H; subst. destruct (levent_spare P _ _ _ _ _ _ _ _ _ _ E F). split; auto.
  - assert (Q : forall g b y1 g1 b1 c1, a_inner a = Some (g, b) -> levent f v y g b e = Ok (y1, g1, b1, c1) -> foreign P (LAuto (mkAuto (a_ep a) (a_minfree a) (a_maxlogs a) (a_mode a) (a_fcu a) (a_target a) (Some (g1, b1)))) /\ spared P y y1).
    { intros g b y1 g1 b1 c1 I E. destruct F as (F1 & F2 & F3). rewrite I in F3. destruct (levent_spare P _ _ _ _ _ _ _ _ _ _ E F3). split; auto. cbn [foreign a_inner]. auto. }
    destruct e as [p t| |].
    + inv_bind H. inversion H; subst. eapply spare_auto_write; eauto.
    + destruct (a_inner a) as [[g b]|] eqn:I; [|inversion H; subst; split; auto; apply spared_refl]. inv_bind H. inversion H; subst. eapply Q; eauto.
    + destruct (a_inner a) as [[g b]|] eqn:I; [|inversion H; subst; split; auto; apply spared_refl]. inv_bind H. inversion H; subst. eapply Q; eauto.
Qed.
Lemma lhist_spare : forall P f v i y l n y' l' cs, lhist P f v i y l n y' l' cs -> foreign P l -> foreign P l' /\ spared P y y'.
Proof.
  intros P f v i y l n y' l' cs H. induction H; intros F. { split; auto. apply spared_refl. }
  - destruct (kevent_spare _ _ _ _ _ _ _ _ _ H0 F) as (F1 & S1). destruct (IHlhist F1) as (F2 & S2). split; auto. eapply spared_trans; eauto.
  - destruct (IHlhist F) as (F2 & S2). split; auto. eapply spared_trans; eauto.
Qed.
Lemma lives_spare : forall P f v i y l its y' l', lives P f v i y l its y' l' -> foreign P l -> foreign P l' /\ spared P y y'.
Proof.
  intros P f v i y l its y' l' H. induction H; intros F. { split; auto. apply spared_refl. }
  - destruct (IHlives F) as (F1 & S1). destruct (lhist_spare _ _ _ _ _ _ _ _ _ _ H0 F1) as (F2 & S2). destruct (kevent_spare _ _ _ _ _ _ _ _ _ H4 F2) as (F3 & S3). destruct (lhist_spare _ _ _ _ _ _ _ _ _ _ H7 F3) as (F4 & S4).
    split; auto. eauto using spared_trans.
  - destruct (IHlives F) as (F1 & S1). destruct (lhist_spare _ _ _ _ _ _ _ _ _ _ H2 F1) as (F2 & S2). split; auto. eapply spared_trans; eauto.
Qed.

Lemma start_others : forall v d pos c w0 lc, start v (boot d pos) c = Some w0 -> cf_log c = Some lc -> exists l, new_flight c lc l /\ at_log (flight c) w0 l /\ clean (flight c) w0 /\ others (flight c) no_log w0.
Proof.
  intros v d pos c w0 lc H CL. destruct (start_flight _ _ _ _ _ H CL) as ((l & AL & NF) & C & _). destruct (start_logs _ _ _ _ _ H CL) as (l1 & _ & _ & _ & ALL). exists l. split; auto. split; auto. split; auto.
  intros j l' NE A. destruct (ALL j l' A) as [(-> & _)|(_ & _ & ->)]; [congruence|]. split; [exact (no_foreign ext_tlog)|apply (no_foreign ext_tlog)].
Qed.

Lemma since_start : forall f v d pos c lc w0 its w, wf_table (v_tbl v) -> start v (boot d pos) c = Some w0 -> exec f v w0 its w -> cf_log c = Some lc ->
  exists l, at_log (flight c) w l /\ foreign no_log l /\ spared no_log (w_sys w0) (w_sys w).
Proof.
  intros f v d pos c lc w0 its w WT ST E CL. pose proof (start_T _ _ _ _ _ ST) as T0. destruct (start_others _ _ _ _ _ _ ST CL) as (l & NF & AL & C & O).
  assert (X0 : lived no_log f v (flight c) (w_sys w0) l [] w0). { split; [eapply inv_start; eauto|]. split; [eauto|]. split; auto. split; auto. exists l. split; auto. constructor. }
  destruct (exec_inv f v (lived no_log f v (flight c) (w_sys w0) l) (fun h w its w' => lived_act _ _ _ _ _ _ h w its w' WT) _ _ _ E X0) as (_ & _ & _ & _ & l2 & A2 & LV).
  destruct (lives_spare _ _ _ _ _ _ _ _ _ LV (new_foreign _ _ _ NF)) as (F2 & S). eauto.
Qed.

(* From the end of the start-up on, whatever is received, whatever the system calls return and however many logs are opened, closed and
   deleted: the entries with such a name stay exactly as they are - type, permissions and contents.  (For the start-up see C46_startup.) *)
Theorem C109_untouched : forall f v d pos c lc w0 its w n l0, wf_table (v_tbl v) -> start v (boot d pos) c = Some w0 -> exec f v w0 its w -> cf_log c = Some lc -> no_log n -> y_fs (w_sys w0) = Some l0 ->
  exists l, y_fs (w_sys w) = Some l /\ entries_of n l = entries_of n l0.
Proof.
  intros f v d pos c lc w0 its w n l0 WT ST E CL NL F0. destruct (since_start _ _ _ _ _ _ _ _ _ WT ST E CL) as (l2 & _ & _ & _ & S). apply (S n (entries_of n l0)); auto.
  - destruct (scan_log n) as [i|] eqn:SL; auto. exfalso. apply scan_log_pattern in SL. destruct NL as (_ & NL & _). apply (NL i SL).
  - exists l0. auto.
Qed.
(* and they are like that when the program has ended *)
Theorem C109_end : forall f v d pos c lc w0 its w w' its' n l0, wf_table (v_tbl v) -> start v (boot d pos) c = Some w0 -> exec f v w0 its w -> cf_log c = Some lc -> no_log n -> y_fs (w_sys w0) = Some l0 ->
  finish f v w = Ok (w', its') -> entries_of n (entries (y_fs (w_sys w'))) = entries_of n l0.
Proof.
  intros f v d pos c lc w0 its w w' its' n l0 WT ST E CL NL F0 FI. destruct (C109_untouched _ _ _ _ _ _ _ _ _ _ _ WT ST E CL NL F0) as (l & Fl & <-).
  destruct (since_start _ _ _ _ _ _ _ _ _ WT ST E CL) as (l2 & (e2 & L2 & K2) & FO & _).
  assert (R : runs f v c its w) by (exists d, pos, w0; auto).
  assert (NW : ~ writing c w n).
  { intros (e & L & LF). unfold flight in L2. rewrite L in L2. injection L2 as <-. unfold log_file in LF. rewrite K2 in LF. destruct l2 as [g b|a]; cbn [foreign] in FO.
    - injection LF as _ <-. apply (proj2 FO); auto.
    - destruct FO as (_ & _ & FO). destruct (a_inner a) as [[g b]|]; [|discriminate LF]. injection LF as _ <-. apply (proj2 FO); auto. }
  pose proof (C107_directory _ _ _ _ _ _ _ WT R FI) as D. rewrite Fl in D. cbn [entries] in D. clear - D NW.
  induction D as [|x z l l' (A1 & A2 & A3 & A4) D IH]; auto. unfold entries_of in *. cbn [filter]. rewrite A1. destruct (beqs (d_name x) n) eqn:B; auto. apply beqs_eq in B. rewrite B in A3, A4.
  f_equal; auto. destruct A3 as [A3|[W _]]; [|contradiction]. destruct A4 as [A4|[W _]]; [|contradiction]. destruct x, z. cbn in *. congruence.
Qed.

(* a directory with notes, a read-only picture and two old logs: with too little free space the logs are deleted when the first
   heartbeat opens new ones *)
Definition ot_notes : list Z := [110; 111; 116; 101; 115; 46; 98; 105; 110].   (* notes.bin *)
Definition ot_dir : list dirent :=
  [mkDirent ot_notes FReg true [104; 105];
   mkDirent [48; 48; 48; 48; 51; 45; 50; 48; 50; 48; 45; 48; 49; 45; 48; 50; 95; 48; 51; 45; 48; 52; 45; 48; 53; 46; 98; 105; 110] FReg false [1; 2];   (* 00003-2020-01-02_03-04-05.bin *)
   mkDirent [112; 105; 99] FReg false [9; 9];
   mkDirent [48; 48; 48; 48; 52; 45; 50; 48; 50; 48; 45; 48; 49; 45; 48; 50; 95; 48; 51; 45; 48; 52; 45; 48; 53; 46; 98; 105; 110] FReg true [3]].
Definition ot_conf : config := mkCf [] [mkEc (CUdp true 8 14551) true no_filters []] [] 0 (Some (mkLc DArdupilot 1000000 0 MAlways (-1) true)) 0 false 0.
Definition ot_events : list (list event) := [[EEp 0 (Some (OsData (encode (rx_hb 1 1 0)) (5, 1000))) false false]; [ETimer 1 true false]].
Lemma ot_no_log : no_log ot_notes.
Proof.
  split; [discriminate|]. split.
  - intros i H. apply scan_log_pattern in H. vm_compute in H. discriminate H.
  - intros k t ext E. assert (X : In 95 (log_name k t ext)). { unfold log_name. repeat rewrite in_app_iff. cbn [In]. tauto. } rewrite <- E in X. cbn [ot_notes In] in X. lia.
Qed.
Example C109_nonvacuous : exists w0 its w l0 lw w' its', wf_table (v_tbl (rx_env [])) /\ start (rx_env []) (boot (Some ot_dir) 0) ot_conf = Some w0 /\ exec 600 (rx_env []) w0 its w /\ no_log ot_notes /\ y_fs (w_sys w0) = Some l0 /\
  map d_data l0 = [[104; 105]; [1; 2]; [9; 9]; [3]] /\ y_fs (w_sys w) = Some lw /\ entries_of ot_notes lw = [mkDirent ot_notes FReg true [104; 105]] /\
  map d_data lw = [[104; 105]; [9; 9]; []; [0; 0; 0; 0; 0; 1; 0; 0] ++ encode (rx_hb 1 1 0)] /\ finish 600 (rx_env []) w = Ok (w', its').
Proof.
  destruct (start (rx_env []) (boot (Some ot_dir) 0) ot_conf) as [w0|] eqn:S; [|vm_compute in S; discriminate S].
  assert (V : match start (rx_env []) (boot (Some ot_dir) 0) ot_conf with
    | Some w0 => match drive 600 (rx_env []) w0 [] ot_events with
      | Some (w, _) => (option_map (map d_data) (y_fs (w_sys w0)), option_map (map d_data) (y_fs (w_sys w)), option_map (entries_of ot_notes) (y_fs (w_sys w)), match finish 600 (rx_env []) w with Ok _ => true | _ => false end)
      | None => (None, None, None, false) end
    | None => (None, None, None, false) end
    = (Some [[104; 105]; [1; 2]; [9; 9]; [3]], Some [[104; 105]; [9; 9]; []; [0; 0; 0; 0; 0; 1; 0; 0] ++ encode (rx_hb 1 1 0)], Some [mkDirent ot_notes FReg true [104; 105]], true)) by (vm_compute; reflexivity).
  rewrite S in V. destruct (drive 600 (rx_env []) w0 [] ot_events) as [[w its]|] eqn:D; [|discriminate V].
  pose proof (f_equal (fun t => fst (fst (fst t))) V) as V1. pose proof (f_equal (fun t => snd (fst (fst t))) V) as V2. pose proof (f_equal (fun t => snd (fst t)) V) as V3. pose proof (f_equal snd V) as V4. cbn [fst snd] in V1, V2, V3, V4. clear V.
  destruct (y_fs (w_sys w0)) as [l0|] eqn:F0; [|discriminate V1]. destruct (y_fs (w_sys w)) as [lw|] eqn:F1; [|discriminate V2]. cbn [option_map] in V1, V2, V3.
  destruct (finish 600 (rx_env []) w) as [[w' its']| |] eqn:FI; try discriminate V4. exists w0, its, w, l0, lw, w', its'. split; [exact rx_tbl_wf|]. split; [reflexivity|]. split; [eapply drive_exec; [apply exec_start|exact D]|]. split; [exact ot_no_log|]. split; [exact F0|].
  split; [congruence|]. split; [exact F1|]. split; [congruence|]. split; [congruence|exact FI].
Qed.

Print Assumptions C109_untouched.
Print Assumptions C109_end.
Print Assumptions C109_nonvacuous.
