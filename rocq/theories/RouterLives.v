(* In every run of the program the flight-stack logger lives through exactly the events of the trace. *)
From Verif Require Import Base Mav SpecFrame Frame FrameProofs Dedup Accept Names NamesProofs Sys LogFile LogFileProofs ULog Loggers LogInv LogStep LogMono LogRun
  RouterCtl Router RouterRoute RouterRoute2 RouterSetup RouterActs RouterInv RouterStep RouterLearn RouterStart RouterHist RouterTimers RouterTimers2 SpecRouter RouterBytes LogSpare LogHist RouterLogs.
From Verif Require RouterTrace.

(* the flight-stack logger is created after the endpoints of the configuration *)
Definition flight (c : config) : nat := length (confs c).
Definition new_flight (c : config) (lc : logconf) (l : logger) : Prop :=
  match lc_dialect lc with
  | DArdupilot => l = LFile (lg_new (flight c) ext_bin (lc_minfree lc) (lc_maxlogs lc) (lc_mode lc) (lc_fcu lc)) (BBin 0)
  | DCommon => exists uj, (length uj = (UBUF + UPART)%nat /\ bytes uj) /\ l = LFile (lg_new (flight c) ext_ulg (lc_minfree lc) (lc_maxlogs lc) (lc_mode lc) (lc_fcu lc)) (BULog (ul_new uj))
  | DAuto => l = LAuto (mkAuto (flight c) (lc_minfree lc) (lc_maxlogs lc) (lc_mode lc) (lc_fcu lc) (lc_fcu lc) None)
  end.

(* the telemetry logger after it *)
Definition tele (c : config) : nat := Datatypes.S (flight c).

(* file names by extension *)
Definition has_ext (ext n : list Z) : Prop := exists p, n = p ++ 46 :: ext.
Definition flight_names (n : list Z) : Prop := has_ext ext_bin n \/ has_ext ext_ulg n.
Definition tele_names (n : list Z) : Prop := has_ext ext_tlog n.

Lemma log_name_ext : forall k t ext, has_ext ext (log_name k t ext).
Proof. intros. unfold log_name. eexists. repeat rewrite app_assoc. rewrite <- app_assoc. cbn [app]. reflexivity. Qed.
Lemma ext_nil : forall ext, ~ has_ext ext [].
Proof. intros ext (p & E). destruct p; discriminate. Qed.
Lemma ext_apart : forall n, flight_names n -> tele_names n -> False.
Proof.
  intros n [(p & E)|(p & E)] (q & F); rewrite E in F; apply (f_equal (@rev Z)) in F; rewrite !rev_app_distr in F; cbn [rev app ext_bin ext_ulg ext_tlog] in F; discriminate.
Qed.
Lemma foreign_tele : foreign_ext flight_names ext_tlog.
Proof. split; [intros k t H; apply (ext_apart _ H); apply log_name_ext|intros [H|H]; apply (ext_nil _ H)]. Qed.
Lemma foreign_bin : foreign_ext tele_names ext_bin.
Proof. split; [intros k t H; refine (ext_apart _ _ H); left; apply log_name_ext|apply ext_nil]. Qed.
Lemma foreign_ulg : foreign_ext tele_names ext_ulg.
Proof. split; [intros k t H; refine (ext_apart _ _ H); right; apply log_name_ext|apply ext_nil]. Qed.

(* the loggers of the program at the start *)
Lemma start_logs : forall v y c w lc, start v y c = Some w -> cf_log c = Some lc ->
  exists l, new_flight c lc l /\ at_log (flight c) w l /\ (lc_tlog lc = true -> at_log (tele c) w (new_tlog (tele c) lc)) /\
    forall j l', log_at j w l' -> j = flight c /\ l' = l \/ j = tele c /\ lc_tlog lc = true /\ l' = new_tlog (tele c) lc.
Proof.
  intros v y c w lc H CL. unfold start in H. destruct (setup_all v y [] _) as [[y1 eps]|] eqn:S; [|discriminate].
  destruct (setup_all_fresh _ _ _ _ _ _ S) as (es & E & F). cbn [app] in E. subst eps. fold (confs c) in F.
  pose proof (RouterTrace.Forall2_len _ _ _ _ _ F) as LEN.
  destruct (tcp_server _ _ _) as [sv y2].
  assert (LL : length (link_groups (map Some es)) = length es) by (unfold link_groups; rewrite link_len, map_length; auto).
  rewrite CL in H. assert (N0 : length (link_groups (map Some es)) = flight c) by (unfold flight; congruence). rewrite N0 in H.
  assert (LG : exists y3 logs, setup_log v y2 (flight c) lc = (y3, logs) /\ exists junk l, new_flight c lc l /\
     (lc_tlog lc = false /\ logs = [log_ep junk l] \/ lc_tlog lc = true /\ exists junk', logs = [log_ep junk l; log_ep junk' (new_tlog (tele c) lc)])).
  { unfold setup_log. destruct (ask_bytes RXMAX v y2) as [junk ya]. destruct (new_logger v ya (flight c) lc) as [l yb] eqn:NL.
    assert (NF : new_flight c lc l). { unfold new_flight, new_logger in *. destruct (lc_dialect lc); [|destruct (ask_bytes _ v ya) as [uj yc] eqn:AB; pose proof (ask_bytes_ok _ _ _ _ _ AB)|]; injection NL as <- <-; eauto. }
    destruct (lc_tlog lc).
    - destruct (ask_bytes RXMAX v (mark_unfinished_logs v yb)) as [junk' yc]. eexists. eexists. split; [reflexivity|]. exists junk, l. split; auto. right. eauto.
    - eexists. eexists. split; [reflexivity|]. exists junk, l. auto. }
  destruct LG as (y3 & logs & EL & junk & l & NF & LS). rewrite EL in H.
  destruct (if cf_stats c then _ else _) as [t1 y4]. destruct (add_timer v y4 5000 CbAggregate) as [t2 y5]. inversion H; subst; clear H.
  assert (HD : nth_error logs 0 = Some (log_ep junk l)) by (destruct LS as [(_ & ->)|(_ & e & ->)]; reflexivity).
  exists l. split; auto. split; [|split].
  - exists (log_ep junk l). split; [|reflexivity]. unfold lookup. cbn [w_eps]. rewrite nth_error_app2 by lia. rewrite N0, Nat.sub_diag, nth_error_map, HD. reflexivity.
  - intros TL. destruct LS as [(X & _)|(_ & junk' & ->)]; [congruence|]. exists (log_ep junk' (new_tlog (tele c) lc)). split; [|reflexivity].
    unfold lookup. cbn [w_eps]. rewrite nth_error_app2 by (unfold tele; lia). rewrite N0. unfold tele. replace (Datatypes.S (flight c) - flight c)%nat with 1%nat by lia. reflexivity.
  - intros j l' (e & L & K). unfold lookup in L. cbn [w_eps] in L. destruct (Nat.lt_ge_cases j (length es)) as [A|A].
    + exfalso. rewrite nth_error_app1 in L by lia. destruct (nth_error es j) as [e0|] eqn:N; [|apply nth_error_None in N; lia].
      destruct (nth_Forall2 _ _ _ _ _ _ _ F N) as (cc & NC & (FE1 & FE2 & FE3 & FE4) & FG & FF).
      assert (N2 : nth_error (map Some es) j = Some (Some e0)) by (rewrite nth_error_map, N; auto).
      destruct (link_groups_spec es j e0 N2 FE2) as (e' & L' & SE & ME). rewrite L' in L. inversion L; subst e'. unfold is_log in *. rewrite SE in K. cbn in K. rewrite K in *. congruence.
    + rewrite nth_error_app2, nth_error_map in L by lia. destruct (j - length (link_groups (map Some es)))%nat as [|q] eqn:Q.
      * left. rewrite HD in L. cbn [option_map] in L. inversion L; subst e. inversion K. split; auto. lia.
      * right. destruct LS as [(X & ->)|(TL & junk' & ->)]; [destruct q; discriminate L|]. destruct q as [|q]; [|destruct q; discriminate L].
        cbn [nth_error option_map] in L. inversion L; subst e. inversion K. split; [unfold tele; lia|auto].
Qed.
Lemma start_flight : forall v y c w lc, start v y c = Some w -> cf_log c = Some lc ->
  (exists l, at_log (flight c) w l /\ new_flight c lc l) /\ clean (flight c) w /\ others (flight c) flight_names w.
Proof.
  intros v y c w lc H CL. destruct (start_logs _ _ _ _ _ H CL) as (l & NF & AL & _ & ALL). split; [eauto|]. split.
  - intros j e L NE. destruct (ep_kind e) as [| | |l'] eqn:K; auto. destruct (ALL j l') as [(-> & _)|(_ & _ & ->)]; [exists e; auto|congruence|]. reflexivity.
  - intros j l' NE A. destruct (ALL j l' A) as [(-> & _)|(_ & _ & ->)]; [congruence|]. split; [exact foreign_tele|apply foreign_tele].
Qed.
Lemma start_tele : forall v y c w lc, start v y c = Some w -> cf_log c = Some lc -> lc_tlog lc = true ->
  at_log (tele c) w (new_tlog (tele c) lc) /\ (lc_dialect lc = DArdupilot -> clean (tele c) w) /\ others (tele c) tele_names w.
Proof.
  intros v y c w lc H CL TL. destruct (start_logs _ _ _ _ _ H CL) as (l & NF & _ & AT & ALL). split; [auto|]. split.
  - intros D j e L NE. destruct (ep_kind e) as [| | |l'] eqn:K; auto. destruct (ALL j l') as [(-> & ->)|(X & _)]; [exists e; auto| |congruence].
    unfold new_flight in NF. rewrite D in NF. subst l. reflexivity.
  - intros j l' NE A. destruct (ALL j l' A) as [(-> & ->)|(X & _)]; [|congruence]. unfold new_flight in NF. destruct (lc_dialect lc).
    + subst l. split; [exact foreign_bin|apply foreign_bin].
    + destruct NF as (uj & _ & ->). split; [exact foreign_ulg|apply foreign_ulg].
    + subst l. split; [exact foreign_bin|]. split; [exact foreign_ulg|]. exact Logic.I.
Qed.

(* an act's first item is the only one that can concern the logger *)
Lemma act_head : forall i f v w its w', wf_table (v_tbl v) -> act f v w its w' -> Inv w -> filter (concerns i) its = [] \/ exists x r, its = x :: r /\ only_ctls r.
Proof.
  intros i f v w its w' WT A I. inversion A; subst; auto.
  - right. destruct (recv_before f v w i0 e rr x st known m w1 WT I H H0 H1 H2 H3 _ _ H4) as (K & DD & e1 & p & L1 & F1 & KE & RX & RL & P1 & P2 & P3 & P4 & P5). subst m.
    assert (I1 : Inv w1) by (eapply kept_inv; eauto). destruct (handle_inv _ _ _ _ _ _ _ H4) as (e0 & pkt & w2 & fresh & L0 & SL0 & CD & C).
    destruct C as [(_ & -> & ->)|[(_ & AL & -> & ->)|(_ & AL & w3 & e3 & w4 & mem & ds & its' & e5 & LE & L3 & RT & L5 & -> & ->)]]; eexists; eexists; (split; [reflexivity|]).
    + intros ? [].
    + intros ? [].
    + apply route_items in RT. rewrite Forall_forall in RT. intros y Y. apply RT in Y. exact Y.
  - left. unfold tcp_connection. destruct (ask v (w_sys w)) as [r y]. destruct (r <? 0); [reflexivity|]. destruct (ask_bytes RXMAX v y) as [junk y2]. destruct (add_fd _ _ _). reflexivity.
  - unfold timer_read in H. destruct (find_timer (w_sys w) t) as [tm|]; [|discriminate]. destruct (negb fired || tm_dead tm). { inversion H; subst. auto. }
    inv_bind H. inv_bind H. inversion H; subst. right. eexists. eexists. split; [reflexivity|]. intros y Y.
    match goal with E : run_cb _ _ _ _ = Ok _ |- _ => destruct (RouterTrace.run_cb_ctls _ _ _ _ _ _ _ (inv_logs _ I) E y Y) as (j & m & ds & (bs & -> & _) & _) end. eauto.
  - left. destruct (hang_T v _ _ _ H I) as (_ & GI & _). clear - GI. induction its as [|x r IH]; auto. destruct (GI x (or_introl eq_refl)) as (j & ->). cbn. apply IH. intros; apply GI; right; auto.
Qed.

Lemma only_none : forall i r, only_ctls r -> filter (concerns i) r = [].
Proof. intros i r. induction r as [|x r IH]; intros H; auto. destruct (H x (or_introl eq_refl)) as (j & bs & m & ds & ->). cbn. apply IH. intros y Y. apply H. right; auto. Qed.

Lemma lives_step : forall P i f v w its w' y l h l1 evs, wf_table (v_tbl v) -> act f v w its w' -> Inv w -> at_log i w l1 -> evolves i P f v w evs w' (sent_by i its) -> heard v i its evs ->
  lives P f v i y l h (w_sys w) l1 -> exists l2, at_log i w' l2 /\ lives P f v i y l (h ++ its) (w_sys w') l2.
Proof.
  intros P i f v w its w' y l h l1 evs WT A I AL EV HE LV. destruct (EV l1 AL) as (l2 & AL2 & LH). exists l2. split; auto. unfold heard in HE.
  destruct (filter (concerns i) its) as [|x fr] eqn:FL.
  - inversion HE; subst. destruct (lhist_none _ _ _ _ _ _ _ _ _ LH) as [-> SB]. eapply lv_other; eauto. rewrite SB in LH. exact LH.
  - destruct (act_head i f v w its w' WT A I) as [X|(x0 & r & -> & OC)]; [congruence|]. cbn [filter] in FL. rewrite (only_none i r OC) in FL.
    destruct (concerns i x0) eqn:CX; inversion FL; subst. inversion HE as [|? e ? ? EO HN]; subst. inversion HN; subst.
    destruct (lhist_cons _ _ _ _ _ _ _ _ _ _ _ LH) as (y2 & y3 & l3 & c1 & c2 & SE & L1 & D & KE & L2). destruct (lhist_none _ _ _ _ _ _ _ _ _ L2) as [-> ->]. rewrite app_nil_r in SE.
    assert (SX : sent_by i (x :: r) = sent_by i r) by (destruct x; try discriminate CX; reflexivity). rewrite SX in SE. eapply lv_event; eauto.
Qed.

Lemma lives_any : forall i P (Q : logger -> Prop) f v c its w, wf_table (v_tbl v) -> runs f v c its w ->
  (forall d pos w0, start v (boot d pos) c = Some w0 -> (exists l, at_log i w0 l /\ Q l) /\ clean i w0 /\ others i P w0) ->
  exists y0 l0 l, Q l0 /\ sys_ok y0 /\ timers_of y0 i l0 /\ at_log i w l /\ lives P f v i y0 l0 its (w_sys w) l.
Proof.
  intros i P Q f v c its w WT R ST.
  assert (X : (exists arm, T v arm w) /\ clean i w /\ others i P w /\
    exists y0 l0 l, Q l0 /\ sys_ok y0 /\ timers_of y0 i l0 /\ at_log i w l /\ lives P f v i y0 l0 its (w_sys w) l); [|apply X].
  revert its w R. apply (runs_ind f v c (fun its w => (exists arm, T v arm w) /\ clean i w /\ others i P w /\
    exists y0 l0 l, Q l0 /\ sys_ok y0 /\ timers_of y0 i l0 /\ at_log i w l /\ lives P f v i y0 l0 its (w_sys w) l) WT).
  - intros d pos w0 S. pose proof (start_T _ _ _ _ _ S) as T0. destruct (ST _ _ _ S) as ((l & AL & NF) & C & SO). split; [eauto|]. split; auto. split; auto.
    exists (w_sys w0), l, l. destruct (T_log_timers _ _ _ _ _ T0 AL) as [Sy TO]. repeat split; auto; try apply Sy. constructor.
  - intros h w its w' I ((arm & Tw) & C & SO & y0 & l0 & l & NF & Sy & TO & AL & LV) A.
    assert (TL : the_log i w) by (destruct AL as (e & L & K); exists e; split; auto; unfold is_log; rewrite K; auto).
    destruct (act_evolve i P f v arm w its w' WT A I Tw C SO TL) as (O' & evs & EV & HE).
    destruct (lives_step _ _ _ _ _ _ _ _ _ _ _ _ WT A I AL EV HE LV) as (l2 & AL2 & LV2).
    split; [exists (arms arm its); apply (act_T f v w its w' WT A I); auto|]. split; [eapply clean_kinds; eauto using act_kinds|]. split; auto.
    exists y0, l0, l2. auto 10.
Qed.
Lemma lives_runs : forall f v c its w lc, wf_table (v_tbl v) -> runs f v c its w -> cf_log c = Some lc ->
  exists y0 l0 l, new_flight c lc l0 /\ sys_ok y0 /\ timers_of y0 (flight c) l0 /\ at_log (flight c) w l /\ lives flight_names f v (flight c) y0 l0 its (w_sys w) l.
Proof. intros f v c its w lc WT R CL. apply (lives_any (flight c) flight_names (new_flight c lc) f v c its w WT R). intros d pos w0 S. exact (start_flight _ _ _ _ _ S CL). Qed.
(* so does the telemetry logger, if the flight-stack logger does not change messages in place *)
Lemma lives_tele : forall f v c its w lc, wf_table (v_tbl v) -> runs f v c its w -> cf_log c = Some lc -> lc_tlog lc = true -> lc_dialect lc = DArdupilot ->
  exists y0 l, sys_ok y0 /\ timers_of y0 (tele c) (new_tlog (tele c) lc) /\ at_log (tele c) w l /\ lives tele_names f v (tele c) y0 (new_tlog (tele c) lc) its (w_sys w) l.
Proof.
  intros f v c its w lc WT R CL TL D.
  assert (ST : forall d pos w0, start v (boot d pos) c = Some w0 -> (exists l, at_log (tele c) w0 l /\ l = new_tlog (tele c) lc) /\ clean (tele c) w0 /\ others (tele c) tele_names w0).
  { intros d pos w0 S. destruct (start_tele _ _ _ _ _ S CL TL) as (A & B & C). split; [exists (new_tlog (tele c) lc); auto|]. auto. }
  destruct (lives_any (tele c) tele_names (fun l => l = new_tlog (tele c) lc) f v c its w WT R ST) as (y0 & l0 & l & -> & H). exists y0, l. exact H.
Qed.
