(* C108: an open ULog file is only written at its end. *)
From Verif Require Import RouterCtl RouterRoute RouterRoute2 RouterActs RouterInv RouterHist RouterTrace RouterLife RouterTimers2 SpecEnd RouterEnd RouterEnd2 RouterFinish LogSafe RouterClose Prop_Router3.
From Verif Require Import Base Mav SpecCrc SpecFrame Frame FrameProofs Names NamesProofs Sys LogFile LogFileProofs ULog Loggers LogInv LogStep SpecLog SpecULog LogRun LogModes LogModes2
  ExFrame Accept BinProofs ULogProofs ULogStream ULogRun ULogMore CrcProofs Prop_LogModes Prop_BinLog Prop_ULog Prop_ULogEx Prop_TLog Prop_ULogNew SpecVehicle ULogVehicle Prop_ULogFile SpecAsk LogAsk LogAsk2 LogAsk3 Prop_Ask
  Router RouterSetup RouterLogs RouterTimers SpecRouter LogHist RouterLives ExRouter SpecTalk SpecSession LogLive LogLive2 Prop_Dialogue LogSpare TeleRun BinRun Prop_BinRun Prop_ULAck ULRun Prop_ULRun ULAppend.

Lemma grow_stop_flush : forall P n f v y g u y' g' u', stop_flush n f v y g u = Ok (y', g', u') -> grow P y g y' g' [].
Proof.
  induction n; intros f v y g u y' g' u' H; cbn [stop_flush] in H; destruct (u_plen u =? 0); try discriminate;
  try (inversion H; subst; apply grow_refl).
  inv_bind H. apply (grow_flush P) in E. destruct b. { eapply grow_trans0; eauto. } inversion H; subst; auto.
Qed.
Lemma stop_grows : forall P f v y g u y' g' b' cs d, lstop f v y g (BULog u) = Ok (y', g', b', cs) -> sound P y g -> l_open g = true -> content y (l_name g) d -> exists m, content y' (l_name g) (d ++ m).
Proof.
  intros P f v y g u y' g' b' cs d H S O C. cbn [lstop] in H. unfold ul_stop in H. rewrite O in H. cbn [negb] in H. unfold send_command, send_ctl in H. cbn [bind] in H.
  match type of H with context [stop_flush f f v ?a ?b ?c] => set (ya := a) in H; set (ga := b) in H; set (ua := c) in H end.
  destruct (stop_flush f f v ya ga ua) as [[[ys gs] us]| |] eqn:E; cbn [bind] in H; try discriminate.
  destruct (log_stop v ys gs) as [[yt gt]| |] eqn:EL; cbn [bind] in H; try discriminate. inversion H; subst y' g' b' cs.
  assert (G : grow P y g ys gs []). { eapply grow_trans0; [apply (grow_same P y g ya ga []); reflexivity|]. eapply grow_stop_flush; eauto. }
  destruct (G S) as (_ & G1). destruct (G1 O) as (_ & _ & G2); [apply told_nil|]. destruct (G2 _ C) as (m & C'). exists m. eapply stop_content; eauto.
Qed.

Section Run.
Variables (f : nat) (v : env) (c : config) (lc : logconf) (its : list item) (w : world).
Hypothesis WT : wf_table (v_tbl v).
Hypothesis RUN : RouterSetup.runs f v c its w.
Hypothesis LOG : cf_log c = Some lc.
Hypothesis TK : talks w (length (confs c)) Streaming.
Let i : nat := length (confs c).

Lemma sounded : forall its2 w2, acts f v w its2 w2 -> exists l l2, at_log i w l /\ at_log i w2 l2 /\ lsound flight_names (w_sys w) l /\
  ((forall s, In s its2 -> ~ stops Streaming i s) -> forall a d, grown a d (w_sys w) l -> grown a d (w_sys w2) l2).
Proof.
  intros its2 w2 A. assert (N : forall k t, flight_names (log_name k t ext_ulg)) by (intros k t; right; apply log_name_ext).
  destruct (lives_from f v c its w lc its2 w2 WT RUN LOG A) as (y0 & l0 & l & l2 & NF & HE & LV & AL & LV2 & AL2). exists l, l2. split; auto. split; auto.
  destruct (lives_sound flight_names f v (flight c) N _ _ _ _ _ LV HE) as (S & _).
  { unfold lsound, new_flight in *. destruct (lc_dialect lc). { rewrite NF. exact I. } { destruct NF as (uj & _ & ->). cbn [inner]. split; [reflexivity|]. intros O. discriminate O. } rewrite NF. exact I. }
  split; auto. apply (lives_sound flight_names f v (flight c) N _ _ _ _ _ LV2); auto. eapply lives_held; eauto.
Qed.
Lemma recording_grown : forall w0 l name d, at_log i w0 l -> recording w0 i name d -> talks w0 i Streaming -> grown name d (w_sys w0) l.
Proof.
  intros w0 l name d (e & L & K) ((e1 & L1 & R) & C) (e2 & L2 & Q). rewrite L in L1, L2. injection L1 as <-. injection L2 as <-. rewrite K in R, Q. unfold grown. destruct l as [g b|a]; cbn [inner].
  - destruct b; try discriminate Q. destruct R as [O N]. exists g, u, []. rewrite app_nil_r. auto.
  - destruct R as (g & b & I & O & N). destruct Q as (g2 & b2 & I2 & Q). rewrite I in I2. injection I2 as <- <-. destruct b; try discriminate Q. exists g, u, []. rewrite app_nil_r. auto.
Qed.

(* Whatever happens from then on (which messages come, what the writes return), as long as the logger sends no stop request the
   file it is writing stays open, and what was in it stays there: bytes are only added at its end. *)
Theorem C108_appended : forall its2 w2 name data, recording w i name data -> later f v w its2 w2 -> (forall s, In s its2 -> ~ stops Streaming i s) -> exists more, recording w2 i name (data ++ more).
Proof.
  intros its2 w2 name data R L N. apply later_acts in L. destruct (sounded _ _ L) as (l & l2 & AL & (e & L2 & K) & _ & G). destruct (G N name data) as (g & u & m & I & O & NM & C). { apply recording_grown; auto. }
  exists m. split; auto. exists e. split; auto. rewrite K. destruct l2 as [g0 b0|a]; cbn [inner] in I. { injection I as -> ->. auto. } exists g, (BULog u). auto.
Qed.

(* so it is when the program ends: the log is completed at its end *)
Theorem C108_completed : forall w' its' name data, recording w i name data -> finish f v w = Ok (w', its') -> exists more, content (w_sys w') name (data ++ more).
Proof.
  intros w' its' name data R FI. destruct (sounded [] w (acts_nil _ _ _)) as (l & l2 & AL & _ & S & _). destruct (recording_grown _ _ _ _ AL R TK) as (g & u & m & IN & O & NM & _). destruct R as [_ CB]. subst name.
  unfold lsound in S. rewrite IN in S. destruct S as [_ S]. destruct AL as (ep & L & K).
  destruct (settled_runs _ _ _ _ _ WT RUN) as ([IV (arm & Tw) LF SY FA] & HG & VA).
  pose proof (runs_log _ _ _ _ _ WT RUN) as WL. rewrite LOG in WL. fold i in WL.
  assert (FN : exists y1 g1 b1 cs w1, lstop f v (w_sys w) g (BULog u) = Ok (y1, g1, b1, cs) /\ route_ctls (route_sub f v) w1 i cs = Ok (w', its') /\ w_sys w1 = y1 /\ logs_ok w1 /\ Forall ctl_ok cs).
  { unfold finish in FI. rewrite WL in FI. unfold get in FI. rewrite L in FI. cbn [bind] in FI. rewrite K in FI.
    assert (LO : forall y1 e1, ep_ids e1 = ep_ids ep -> logs_ok (put (set_sys w y1) i e1)).
    { intros y1 e1 IE j ej J G. destruct (Nat.eq_dec j i) as [->|NE].
      - rewrite (lookup_put_eq _ _ _ ep) in J by (rewrite lookup_sys; auto). injection J as <-. rewrite IE. apply (inv_logs _ IV i ep); auto. unfold is_log. rewrite K. auto.
      - rewrite lookup_put_neq in J by auto. rewrite lookup_sys in J. apply (inv_logs _ IV j ej); auto. }
    destruct l as [g0 b0|a]; cbn [inner] in IN.
    - injection IN as -> ->. inv_bind FI. do 5 eexists. split; [eassumption|]. split; [exact FI|]. split; [reflexivity|]. split; [|eapply ctl_lstop; eassumption]. apply LO. reflexivity.
    - rewrite IN in FI. inv_bind FI. do 5 eexists. split; [eassumption|]. split; [exact FI|]. split; [reflexivity|]. split; [|eapply ctl_lstop; eassumption]. apply LO. reflexivity. }
  destruct FN as (y1 & g1 & b1 & cs & w1 & LS & RC & SW & LO & CO).
  destruct (stop_grows _ _ _ _ _ _ _ _ _ _ _ LS S O CB) as (more & C). exists more. eapply content_fs; [|exact C]. rewrite <- SW. change (route_sub f v) with (nested 2 f v) in RC. eapply fs_ctls; eauto.
Qed.
End Run.

(* the run of C105 whose writes write one byte each from some point on: the file after the header came, some packets later, and at the end *)
Definition ap_name : list Z := (* 00000-3506-05-03_16-16-22.ulg *)
  [48; 48; 48; 48; 48; 45; 51; 53; 48; 54; 45; 48; 53; 45; 48; 51; 95; 49; 54; 45; 49; 54; 45; 50; 50; 46; 117; 108; 103].
Definition ap_open (w : world) (d : list Z) : bool :=
  match lookup w 1 with Some e => match log_file e with Some (o, n) => o && beqs n ap_name | None => false end | None => false end && contentb (w_sys w) ap_name d.
Definition ap_stop (x : item) : bool := match show x with VCtl 1 76 2511 => true | _ => false end.
Definition ap_case (d1 d2 d3 : list Z) : bool :=
  match session 2049 uc_env (Some []) ua_conf (firstn 3 ur_events) with
  | Some (w, _) =>
    match drive 2049 uc_env w [] (skipn 3 ur_events) with
    | Some (w2, its2) => match ua_proto w with Some Streaming => true | _ => false end && ap_open w d1 && ap_open w2 d2 && negb (existsb ap_stop its2) &&
        match finish 2049 uc_env w2 with Ok (w3, _) => contentb (w_sys w3) ap_name d3 | _ => false end
    | None => false
    end
  | None => false
  end.
Lemma ap_recording : forall w d, ap_open w d = true -> recording w 1 ap_name d.
Proof.
  intros w d H. unfold ap_open in H. apply andb_prop in H. destruct H as [H C]. split; [|apply contentb_ok; auto]. destruct (lookup w 1) as [e|]; [|discriminate H]. exists e. split; auto.
  unfold log_file in H. destruct (ep_kind e) as [| | |[g b|a]]; try discriminate H.
  - apply andb_prop in H. destruct H as [O N]. apply beqs_eq in N. auto.
  - destruct (a_inner a) as [[g b]|]; [|discriminate H]. apply andb_prop in H. destruct H as [O N]. apply beqs_eq in N. exists g, b. auto.
Qed.
Example C108_nonvacuous : exists its w its2 w2 w3 its3 name, wf_table (v_tbl uc_env) /\ RouterSetup.runs 2049 uc_env ua_conf its w /\ talks w (length (confs ua_conf)) Streaming /\
  recording w (length (confs ua_conf)) name (ux_hd ++ [3; 0; 65; 7; 8; 9]) /\ later 2049 uc_env w its2 w2 /\ (forall s, In s its2 -> ~ stops Streaming (length (confs ua_conf)) s) /\
  recording w2 (length (confs ua_conf)) name ((ux_hd ++ [3; 0; 65; 7; 8; 9]) ++ [2; 0; 66; 1; 7; 0]) /\ finish 2049 uc_env w2 = Ok (w3, its3) /\
  content (w_sys w3) name (((ux_hd ++ [3; 0; 65; 7; 8; 9]) ++ [2; 0; 66; 1; 7; 0]) ++ [0; 69]).
Proof.
  assert (H : ap_case (ux_hd ++ [3; 0; 65; 7; 8; 9]) ((ux_hd ++ [3; 0; 65; 7; 8; 9]) ++ [2; 0; 66; 1; 7; 0]) (((ux_hd ++ [3; 0; 65; 7; 8; 9]) ++ [2; 0; 66; 1; 7; 0]) ++ [0; 69]) = true) by (vm_compute; reflexivity).
  unfold ap_case in H. destruct (session 2049 uc_env (Some []) ua_conf (firstn 3 ur_events)) as [[w its]|] eqn:S; [|discriminate H]. destruct (drive 2049 uc_env w [] (skipn 3 ur_events)) as [[w2 its2]|] eqn:D; [|discriminate H].
  apply andb_prop in H. destruct H as [H F]. destruct (finish 2049 uc_env w2) as [[w3 its3]| |] eqn:FI; try discriminate F. apply andb_prop in H. destruct H as [H N]. apply andb_prop in H. destruct H as [H O2]. apply andb_prop in H. destruct H as [T O1].
  exists its, w, its2, w2, w3, its3, ap_name. change (length (confs ua_conf)) with 1%nat.
  split. { intros id e. unfold uc_env, un_tbl. cbn [v_tbl]. destruct (id =? 77); [intros H; inversion H; subst; unfold is_byte; cbn; lia|]. apply ux_tbl_wf. }
  split; [eapply session_runs; eauto|]. split. { apply ua_talks. destruct (ua_proto w) as [[]|]; try discriminate T; reflexivity. }
  split; [apply ap_recording; auto|]. split. { apply later_exec. eapply drive_exec; [apply exec_start|exact D]. }
  split. { intros s IS ST. apply show_stops in ST. apply negb_true_iff in N. assert (X : existsb ap_stop its2 = true); [|congruence]. apply existsb_exists. exists s. split; auto. unfold ap_stop. rewrite ST. reflexivity. }
  split; [apply ap_recording; auto|]. split; [exact FI|]. apply contentb_ok. exact F.
Qed.

Print Assumptions C108_appended.
Print Assumptions C108_completed.
Print Assumptions C108_nonvacuous.
