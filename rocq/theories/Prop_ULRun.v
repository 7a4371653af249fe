(* C105: the file of the streaming logger, in every run of the program. *)
From Verif Require Import RouterCtl RouterRoute RouterRoute2 RouterActs RouterInv RouterHist RouterTrace RouterLife RouterTimers2 SpecEnd RouterEnd RouterEnd2 RouterFinish LogSafe RouterClose.
From Verif Require Import Base Mav SpecCrc SpecFrame Frame FrameProofs Names NamesProofs Sys LogFile LogFileProofs ULog Loggers LogInv LogStep SpecLog SpecULog LogRun LogModes LogModes2
  ExFrame Accept BinProofs ULogProofs ULogStream ULogRun ULogMore CrcProofs Prop_LogModes Prop_BinLog Prop_ULog Prop_ULogEx Prop_TLog Prop_ULogNew SpecVehicle ULogVehicle Prop_ULogFile SpecAsk LogAsk LogAsk2 LogAsk3 Prop_Ask
  Router RouterSetup RouterLogs RouterTimers SpecRouter LogHist RouterLives ExRouter SpecTalk SpecSession LogLive LogLive2 Prop_Dialogue LogSpare TeleRun BinRun Prop_BinRun Prop_ULAck ULRun.

(* stopping: what was left over is written, unless a write fails *)
Lemma stop_following : forall fuel v y g u e hd x ms ps y2 g2 b2 cs2, following hd ms x ps y g u e -> lstop fuel v y g (BULog u) = Ok (y2, g2, b2, cs2) ->
  exists data rest, content y2 (l_name g) data /\ log_of hd ms data rest /\ (rest = [] \/ exists k, (y_pos y <= k)%nat /\ v_orc v k < 0 /\ v_orc v k <> - EAGAIN).
Proof.
  intros fuel v y g u e hd x ms ps y2 g2 b2 cs2 FO S.
  pose proof FO as [I _ _ (k & FD & _)]. assert (O : l_open g = true). { destruct FD as [(d & s & A & _) _]. apply A. }
  cbn [lstop] in S. unfold ul_stop in S. rewrite O in S. cbn [negb] in S. unfold send_command, send_ctl in S. cbn [bind] in S.
  match type of S with context [stop_flush fuel fuel v ?a ?b ?c] => set (ya := a) in S; set (ga := b) in S; set (ua := c) in S; assert (FDa : filed hd ms ya ga ua k) end.
  { eapply filed_same; eauto. }
  assert (BA : ubuf_ok ua). { destruct (ui_buf _ I). split; cbn [ua set_buf u_buf u_part u_len u_idx u_plen]; auto; lia. }
  destruct (stop_flush fuel fuel v ya ga ua) as [[[ys gs] us]| |] eqn:E; cbn [bind] in S; try discriminate.
  destruct (rest_stop _ _ _ _ _ _ _ _ _ _ _ _ BA eq_refl FDa E) as (BS & FDs & KS & C).
  destruct (log_stop v ys gs) as [[yt gt]| |] eqn:EL; cbn [bind] in S; try discriminate. inversion S; subst y2 g2 b2 cs2.
  destruct FDs as [(d & some & A & D & P & L) _]. exists d, (firstn (Z.to_nat (u_plen us)) (u_part us)).
  assert (NS : l_name gs = l_name g). { destruct KS as [KN _ _]. rewrite KN. reflexivity. }
  split. { eapply stop_content; eauto. rewrite <- NS. apply A. }
  split. { exists some. split; [eapply part_whole; eauto|]. split; auto. rewrite firstn_length. destruct BS. lia. }
  destruct C as [C|(j & J & C)]; [left; rewrite C; reflexivity|]. right. exists j. split; auto.
Qed.

Section Run.
Variables (f : nat) (v : env) (c : config) (lc : logconf) (its : list item) (w : world) (hd x : list Z) (ms : list (list Z)) (ps : list packet).
Hypothesis WT : wf_table (v_tbl v).
Hypothesis RUN : RouterSetup.runs f v c its w.
Hypothesis LOG : cf_log c = Some lc.
Hypothesis TK : talks w (length (confs c)) Streaming.
Hypothesis KN : knows v Streaming.
Hypothesis DIA : ulog_dialect v.
Hypothesis PT : proper_trace Streaming its.
Hypothesis FU : (2049 <= f)%nat.
Hypothesis VE : vehicle ms x ps.
Let i : nat := length (confs c).

Lemma tracked : tame v ms -> exists l, at_log i w l /\ ul_ok flight_names i hd x ms ps its (w_sys w) l /\ exists g u, inner l = Some (g, BULog u).
Proof.
  intros MW. destruct (lives_runs f v c its w lc WT RUN LOG) as (y0 & l0 & l & NF & S & TO & AT & LV). exists l. split; [exact AT|]. split.
  - refine (ULRun.ok_lives flight_names f v i hd x ms ps _ KN DIA VE MW FU _ _ _ _ _ LV _ PT _ _).
    + intros k t. right. apply log_name_ext.
    + split; auto.
    + eapply new_talk; eauto; discriminate.
    + unfold ul_ok. unfold new_flight in NF. destruct (lc_dialect lc).
      * rewrite NF. exact I.
      * destruct NF as (uj & (LU & BU) & ->). cbn [inner]. split; [apply ul_new_inv; auto|]. split; [reflexivity|]. split; [intros b _ _ O; discriminate O|].
        intros e (b1 & h & b2 & (a & E & _) & _). destruct a, b1; discriminate.
      * rewrite NF. cbn [inner a_inner]. intros bs m ds [].
  - destruct AT as (e & L & K). destruct TK as (e' & L' & Q). fold (flight c) in L'. unfold i in L. fold (flight c) in L. rewrite L in L'. injection L' as <-. rewrite K in Q. destruct l as [g b|a]; cbn [inner].
    + destruct b; try discriminate Q. eauto.
    + destruct Q as (g & b & E & Q). rewrite E. destruct b; try discriminate Q. eauto.
Qed.

(* Since the last stop request of the logger, it asked the vehicle to start, then got the header of the log and after it
   packets of it: the file being written holds the header and whole messages of the vehicle in order; only the end of the
   last one may be missing.  (Incomplete writes may not leave more than 1024 bytes behind: see C83_long_refuted.) *)
Theorem C105_file_partial : tame v ms -> forall e, log_session i hd x ps its e -> exists name data rest, recording w i name data /\ log_of hd ms data rest.
Proof.
  intros MW e SE. destruct (tracked MW) as (l & (ep & L & K) & OK & g & u & IN). unfold ul_ok in OK. rewrite IN in OK. destruct OK as (_ & _ & _ & T2). destruct (T2 e SE) as (FO & _ & _).
  pose proof (following_open _ _ _ _ _ _ _ _ FO) as O. destruct (following_log _ _ _ _ _ _ _ _ FO) as (data & C & LG). exists (l_name g), data, (firstn (Z.to_nat (u_plen u)) (u_part u)). split; auto. split; auto.
  exists ep. split; auto. rewrite K. destruct l as [g0 b0|a]; cbn [inner] in IN. { injection IN as -> ->. auto. } exists g, (BULog u). auto.
Qed.

(* with messages of at most 1025 bytes nothing is asked of the writes *)
Theorem C105_small_partial : Forall (fun m => Z.of_nat (length m) <= 1025) ms -> forall e, log_session i hd x ps its e -> exists name data rest, recording w i name data /\ log_of hd ms data rest.
Proof.
  intros SM. apply C105_file_partial. intros k m I _. rewrite Forall_forall in SM. specialize (SM m I). cbv beta in SM. lia.
Qed.

(* when the program ends, the log is closed and nothing is missing at the end of its file, unless a write failed *)
Theorem C105_closed_partial : tame v ms -> forall e w' its', log_session i hd x ps its e -> finish f v w = Ok (w', its') ->
  exists name before data rest e', recording w i name before /\ lookup w' i = Some e' /\ log_file e' = Some (false, name) /\ content (w_sys w') name data /\ log_of hd ms data rest /\
    (rest = [] \/ exists k, (y_pos (w_sys w) <= k)%nat /\ v_orc v k < 0 /\ v_orc v k <> - EAGAIN).
Proof.
  intros MW e w' its' SE FI. destruct (tracked MW) as (l & (ep & L & K) & OK & g & u & IN). unfold ul_ok in OK. rewrite IN in OK. destruct OK as (_ & _ & _ & T2). destruct (T2 e SE) as (FO & _ & _).
  pose proof (following_open _ _ _ _ _ _ _ _ FO) as O. destruct (following_log _ _ _ _ _ _ _ _ FO) as (before & CB & _).
  destruct (settled_runs _ _ _ _ _ WT RUN) as ([IV (arm & Tw) LF SY FA] & HG & VA).
  pose proof (runs_log _ _ _ _ _ WT RUN) as WL. rewrite LOG in WL. fold i in WL.
  destruct (finish_closed _ _ _ _ _ _ _ _ _ IV Tw SY WL FI) as (e0 & e' & L0 & L' & M). rewrite L in L0. injection L0 as <-.
  assert (LF0 : log_file ep = Some (true, l_name g)). { unfold log_file. rewrite K. destruct l as [g0 b0|a]; cbn [inner] in IN; [injection IN as -> ->|rewrite IN]; rewrite O; reflexivity. }
  rewrite LF0 in M. destruct M as [M _].
  assert (FN : exists y1 g1 b1 cs w1, lstop f v (w_sys w) g (BULog u) = Ok (y1, g1, b1, cs) /\ route_ctls (route_sub f v) w1 i cs = Ok (w', its') /\ w_sys w1 = y1 /\ logs_ok w1 /\ Forall ctl_ok cs).
  { unfold finish in FI. rewrite WL in FI. unfold get in FI. rewrite L in FI. cbn [bind] in FI. rewrite K in FI.
    assert (LO : forall y1 e1, ep_ids e1 = ep_ids ep -> logs_ok (put (set_sys w y1) i e1)).
    { intros y1 e1 IE j ej J G. destruct (Nat.eq_dec j i) as [->|NE].
      - rewrite (lookup_put_eq _ _ _ ep) in J by (rewrite lookup_sys; auto). injection J as <-. rewrite IE. apply (inv_logs _ IV i ep); auto. unfold is_log. rewrite K. auto.
      - rewrite lookup_put_neq in J by auto. rewrite lookup_sys in J. apply (inv_logs _ IV j ej); auto. }
    destruct l as [g0 b0|a]; cbn [inner] in IN.
    - injection IN as -> ->. inv_bind FI. do 5 eexists. split; [eassumption|]. split; [exact FI|]. split; [reflexivity|]. split; [|eapply ctl_lstop; eassumption]. apply LO. reflexivity.
    - rewrite IN in FI. inv_bind FI. do 5 eexists. split; [eassumption|]. split; [exact FI|]. split; [reflexivity|]. split; [|eapply ctl_lstop; eassumption]. apply LO. reflexivity. }
  destruct FN as (y1 & g1 & b1 & cs & w1 & LS & RC & SW & LO & CO).
  destruct (stop_following _ _ _ _ _ _ _ _ _ _ _ _ _ _ FO LS) as (data & rest & C & LG & R).
  exists (l_name g), before, data, rest, e'. split. { split; auto. exists ep. split; auto. rewrite K. destruct l as [g0 b0|a]; cbn [inner] in IN. { injection IN as -> ->. auto. } exists g, (BULog u). auto. }
  split; auto. split; auto. split; [|auto]. eapply content_fs; [|exact C]. rewrite <- SW. change (route_sub f v) with (nested 2 f v) in RC. eapply fs_ctls; eauto.
Qed.

End Run.

(* before the header the file is empty *)
Theorem C105_new_file_partial : forall f v c lc its w, wf_table (v_tbl v) -> RouterSetup.runs f v c its w -> cf_log c = Some lc -> talks w (length (confs c)) Streaming -> knows v Streaming -> ulog_dialect v ->
  proper_trace Streaming its -> (2049 <= f)%nat -> forall b name data, since_stop (length (confs c)) its b -> (forall s, In s b -> ~ gets is_ulog (length (confs c)) s) ->
  recording w (length (confs c)) name data -> data = [].
Proof.
  intros f v c lc its w WT RUN LOG TK KN DIA PT FU b name data SS ND ((e & L & Q) & CO).
  assert (VE : vehicle [] [] []). { split; [constructor|exists []; reflexivity|]. intros [|k] p N; discriminate. }
  destruct (tracked f v c lc its w [] [] [] [] WT RUN LOG TK KN DIA PT FU VE) as (l & (ep & L2 & K) & OK & g & u & IN). { intros k m []. }
  rewrite L in L2. injection L2 as <-. rewrite K in Q. unfold ul_ok in OK. rewrite IN in OK. destruct OK as (_ & _ & T1 & _).
  assert (G : l_open g = true /\ l_name g = name). { destruct l as [g0 b0|a]; cbn [inner] in IN. { injection IN as -> ->. auto. } destruct Q as (g0 & b0 & E & Q). rewrite IN in E. injection E as -> _. auto. }
  destruct G as [O N]. destruct (T1 b SS ND O) as (_ & _ & _ & _ & C & _). rewrite N in C. eapply content_unique; eauto.
Qed.

(* ---- example ---------------------------------------------------------------------------------------------------------- *)

Inductive shown : Type := VRecv (bs : list Z) (tos : list nat) | VCtl (j : nat) (id cmd : Z) | VOther.
Definition show (x : item) : shown :=
  match x with IRecv _ bs _ _ ds => VRecv bs (map dl_to ds) | ICtl j bs _ _ => VCtl j (raw_id bs) (field16 (raw_payload 33 bs) 28) | _ => VOther end.
Definition ur_env : env := mkEnv un_tbl (fun bs => fold_left (fun a b => a * 256 + b + 1) bs 0) (rx_orc []) (fun _ => true).
Definition ur_ps : list packet := [ua_data 1 2 [1; 7; 4; 0; 67]; ua_data 2 4 [1; 2; 3; 4; 1; 0; 68; 9]; ua_data 3 0 [0; 0; 69]].
Definition ur_head : packet := ua_data 0 16 (ux_hd ++ vx_x).
Definition ur_packets : list packet := [rx_hb 1 1 0; ur_head; nth 0 ur_ps ur_head; rx_hb 1 1 0; nth 2 ur_ps ur_head; nth 1 ur_ps ur_head].
Definition ur_events : list (list event) := dg_recv (rx_hb 1 1 0) :: [ETimer 1 true false] :: map dg_recv (skipn 1 ur_packets).
Definition ur_shown : list shown :=
  [VOther; VRecv (encode (rx_hb 1 1 0)) [1%nat]; VOther; VCtl 1 76 2510; VOther; VRecv (encode ur_head) [1%nat]; VCtl 1 268 0; VOther; VRecv (encode (nth 0 ur_ps ur_head)) [1%nat]; VCtl 1 268 0; VOther;
   VRecv (encode (rx_hb 1 1 0)) [1%nat]; VOther; VRecv (encode (nth 2 ur_ps ur_head)) [1%nat]; VCtl 1 268 0; VOther; VRecv (encode (nth 1 ur_ps ur_head)) [1%nat]; VCtl 1 268 0].

Lemma ur_vehicle : vehicle vx_ms vx_x ur_ps.
Proof.
  split.
  - apply vx_vehicle.
  - exists []. vm_compute. reflexivity.
  - intros i p N. destruct i as [|[|[|i]]]; cbn [ur_ps nth_error] in N; [| | |destruct i; discriminate N]; inversion N; subst p;
    (split; [vm_compute; reflexivity|]; split; [split; [wfb|exact I]|]; split; [split; [vm_compute; discriminate|right; vm_compute; discriminate]|]; split; [vm_compute; reflexivity|]; right).
    + exists 2%nat. split; [cbn; lia|vm_compute; reflexivity].
    + exists 3%nat. split; [cbn; lia|vm_compute; reflexivity].
    + exists 4%nat. split; [cbn; lia|vm_compute; reflexivity].
Qed.
Lemma ur_opening : opening ux_hd vx_x ur_head.
Proof.
  split; [split; [wfb|exact I]|]. split; [vm_compute; reflexivity|]. split; [vm_compute; reflexivity|]. split; [vm_compute; split; discriminate|]. split; [vm_compute; reflexivity|]. split; reflexivity.
Qed.
Lemma show_recv : forall z bs tos, show z = VRecv bs tos -> exists j m d ds, z = IRecv j bs m d ds /\ map dl_to ds = tos.
Proof. intros z bs tos H. destruct z; try discriminate H. injection H as <- <-. eauto 10. Qed.
Lemma show_quiet : forall z i, (forall bs tos, show z <> VRecv bs tos) -> ~ gets is_ulog i z.
Proof. intros z i N (j & p & m & d & ds & -> & _). eapply N. reflexivity. Qed.
Lemma show_other : forall z i q tos, show z = VRecv (encode q) tos -> wf_packet q -> is_ulog q = false -> ~ gets is_ulog i z.
Proof. intros z i q tos H W N (j & p & m & d & ds & -> & WP & IU & _). injection H as H _. apply encode_inj in H; auto. congruence. Qed.
Lemma show_stops : forall z i, stops Streaming i z -> show z = VCtl i 76 2511.
Proof. intros z i (bs & m & ds & t & -> & A & B & _). cbn [show]. rewrite A, B. reflexivity. Qed.
Lemma show_asks : forall z i, show z = VCtl i 76 2510 -> asks Streaming i z.
Proof. intros z i H. destruct z; try discriminate H. injection H as -> A B. do 4 eexists. split; [reflexivity|]. split; [exact A|]. split; [exact B|reflexivity]. Qed.

Lemma ur_session : forall its, map show its = ur_shown -> log_session 1 ux_hd vx_x ur_ps its 3.
Proof.
  intros its H.
  assert (NS : forall s, In s its -> ~ stops Streaming 1 s).
  { intros s IS S. apply show_stops in S. apply (in_map show) in IS. rewrite H, S in IS. unfold ur_shown in IS. cbn [In] in IS. repeat (destruct IS as [IS|IS]; [discriminate IS|]). destruct IS. }
  unfold ur_shown in H. do 18 (destruct its as [|? its]; [discriminate H|]). destruct its; [|discriminate H].
  cbn [map] in H. injection H as H1 H2 H3 H4 H5 H6 H7 H8 H9 H10 H11 H12 H13 H14 H15 H16 H17 H18.
  assert (HB : wf_packet (rx_hb 1 1 0)) by wfb.
  assert (QQ : forall z, show z = VOther \/ (exists a b c, show z = VCtl a b c) -> ~ gets is_ulog 1 z). { intros z Q. apply show_quiet. intros bs tos E. destruct Q as [Q|(a & b & c & Q)]; congruence. }
  assert (QH : forall z, show z = VRecv (encode (rx_hb 1 1 0)) [1%nat] -> ~ gets is_ulog 1 z) by (intros z Q; eapply show_other; eauto).
  assert (DT : forall z k p e b e', show z = VRecv (encode p) [1%nat] -> nth_error ur_ps k = Some p -> - 32767 < Z.of_nat k - Z.of_nat e < 32768 -> follow 1 ur_ps (Nat.max e (Datatypes.S k)) b e' -> follow 1 ur_ps e (z :: b) e').
  { intros z k p e b e' Q N R F. destruct (show_recv _ _ _ Q) as (j & m & d & ds & -> & M). eapply fo_data; eauto. rewrite M. left. auto. }
  exists [i; i0; i1; i2; i3], i4, [i5; i6; i7; i8; i9; i10; i11; i12; i13; i14; i15; i16]. split. { exists []. cbn [app]. split; auto. }
  split. { exists i2. split; [cbn [In]; auto|]. apply show_asks. exact H4. }
  split. { intros s IS. cbn [In] in IS. destruct IS as [<-|[<-|[<-|[<-|[<-|[]]]]]]; auto; apply QQ; right; eauto. }
  split. { destruct (show_recv _ _ _ H6) as (j & m & d & ds & -> & M). exists j, ur_head, m, d, ds. split; auto. split; [rewrite M; left; auto|exact ur_opening]. }
  apply fo_other; [apply QQ; right; eauto|]. apply fo_other; [auto|]. eapply (DT i7 0%nat); [exact H9|reflexivity|lia|]. apply fo_other; [apply QQ; right; eauto|]. apply fo_other; [auto|]. apply fo_other; [auto|]. apply fo_other; [auto|].
  eapply (DT i12 2%nat); [exact H14|reflexivity|cbn [Nat.max]; lia|]. apply fo_other; [apply QQ; right; eauto|]. apply fo_other; [auto|]. eapply (DT i15 1%nat); [exact H17|reflexivity|cbn [Nat.max]; lia|]. apply fo_other; [apply QQ; right; eauto|].
  apply fo_end.
Qed.

(* the vehicle of C83 with three packets: the second one overtakes the third and comes too late; the message it began is left out *)
Example C105_nonvacuous : exists its w e, wf_table (v_tbl ur_env) /\ RouterSetup.runs 2049 ur_env ua_conf its w /\ talks w (length (confs ua_conf)) Streaming /\ knows ur_env Streaming /\ ulog_dialect ur_env /\ proper_trace Streaming its /\
  vehicle vx_ms vx_x ur_ps /\ tame ur_env vx_ms /\ log_session (length (confs ua_conf)) ux_hd vx_x ur_ps its e /\ ua_files w = Some [ux_hd ++ ux_msg ++ [2; 0; 66; 1; 7] ++ [0; 0; 69]].
Proof.
  destruct (view_runs _ (fun w its => (map show its, ua_proto w, ua_files w, dg_received its)) (ur_shown, Some Streaming, Some [ux_hd ++ ux_msg ++ [2; 0; 66; 1; 7] ++ [0; 0; 69]], map encode ur_packets)
    2049 ur_env (Some []) ua_conf ur_events) as (w & its & R & X). { vm_compute. reflexivity. }
  pose proof (f_equal (fun t => fst (fst (fst t))) X) as X1. pose proof (f_equal (fun t => snd (fst (fst t))) X) as X2. pose proof (f_equal (fun t => snd (fst t)) X) as X3. pose proof (f_equal snd X) as X4. cbn [fst snd] in X1, X2, X3, X4.
  exists its, w, 3%nat. split. { intros id e. unfold ur_env, un_tbl. cbn [v_tbl]. destruct (id =? 77); [intros H; inversion H; subst; unfold is_byte; cbn; lia|]. apply ux_tbl_wf. }
  split; [exact R|]. split; [apply ua_talks; exact X2|]. split. { split; [eexists; split; [reflexivity|cbn; lia]|]. split; discriminate. } split. { intros id [-> | ->]; eexists; split; reflexivity. }
  split. { intros j p m d ds I W ID. exfalso. assert (J : In (encode p) (dg_received its)). { unfold dg_received. apply in_flat_map. eexists. split; [exact I|]. left; reflexivity. }
    rewrite X4 in J. apply in_map_iff in J. destruct J as (q & EQ & J). assert (WQ : wf_packet q). { cbn [ur_packets In] in J. repeat (destruct J as [<-|J]; [wfb|]). destruct J. }
    apply encode_inj in EQ; auto. subst q. clear - J ID. cbn [ur_packets In] in J. repeat (destruct J as [<-|J]; [vm_compute in ID; discriminate ID|]). destruct J. }
  split; [exact ur_vehicle|]. split; [|split; [apply ur_session; exact X1|exact X3]].
  intros k m M _. assert (L : Z.of_nat (length m) <= 7). { cbn [vx_ms In] in M. destruct M as [<-|[<-|[<-|[<-|[<-|[]]]]]]; vm_compute; discriminate. } lia.
Qed.

(* the same run, except that writes write one byte each from some point on: the end of the program completes the file *)
Definition uc_env : env := mkEnv un_tbl (fun bs => fold_left (fun a b => a * 256 + b + 1) bs 0) (fun k => if Z.of_nat k <? 5332 then 65536 else 1) (fun _ => true).
Definition uc_view (w : world) : option (option bool * option (list (list Z))) :=
  match finish 2049 uc_env w with
  | Ok (w', _) => Some (match lookup w' 1 with Some e => option_map fst (log_file e) | None => None end, ua_files w')
  | _ => None
  end.
Example C105_closed_nonvacuous : exists its w e w' its', wf_table (v_tbl uc_env) /\ RouterSetup.runs 2049 uc_env ua_conf its w /\ talks w (length (confs ua_conf)) Streaming /\ knows uc_env Streaming /\ ulog_dialect uc_env /\ proper_trace Streaming its /\
  vehicle vx_ms vx_x ur_ps /\ tame uc_env vx_ms /\ log_session (length (confs ua_conf)) ux_hd vx_x ur_ps its e /\ ua_files w = Some [ux_hd ++ ux_msg ++ [2; 0; 66; 1; 7] ++ [0]] /\
  finish 2049 uc_env w = Ok (w', its') /\ ua_files w' = Some [ux_hd ++ ux_msg ++ [2; 0; 66; 1; 7] ++ [0; 0; 69]].
Proof.
  destruct (view_runs _ (fun w its => (map show its, ua_proto w, (ua_files w, uc_view w), dg_received its)) (ur_shown, Some Streaming, (Some [ux_hd ++ ux_msg ++ [2; 0; 66; 1; 7] ++ [0]], Some (Some false, Some [ux_hd ++ ux_msg ++ [2; 0; 66; 1; 7] ++ [0; 0; 69]])), map encode ur_packets)
    2049 uc_env (Some []) ua_conf ur_events) as (w & its & R & X). { vm_compute. reflexivity. }
  pose proof (f_equal (fun t => fst (fst (fst t))) X) as X1. pose proof (f_equal (fun t => snd (fst (fst t))) X) as X2. pose proof (f_equal (fun t => snd (fst t)) X) as X3. pose proof (f_equal snd X) as X4. cbn [fst snd] in X1, X2, X3, X4.
  injection X3 as X3 X5. unfold uc_view in X5. destruct (finish 2049 uc_env w) as [[w' its']| |] eqn:FI; try (exfalso; clear - X5; discriminate X5). injection X5 as _ X5.
  exists its, w, 3%nat, w', its'. split. { intros id e. unfold uc_env, un_tbl. cbn [v_tbl]. destruct (id =? 77); [intros H; inversion H; subst; unfold is_byte; cbn; lia|]. apply ux_tbl_wf. }
  split; [exact R|]. split; [apply ua_talks; exact X2|]. split. { split; [eexists; split; [reflexivity|cbn; lia]|]. split; discriminate. } split. { intros id [-> | ->]; eexists; split; reflexivity. }
  split. { intros j p m d ds I W ID. exfalso. assert (J : In (encode p) (dg_received its)). { unfold dg_received. apply in_flat_map. eexists. split; [exact I|]. left; reflexivity. }
    rewrite X4 in J. apply in_map_iff in J. destruct J as (q & EQ & J). assert (WQ : wf_packet q). { cbn [ur_packets In] in J. repeat (destruct J as [<-|J]; [wfb|]). destruct J. }
    apply encode_inj in EQ; auto. subst q. clear - J ID. cbn [ur_packets In] in J. repeat (destruct J as [<-|J]; [vm_compute in ID; discriminate ID|]). destruct J. }
  split; [exact ur_vehicle|]. split; [|split; [apply ur_session; exact X1|split; [exact X3|split; [exact FI|exact X5]]]].
  intros k m M _. assert (L : Z.of_nat (length m) <= 7). { cbn [vx_ms In] in M. destruct M as [<-|[<-|[<-|[<-|[<-|[]]]]]]; vm_compute; discriminate. } lia.
Qed.

(* The conditions on writes are needed: the vehicle of C83_long_refuted, no packet lost, all writes complete but one, which
   takes 100 of 1500 bytes: those bytes are in the file twice. *)
Fixpoint ul_cut (k : nat) (seq : Z) (d : list Z) : list packet :=
  match k with
  | O => []
  | Datatypes.S k => ua_data seq 255 (firstn 249 d) :: ul_cut k (seq + 1) (skipn 249 d)
  end.
Definition ul_ps : list packet := ul_cut 6 1 (skipn 200 vx_long) ++ [ua_data 7 0 ux_msg].
Definition ul_head : packet := ua_data 0 16 (ux_hd ++ firstn 200 vx_long).
Definition ul_packets : list packet := rx_hb 1 1 0 :: ul_head :: ul_ps.
Definition ul_events : list (list event) := dg_recv (rx_hb 1 1 0) :: [ETimer 1 true false] :: map dg_recv (skipn 1 ul_packets).
Definition ul_env : env := mkEnv un_tbl (fun bs => fold_left (fun a b => a * 256 + b + 1) bs 0) (fun k => if Z.of_nat k =? 5335 then 100 else 65536) (fun _ => true).
Definition ul_shown : list shown :=
  [VOther; VRecv (encode (rx_hb 1 1 0)) [1%nat]; VOther; VCtl 1 76 2510; VOther; VRecv (encode ul_head) [1%nat]; VCtl 1 268 0; VOther; VRecv (encode (nth 0 ul_ps ul_head)) [1%nat]; VCtl 1 268 0; VOther; VRecv (encode (nth 1 ul_ps ul_head)) [1%nat]; VCtl 1 268 0; VOther; VRecv (encode (nth 2 ul_ps ul_head)) [1%nat]; VCtl 1 268 0; VOther; VRecv (encode (nth 3 ul_ps ul_head)) [1%nat]; VCtl 1 268 0; VOther; VRecv (encode (nth 4 ul_ps ul_head)) [1%nat]; VCtl 1 268 0; VOther; VRecv (encode (nth 5 ul_ps ul_head)) [1%nat]; VCtl 1 268 0; VOther; VRecv (encode (nth 6 ul_ps ul_head)) [1%nat]; VCtl 1 268 0].

Lemma ul_vehicle : vehicle [vx_long; ux_msg] (firstn 200 vx_long) ul_ps.
Proof.
  split.
  - apply vx_long_vehicle.
  - exists []. vm_compute. reflexivity.
  - intros i p N. do 7 (destruct i as [|i]; [apply (f_equal (fun o => match o with Some q => q | None => p end)) in N;
      match type of N with ?l = _ => let l' := eval cbv [ul_ps ul_cut nth_error app] in l in change (l' = p) in N end; subst p;
      (split; [vm_compute; reflexivity|]; split; [split; [wfb|exact I]|]; split; [split; [vm_compute; discriminate|first [left; vm_compute; reflexivity|right; vm_compute; discriminate]]|]; split; [vm_compute; reflexivity|]);
      first [left; vm_compute; reflexivity|right; exists 1%nat; split; [cbn; lia|vm_compute; reflexivity]]|]).
    destruct i; discriminate N.
Qed.
Lemma ul_opening : opening ux_hd (firstn 200 vx_long) ul_head.
Proof.
  split; [split; [wfb|exact I]|]. split; [vm_compute; reflexivity|]. split; [vm_compute; reflexivity|]. split; [vm_compute; split; discriminate|]. split; [vm_compute; reflexivity|]. split; reflexivity.
Qed.
Lemma ul_session : forall its, map show its = ul_shown -> log_session 1 ux_hd (firstn 200 vx_long) ul_ps its 7.
Proof.
  intros its H.
  assert (NS : forall s, In s its -> ~ stops Streaming 1 s).
  { intros s IS S. apply show_stops in S. apply (in_map show) in IS. rewrite H, S in IS. unfold ul_shown in IS. cbn [In] in IS. repeat (destruct IS as [IS|IS]; [discriminate IS|]). destruct IS. }
  unfold ul_shown in H. do 28 (destruct its as [|? its]; [discriminate H|]). destruct its; [|discriminate H].
  cbn [map] in H. injection H as H1 H2 H3 H4 H5 H6 H7 H8 H9 H10 H11 H12 H13 H14 H15 H16 H17 H18 H19 H20 H21 H22 H23 H24 H25 H26 H27 H28.
  assert (HB : wf_packet (rx_hb 1 1 0)) by wfb.
  assert (QQ : forall z, show z = VOther \/ (exists a b c, show z = VCtl a b c) -> ~ gets is_ulog 1 z). { intros z Q. apply show_quiet. intros bs tos E. destruct Q as [Q|(a & b & c & Q)]; congruence. }
  assert (QH : forall z, show z = VRecv (encode (rx_hb 1 1 0)) [1%nat] -> ~ gets is_ulog 1 z) by (intros z Q; eapply show_other; eauto).
  assert (LN : length ul_ps = 7%nat) by reflexivity.
  assert (DT : forall z k e b e', show z = VRecv (encode (nth k ul_ps ul_head)) [1%nat] -> (k < 7)%nat -> - 32767 < Z.of_nat k - Z.of_nat e < 32768 -> follow 1 ul_ps (Nat.max e (Datatypes.S k)) b e' -> follow 1 ul_ps e (z :: b) e').
  { intros z k e b e' Q N R F. destruct (show_recv _ _ _ Q) as (j & m & d & ds & -> & M). apply fo_data with (k := k); auto; [|rewrite M; left; auto]. apply nth_error_nth'. rewrite LN. exact N. }
  exists [i; i0; i1; i2; i3], i4, [i5; i6; i7; i8; i9; i10; i11; i12; i13; i14; i15; i16; i17; i18; i19; i20; i21; i22; i23; i24; i25; i26]. split. { exists []. cbn [app]. split; auto. }
  split. { exists i2. split; [cbn [In]; auto|]. apply show_asks. exact H4. }
  split. { intros s IS. cbn [In] in IS. destruct IS as [<-|[<-|[<-|[<-|[<-|[]]]]]]; auto; apply QQ; right; eauto. }
  split. { destruct (show_recv _ _ _ H6) as (j & m & d & ds & -> & M). exists j, ul_head, m, d, ds. split; auto. split; [rewrite M; left; auto|exact ul_opening]. }
  apply fo_other; [apply QQ; right; eauto|]. apply fo_other; [auto|]. eapply (DT i7 0%nat); [exact H9|apply Nat.ltb_lt; reflexivity|split; vm_compute; reflexivity|]. apply fo_other; [apply QQ; right; eauto|].
  apply fo_other; [auto|]. eapply (DT i10 1%nat); [exact H12|apply Nat.ltb_lt; reflexivity|split; vm_compute; reflexivity|]. apply fo_other; [apply QQ; right; eauto|].
  apply fo_other; [auto|]. eapply (DT i13 2%nat); [exact H15|apply Nat.ltb_lt; reflexivity|split; vm_compute; reflexivity|]. apply fo_other; [apply QQ; right; eauto|].
  apply fo_other; [auto|]. eapply (DT i16 3%nat); [exact H18|apply Nat.ltb_lt; reflexivity|split; vm_compute; reflexivity|]. apply fo_other; [apply QQ; right; eauto|].
  apply fo_other; [auto|]. eapply (DT i19 4%nat); [exact H21|apply Nat.ltb_lt; reflexivity|split; vm_compute; reflexivity|]. apply fo_other; [apply QQ; right; eauto|].
  apply fo_other; [auto|]. eapply (DT i22 5%nat); [exact H24|apply Nat.ltb_lt; reflexivity|split; vm_compute; reflexivity|]. apply fo_other; [apply QQ; right; eauto|].
  apply fo_other; [auto|]. eapply (DT i25 6%nat); [exact H27|apply Nat.ltb_lt; reflexivity|split; vm_compute; reflexivity|]. apply fo_other; [apply QQ; right; eauto|].
  apply fo_end.
Qed.

Definition ul_data : list Z := ux_hd ++ firstn 100 vx_long ++ vx_long ++ ux_msg.
Definition ul_sees (w : world) : bool := match lookup w 1 with Some e => match ep_kind e with KLog (LFile g _) => l_open g && contentb (w_sys w) (l_name g) ul_data | _ => false end | None => false end.
Lemma ul_recording : forall w, ul_sees w = true -> exists name, recording w 1 name ul_data.
Proof.
  intros w H. unfold ul_sees in H. destruct (lookup w 1) as [e|] eqn:L; [|discriminate H]. destruct (ep_kind e) as [| | |[g b|a]] eqn:K; try discriminate H. apply andb_prop in H. destruct H as [O C].
  exists (l_name g). split; [|apply contentb_ok; exact C]. exists e. split; [exact L|]. rewrite K. auto.
Qed.

Theorem C105_refuted : exists v c its w i hd x m1 m2 ps e, wf_table (v_tbl v) /\ RouterSetup.runs 2049 v c its w /\ talks w i Streaming /\ knows v Streaming /\ ulog_dialect v /\ proper_trace Streaming its /\
  vehicle [m1; m2] x ps /\ log_session i hd x ps its e /\ exists name data, recording w i name data /\ data = hd ++ firstn 100 m1 ++ m1 ++ m2 /\ forall rest, ~ log_of hd [m1; m2] data rest.
Proof.
  destruct (view_runs _ (fun w its => (map show its, ua_proto w, ul_sees w, dg_received its)) (ul_shown, Some Streaming, true, map encode ul_packets)
    2049 ul_env (Some []) ua_conf ul_events) as (w & its & R & X). { vm_compute. reflexivity. }
  pose proof (f_equal (fun t => fst (fst (fst t))) X) as X1. pose proof (f_equal (fun t => snd (fst (fst t))) X) as X2. pose proof (f_equal (fun t => snd (fst t)) X) as X3. pose proof (f_equal snd X) as X4. cbn [fst snd] in X1, X2, X3, X4.
  exists ul_env, ua_conf, its, w, 1%nat, ux_hd, (firstn 200 vx_long), vx_long, ux_msg, ul_ps, 7%nat. split. { intros id e. unfold ul_env, un_tbl. cbn [v_tbl]. destruct (id =? 77); [intros H; inversion H; subst; unfold is_byte; cbn; lia|]. apply ux_tbl_wf. }
  split; [exact R|]. split; [apply ua_talks in X2; exact X2|]. split. { split; [eexists; split; [reflexivity|cbn; lia]|]. split; discriminate. } split. { intros id [-> | ->]; eexists; split; reflexivity. }
  split. { intros j p m d ds I W ID. exfalso. assert (J : In (encode p) (dg_received its)). { unfold dg_received. apply in_flat_map. eexists. split; [exact I|]. left; reflexivity. }
    rewrite X4 in J. apply in_map_iff in J. destruct J as (q & EQ & J). cbn [ul_packets ul_ps ul_cut app In] in J. assert (WQ : wf_packet q). { repeat (destruct J as [<-|J]; [wfb|]). destruct J. }
    apply encode_inj in EQ; auto. subst q. clear - J ID. repeat (destruct J as [<-|J]; [vm_compute in ID; discriminate ID|]). destruct J. }
  split; [exact ul_vehicle|]. split; [apply ul_session; exact X1|]. destruct (ul_recording w X3) as (name & RE). exists name, ul_data. split; [exact RE|]. split; [reflexivity|].
  intros rest (some & PO & E & _). apply part_length in PO. apply (f_equal (@length Z)) in E. unfold ul_data in E. rewrite !app_length in E.
  assert (L1 : length vx_long = 1500%nat) by (vm_compute; reflexivity). assert (L2 : length (firstn 100 vx_long) = 100%nat) by (vm_compute; reflexivity).
  cbn [concat] in PO. rewrite !app_length in PO. cbn [length] in PO. lia.
Qed.

(* ---- C84: a write that would block keeps the program from ending --------------------------------------------------------- *)

Lemma stalled : forall n f v y g u bs, l_open g = true -> u_plen u <> 0 -> slice (u_part u) 0 (Z.to_nat (u_plen u)) = Ok bs -> (forall k, (y_pos y <= k)%nat -> v_orc v k = - EAGAIN) ->
  stop_flush n f v y g u = Fuel.
Proof.
  induction n; intros f v y g u bs O P S V; cbn [stop_flush]; apply Z.eqb_neq in P as P'; rewrite P'; auto.
  assert (F : ul_flush f v y g u = Fuel \/ ul_flush f v y g u = Ok (set_pos y (Datatypes.S (y_pos y)), g, u, true)).
  { unfold ul_flush. destruct f; cbn [flush_part]; rewrite P'; [left; reflexivity|right]. rewrite S. cbn [bind]. unfold file_write. rewrite O. unfold ask. rewrite V by lia. reflexivity. }
  destruct F as [->| ->]; cbn [bind]; auto. eapply IHn; eauto. intros k K. apply V. cbn [set_pos y_pos] in K. lia.
Qed.
Lemma finish_stalled : forall v w i e g u bs, w_log w = Some i -> lookup w i = Some e -> ep_kind e = KLog (LFile g (BULog u)) -> l_open g = true -> u_plen u <> 0 ->
  slice (u_part u) 0 (Z.to_nat (u_plen u)) = Ok bs -> (forall k, (y_pos (w_sys w) <= k)%nat -> v_orc v k = - EAGAIN) -> forall f, finish f v w = Fuel.
Proof.
  intros v w i e g u bs WL L K O P S V f. unfold finish. rewrite WL. unfold get. rewrite L. cbn [bind]. rewrite K. cbn [lstop]. unfold ul_stop. rewrite O. cbn [negb].
  unfold send_command, send_ctl. erewrite stalled; eauto.
Qed.

(* the run of C105, where the last write writes one byte and later ones would block *)
Definition us_env : env := mkEnv un_tbl (fun bs => fold_left (fun a b => a * 256 + b + 1) bs 0) (fun k => if Z.of_nat k <? 5333 then 65536 else if Z.of_nat k =? 5333 then 1 else - EAGAIN) (fun _ => true).
Definition us_sees (w : world) : bool :=
  match w_log w, lookup w 1 with
  | Some 1%nat, Some e =>
    match ep_kind e with
    | KLog (LFile g (BULog u)) => l_open g && negb (u_plen u =? 0) && (5333 <? Z.of_nat (y_pos (w_sys w))) && match slice (u_part u) 0 (Z.to_nat (u_plen u)) with Ok _ => true | _ => false end
    | _ => false
    end
  | _, _ => false
  end.
(* the run is that of a well-behaved vehicle: see C105_nonvacuous *)
Theorem C84_exit_refuted : exists v c its w, wf_table (v_tbl v) /\ RouterSetup.runs 2049 v c its w /\ map show its = ur_shown /\ ua_files w = Some [ux_hd ++ ux_msg ++ [2; 0; 66; 1; 7] ++ [0]] /\ forall f, finish f v w = Fuel.
Proof.
  destruct (view_runs _ (fun w its => (map show its, us_sees w, ua_files w)) (ur_shown, true, Some [ux_hd ++ ux_msg ++ [2; 0; 66; 1; 7] ++ [0]])
    2049 us_env (Some []) ua_conf ur_events) as (w & its & R & X). { vm_compute. reflexivity. }
  pose proof (f_equal (fun t => fst (fst t)) X) as X1. pose proof (f_equal (fun t => snd (fst t)) X) as X2. pose proof (f_equal snd X) as X3. cbn [fst snd] in X1, X2, X3. clear X.
  exists us_env, ua_conf, its, w. split. { intros id e. unfold us_env, un_tbl. cbn [v_tbl]. destruct (id =? 77); [intros H; inversion H; subst; unfold is_byte; cbn; lia|]. apply ux_tbl_wf. }
  split; [exact R|]. split; [exact X1|]. split; [exact X3|]. unfold us_sees in X2. destruct (w_log w) as [[|[|]]|] eqn:WL; try discriminate X2. destruct (lookup w 1) as [e|] eqn:L; [|discriminate X2].
  destruct (ep_kind e) as [| | |[g []|]] eqn:K; try discriminate X2. destruct (slice _ _ _) as [bs| |] eqn:S; try (rewrite andb_false_r in X2; discriminate X2).
  rewrite andb_true_r in X2. apply andb_prop in X2. destruct X2 as [X2 Q]. apply andb_prop in X2. destruct X2 as [O P]. apply Z.ltb_lt in Q. apply negb_true_iff, Z.eqb_neq in P.
  eapply finish_stalled; eauto. intros k LK. unfold us_env. cbn [v_orc]. destruct (Z.ltb_spec (Z.of_nat k) 5333); [lia|]. destruct (Z.eqb_spec (Z.of_nat k) 5333); [lia|]. reflexivity.
Qed.
(* ... but as long as writes write something or fail, the program ends when told to (C105_closed_nonvacuous is such a run) *)
Theorem C84_exit_streaming_partial : forall f v c lc its w, wf_table (v_tbl v) -> RouterSetup.runs f v c its w -> cf_log c = Some lc -> talks w (length (confs c)) Streaming -> knows v Streaming -> ulog_dialect v ->
  proper_trace Streaming its -> (2049 <= f)%nat -> (forall k, (y_pos (w_sys w) <= k)%nat -> v_orc v k <> 0 /\ v_orc v k <> - EAGAIN) -> exists w' its', finish f v w = Ok (w', its').
Proof.
  intros f v c lc its w WT RUN LOG TK KN DIA PT FU NS.
  assert (VE : vehicle [] [] []). { split; [constructor|exists []; reflexivity|]. intros [|k] p N; discriminate. }
  destruct (tracked f v c lc its w [] [] [] [] WT RUN LOG TK KN DIA PT FU VE) as (l & (ep & L & K) & OK & g & u & IN). { intros k m []. }
  unfold ul_ok in OK. rewrite IN in OK. destruct OK as (UI & _).
  destruct (settled_runs _ _ _ _ _ WT RUN) as ([IV (arm & Tw) LF SY FA] & _). pose proof (runs_log _ _ _ _ _ WT RUN) as WL. rewrite LOG in WL.
  pose proof (t_ep _ _ _ Tw _ _ L) as [_ HT]. rewrite K in HT.
  assert (FL : linv (w_sys w) g -> fine (lstop f v (w_sys w) g (BULog u))). { intros LI. apply ul_stop_ends; auto; [apply (ui_buf _ UI)|apply (t_sys _ _ _ Tw)|lia]. }
  destruct (finish_ends f v c its w _ ep WT RUN WL L) as [[w' its'] E]; [|eauto]. rewrite K.
  destruct l as [g0 b0|a]; cbn [inner] in IN. { injection IN as -> ->. apply FL, HT. } rewrite IN in HT |- *. apply FL, HT.
Qed.
Print Assumptions C84_exit_streaming_partial.
Print Assumptions C84_exit_refuted.

Print Assumptions C105_refuted.
Print Assumptions C105_file_partial.
Print Assumptions C105_small_partial.
Print Assumptions C105_closed_partial.
Print Assumptions C105_new_file_partial.
Print Assumptions C105_nonvacuous.
Print Assumptions C105_closed_nonvacuous.
