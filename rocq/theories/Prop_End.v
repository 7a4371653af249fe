(* C107: what the end of the program does to the log directory. *)
From Verif Require Import RouterBytes RouterFrame LogSafe RouterSafe RouterSafe2.
From Verif Require Import Base Mav SpecFrame Frame FrameProofs Names NamesProofs Sys LogFile LogFileProofs ULog Loggers LogInv LogStep BinProofs Accept Router RouterSetup RouterCtl RouterRoute RouterRoute2 RouterActs RouterInv RouterHist
  SpecRouter RouterTrace RouterLife RouterTimers RouterTimers2 SpecEnd RouterEnd RouterEnd2 RouterFinish SpecAsk SpecTalk TeleRun Prop_TeleRun SpecLog LogRun LogModes LogModes2 ExFrame ExRouter Prop_BinLog Prop_LogModes Prop_TLog
  LogAsk LogAsk2 LogAsk3 Prop_Ask RouterLogs LogHist RouterLives LogLive LogLive2 Prop_Dialogue LogSpare BinRun Prop_BinRun.

(* the logger of the flight stack is writing the file [n] *)
Definition writing (c : config) (w : world) (n : list Z) : Prop := exists e, lookup w (length (confs c)) = Some e /\ log_file e = Some (true, n).

(* An entry of the log directory before and after.  Its name and kind stay.  Its data stay, unless it is the file the
   streaming logger is writing.  It does not become writable, and only the file being written becomes read-only. *)
Definition entry_kept (c : config) (w : world) (a b : dirent) : Prop :=
  d_name b = d_name a /\ d_kind b = d_kind a /\
  (d_data b = d_data a \/ writing c w (d_name a) /\ talks w (length (confs c)) Streaming) /\
  (d_w b = d_w a \/ writing c w (d_name a) /\ d_w b = false).

Definition stop_kept (g : lg) (b : backend) (x z : dirent) : Prop :=
  d_name z = d_name x /\ d_kind z = d_kind x /\ (d_data z = d_data x \/ l_open g = true /\ d_name x = l_name g /\ proto b = Streaming) /\
  (d_w z = d_w x \/ (l_open g = true /\ d_name x = l_name g) /\ d_w z = false).

Lemma kept_all : forall g b l, Forall2 (stop_kept g b) l l.
Proof. induction l; constructor; auto. repeat split; auto. Qed.
Lemma kept_closed : forall g b y y1 y2, l_open g = true -> touch (l_name g) (y_fs y) (y_fs y1) -> (y_fs y1 = y_fs y \/ proto b = Streaming) -> closed_dir y1 y2 (l_name g) ->
  Forall2 (stop_kept g b) (entries (y_fs y)) (entries (y_fs y2)).
Proof.
  intros g b y y1 y2 O T S C.
  assert (A : Forall2 (fun x z => d_name z = d_name x /\ d_kind z = d_kind x /\ d_w z = d_w x /\ (d_data z = d_data x \/ d_name x = l_name g /\ proto b = Streaming)) (entries (y_fs y)) (entries (y_fs y1))).
  { destruct S as [S|S].
    - rewrite S. generalize (entries (y_fs y)). induction l; constructor; auto 10.
    - unfold touch in T. destruct (y_fs y) as [l|], (y_fs y1) as [l1|]; cbn [entries]; try contradiction; [|constructor].
      induction T as [|x z l l1 (T1 & T2 & T3 & T4) T IH]; constructor; auto. repeat split; auto.
      destruct (beqs (d_name x) (l_name g)) eqn:B. { right. split; auto. apply beqs_eq; auto. }
      left. rewrite T4; auto. intros E. rewrite E, beqs_refl in B. discriminate. }
  destruct C as [C|(l & F1 & F2)].
  - rewrite C. clear - A O. induction A as [|x z l l1 (A1 & A2 & A3 & A4) A IH]; constructor; auto. split; auto. split; auto. split; [|auto]. destruct A4 as [A4|[A4 A5]]; auto.
  - rewrite F2. rewrite F1 in A. cbn [entries] in A |- *. unfold fs_upd. clear - A O. induction A as [|x z l0 l1 (A1 & A2 & A3 & A4) A IH]; cbn [map]; constructor; auto.
    destruct (beqs (d_name z) (l_name g)) eqn:B.
    + apply beqs_eq in B. unfold stop_kept, d_readonly. cbn [d_name d_kind d_w d_data]. split; auto. split; auto. split; [destruct A4 as [A4|[A4 A5]]; auto|]. right. split; auto. split; auto. congruence.
    + split; auto. split; auto. split; [|auto]. destruct A4 as [A4|[A4 A5]]; auto.
Qed.

Lemma lstop_dir : forall f v y g b y' g' b' cs, lstop f v y g b = Ok (y', g', b', cs) -> sys_ok y -> linv y g -> Forall2 (stop_kept g b) (entries (y_fs y)) (entries (y_fs y')).
Proof.
  intros f v y g b y' g' b' cs H K L.
  assert (SP : forall y1 g1 y2 g2, calm y g y1 g1 -> log_stop v y1 g1 = Ok (y2, g2) -> closed_dir y1 y2 (l_name g)).
  { intros y1 g1 y2 g2 C S. destruct (log_stop_spec v y1 g1 (calm_sys _ _ _ _ C K) (calm_linv _ _ _ _ C L)) as (y3 & g3 & S3 & _ & _ & _ & _ & _ & O & N & _ & CD & FS).
    rewrite S in S3. injection S3 as <- <-. rewrite <- (ca_name _ _ _ _ C). exact CD. }
  destruct (l_open g) eqn:O.
  2:{ assert (E : y' = y). { destruct b; cbn [lstop] in H; unfold bin_stop, ul_stop in H; rewrite O in H; cbn [negb bind] in H; inversion H; auto. } subst. apply kept_all. }
  destruct b; cbn [lstop] in H.
  - unfold bin_stop in H. rewrite O in H. cbn [negb] in H. destruct (send_block_status y g BLOCK_STOP 1) as [[y1 g1] c1] eqn:SB.
    assert (FS : y_fs y1 = y_fs y). { unfold send_block_status, send_ctl in SB. pose proof (f_equal (fun t => y_fs (fst (fst t))) SB) as E. cbn [fst] in E. rewrite <- E. reflexivity. }
    apply calm_block_status in SB. inv_bind H. inversion H; subst; clear H. inv_bind E. inversion E; subst; clear E. eapply kept_closed; [exact O|apply (ca_fs _ _ _ _ SB)|left; exact FS|eapply SP; eauto].
  - unfold ul_stop in H. rewrite O in H. cbn [negb] in H. destruct (send_command y g CMD_LOGGING_STOP) as [[y1 g1] c1] eqn:SB. apply calm_send_ctl in SB. inv_bind H. inversion H; subst; clear H. inv_bind E.
    match goal with X : stop_flush _ _ _ _ _ _ = _ |- _ => apply calm_stop_flush in X; pose proof (calm_trans _ _ _ _ _ _ SB X) as CT end. inv_bind E. inversion E; subst; clear E.
    eapply kept_closed; [exact O|apply (ca_fs _ _ _ _ CT)|right; reflexivity|eapply SP; eauto].
  - rewrite O in H. cbn [negb] in H. inv_bind H. inversion H; subst; clear H. eapply kept_closed; [exact O|apply touch_refl|left; reflexivity|eapply SP; eauto; apply calm_refl].
Qed.

(* In every run: when the program ends, no entry of the log directory is added, removed or renamed; only the file that the
   flight stack's logger is writing can change. *)
Theorem C107_directory : forall f v c its w w' its', wf_table (v_tbl v) -> runs f v c its w -> finish f v w = Ok (w', its') ->
  Forall2 (entry_kept c w) (entries (y_fs (w_sys w))) (entries (y_fs (w_sys w'))).
Proof.
  intros f v c its w w' its' WT R FI. destruct (settled_runs _ _ _ _ _ WT R) as ([IV (arm & Tw) LF SY FA] & HG & VA). pose proof (runs_log _ _ _ _ _ WT R) as WL.
  assert (SAME : forall l, Forall2 (entry_kept c w) l l) by (induction l; constructor; auto; repeat split; auto).
  destruct (cf_log c) as [lc|] eqn:CL.
  2:{ unfold finish in FI. rewrite WL in FI. injection FI as <- _. auto. }
  unfold finish in FI. rewrite WL in FI. inv_bind FI. apply get_lookup in E. rename a into e. pose proof (t_ep _ _ _ Tw _ _ E) as [_ HT].
  assert (LO : forall y1 e1, is_log e = true -> ep_ids e1 = ep_ids e -> logs_ok (put (set_sys w y1) (length (confs c)) e1)).
  { intros y1 e1 IL IE j ej J G. destruct (Nat.eq_dec j (length (confs c))) as [->|NE].
    - rewrite (lookup_put_eq _ _ _ e) in J by (rewrite lookup_sys; auto). injection J as <-. rewrite IE. apply (inv_logs _ IV (length (confs c)) e); auto.
    - rewrite lookup_put_neq in J by auto. rewrite lookup_sys in J. apply (inv_logs _ IV j ej); auto. }
  assert (UP : forall g b l l', log_file e = Some (l_open g, l_name g) -> (proto b = Streaming -> talks w (length (confs c)) Streaming) -> Forall2 (stop_kept g b) l l' -> Forall2 (entry_kept c w) l l').
  { intros g b l l' LG TK F. induction F as [|x z l l' (A1 & A2 & A3 & A4) F IH]; constructor; auto. split; auto. split; auto.
    assert (W : l_open g = true -> d_name x = l_name g -> writing c w (d_name x)). { intros O N. exists e. split; auto. rewrite LG, O, N. auto. }
    split. { destruct A3 as [A3|(A3 & A5 & A6)]; auto. } destruct A4 as [A4|[[A4 A5] A6]]; auto. }
  destruct (ep_kind e) as [| | |[g b|a]] eqn:K; try discriminate.
  - destruct HT as [EP LI]. inv_bind FI. match goal with X : lstop _ _ _ _ _ = _ |- _ => rename X into LS end. pose proof (ctl_lstop _ _ _ _ _ _ _ _ _ LS) as CO. change (route_sub f v) with (nested 2 f v) in FI.
    apply fs_ctls in FI; auto. 2:{ apply LO; auto. unfold is_log. rewrite K. auto. } rewrite FI. cbn [w_sys put set_eps set_sys]. apply (UP g b); [unfold log_file; rewrite K; auto| |eapply lstop_dir; eauto; apply (t_sys _ _ _ Tw)].
    intros ST. exists e. rewrite K. auto.
  - destruct HT as [EP LI]. destruct (a_inner a) as [[g b]|] eqn:AI.
    2:{ injection FI as <- _. auto. }
    destruct LI as [EL LI]. inv_bind FI. match goal with X : lstop _ _ _ _ _ = _ |- _ => rename X into LS end. pose proof (ctl_lstop _ _ _ _ _ _ _ _ _ LS) as CO. change (route_sub f v) with (nested 2 f v) in FI.
    apply fs_ctls in FI; auto. 2:{ apply LO; auto. unfold is_log. rewrite K. auto. } rewrite FI. cbn [w_sys put set_eps set_sys]. apply (UP g b); [unfold log_file; rewrite K, AI; auto| |eapply lstop_dir; eauto; apply (t_sys _ _ _ Tw)].
    intros ST. exists e. rewrite K. eauto.
Qed.

(* so a file keeps its contents unless the streaming logger is writing it *)
Lemma content_kept : forall c w w' n d, Forall2 (entry_kept c w) (entries (y_fs (w_sys w))) (entries (y_fs (w_sys w'))) -> ~ (writing c w n /\ talks w (length (confs c)) Streaming) -> content (w_sys w) n d -> content (w_sys w') n d.
Proof.
  intros c w w' n d F N (l & FS & (e & I & NM) & D). rewrite FS in F. cbn [entries] in F. destruct (y_fs (w_sys w')) as [l'|] eqn:FS'. 2:{ cbn [entries] in F. inversion F; subst. destruct I. }
  cbn [entries] in F. exists l'. split; auto. split.
  - clear - F I NM. induction F as [|x z l l' (A1 & _) F IH]; [destruct I|]. destruct I as [->|I]; [exists z; split; [left; auto|congruence]|]. destruct (IH I) as (e' & I' & N'). exists e'. split; auto. right; auto.
  - clear - F D N. induction F as [|x z l l' (A1 & _ & A3 & _) F IH]; [intros e []|]. intros e [->|I] NE.
    + destruct A3 as [->|A3]. { apply D; [left; auto|congruence]. } exfalso. apply N. rewrite <- A1, NE in A3. exact A3.
    + apply IH; auto. intros e0 I0. apply D. right; auto.
Qed.
Corollary C107_contents : forall f v c its w w' its' n d, wf_table (v_tbl v) -> runs f v c its w -> finish f v w = Ok (w', its') -> ~ (writing c w n /\ talks w (length (confs c)) Streaming) ->
  content (w_sys w) n d -> content (w_sys w') n d.
Proof. intros f v c its w w' its' n d WT R FI. eapply content_kept. eapply C107_directory; eauto. Qed.

(* A block that the binary logger acknowledged and did not take back before the end of the program is in the closed log. *)
Corollary C107_acknowledged : forall f v c lc its w w' its', wf_table (v_tbl v) -> runs f v c its w -> cf_log c = Some lc -> talks w (length (confs c)) Blocks -> knows v Blocks -> fitting_trace its -> finish f v w = Ok (w', its') ->
  forall a z b n D, its = a ++ z :: b -> 0 <= n < 21474836 -> acknowledges n (length (confs c)) z -> (forall s, In s b -> ~ stops Blocks (length (confs c)) s) ->
  (forall j p m d ds, In (IRecv j (encode p) m d ds) its -> wf_packet p -> block n p = true -> block_data p = D) ->
  exists name d, content (w_sys w') name d /\ firstn 200 (skipn (Z.to_nat (200 * n)) d) = D.
Proof.
  intros f v c lc its w w' its' WT R CL TK KN FIT FI a z b n D E N A NS SAME.
  destruct (C102_acknowledged_data f v c lc its w WT R CL TK KN FIT a z b n D E N A NS SAME) as (name & d & [_ C] & X). exists name, d. split; auto.
  eapply C107_contents; eauto. intros [_ (e & L & Q)]. destruct TK as (e2 & L2 & Q2). rewrite L in L2. injection L2 as <-. destruct (ep_kind e) as [| | |[g bb|aa]]; auto; [congruence|].
  destruct Q as (g1 & b1 & I1 & Q). destruct Q2 as (g2 & b2 & I2 & Q2). congruence.
Qed.
(* With the binary logger the program always ends when it is told to, and all logs are as they were. *)
Corollary C107_binary : forall f v c its w, wf_table (v_tbl v) -> block_table (v_tbl v) -> ~ ulog_configured c -> runs f v c its w ->
  exists w' its', finish f v w = Ok (w', its') /\ forall n d, content (w_sys w) n d -> content (w_sys w') n d.
Proof.
  intros f v c its w WT BT NU R. destruct (finish_fine _ _ _ _ _ WT BT NU R) as [[w' its'] FI]. exists w', its'. split; auto. intros n d C. eapply C107_contents; eauto.
  intros [_ (e & L & Q)]. pose proof (sf_no _ _ _ (safe_runs _ _ _ _ _ WT NU R) _ _ L) as NV. destruct (ep_kind e) as [| | |[g b|a]]; cbn [never_ulog] in NV; auto. destruct b; discriminate.
Qed.
(* So what C101 says about the telemetry log is true of the file that is left behind. *)
Corollary C107_telemetry : forall f v c lc its w g, wf_table (v_tbl v) -> block_table (v_tbl v) -> 0 <= cf_sniffer c < 256 -> runs f v c its w ->
  cf_log c = Some lc -> lc_tlog lc = true -> lc_mode lc = MAlways -> lc_dialect lc = DArdupilot -> telemetry c w g -> (forall k, 280 <= v_orc v k) -> l_open g = true ->
  exists w' its' ps data, finish f v w = Ok (w', its') /\ Forall wf_packet ps /\ to_record (cf_sniffer c) its ps /\ content (w_sys w') (l_name g) data /\
    exists n, map snd (read_log n data) = map encode (covered (lc_fcu lc) ps).
Proof.
  intros f v c lc its w g WT BT SN R CL TL MD DI TE OR OP. assert (NU : ~ ulog_configured c). { intros (lc' & E & N). congruence. }
  destruct (C107_binary f v c its w WT BT NU R) as (w' & its' & FI & K). destruct (C101_read_back_partial f v c lc its w g WT SN R CL TL MD DI TE OR OP) as (ps & data & A & B & C & D).
  exists w', its', ps, data. auto 10.
Qed.

(* ---- example ---------------------------------------------------------------------------------------------------------- *)

(* contents and permissions in the log directory, before and after the end of the program *)
Definition en_dir (w : world) : list (list Z * bool) := map (fun e => (d_data e, d_w e)) (entries (y_fs (w_sys w))).
Definition en_end (w : world) : option (list (list Z * bool)) := match finish 9 (rx_env []) w with Ok (w', _) => Some (en_dir w') | _ => None end.

(* the blocks of C102, next to a file of somebody else; all writes succeed *)
Example C107_nonvacuous : exists its w a z b w' its', wf_table (v_tbl (rx_env [])) /\ runs 9 (rx_env []) dg_conf its w /\ talks w (length (confs dg_conf)) Blocks /\ knows (rx_env []) Blocks /\ fitting_trace its /\
  its = a ++ z :: b /\ acknowledges 0 (length (confs dg_conf)) z /\ (forall s, In s b -> ~ stops Blocks (length (confs dg_conf)) s) /\ (exists x, In x b /\ acknowledges 1 (length (confs dg_conf)) x) /\
  finish 9 (rx_env []) w = Ok (w', its') /\ en_dir w = [([5], true); (repeat 0 200 ++ repeat 1 200, true)] /\ en_dir w' = [([5], true); (repeat 0 200 ++ repeat 1 200, false)].
Proof.
  destruct (view_runs _ (fun w its => (map bk_show its, dg_received its, dg_proto w, (en_dir w, en_end w)))
    (bk_before ++ [185; 0; 1; 1] :: bk_after, map encode bk_packets, Some Blocks, ([([5], true); (repeat 0 200 ++ repeat 1 200, true)], Some [([5], true); (repeat 0 200 ++ repeat 1 200, false)]))
    9 (rx_env []) (Some [mkDirent [110] FReg true [5]]) dg_conf bk_events) as (w & its & R & X). { vm_compute. reflexivity. }
  pose proof (f_equal (fun t => fst (fst (fst t))) X) as X1. pose proof (f_equal (fun t => snd (fst (fst t))) X) as X2. pose proof (f_equal (fun t => snd (fst t)) X) as X3. pose proof (f_equal (fun t => fst (snd t)) X) as X4.
  pose proof (f_equal (fun t => snd (snd t)) X) as X5. cbn [fst snd] in X1, X2, X3, X4, X5. unfold en_end in X5. destruct (finish 9 (rx_env []) w) as [[w' its']| |] eqn:FI; try (exfalso; clear - X5; discriminate X5). injection X5 as X5.
  destruct (map_split _ _ bk_show its bk_before [185; 0; 1; 1] bk_after X1) as (a & z & b & E & SZ & SB). exists its, w, a, z, b, w', its'.
  split; [apply rx_tbl_wf|]. split; [exact R|]. split; [|split; [|split; [|split; [exact E|split; [|split; [|split; [|split; [exact FI|split; [exact X4|exact X5]]]]]]]]].
  - unfold dg_proto in X3. unfold talks. change (length (confs dg_conf)) with 1%nat. destruct (lookup w 1) as [e|] eqn:L; [|discriminate X3]. exists e. split; [reflexivity|].
    destruct (ep_kind e) as [| | |[g q|q]]; try discriminate X3. injection X3 as X3. exact X3.
  - cbn [knows]. exists (mkEntry 159 206 (Some 4%nat) (Some 5%nat)). split; reflexivity.
  - intros j p m d ds I W. assert (J : In (encode p) (dg_received its)). { unfold dg_received. apply in_flat_map. eexists. split; [exact I|]. left; reflexivity. }
    change (dg_received its = map encode bk_packets) in X2. rewrite X2 in J. apply in_map_iff in J. destruct J as (q & EQ & J).
    assert (WQ : wf_packet q). { cbn [bk_packets dg_packets firstn In] in J. repeat (destruct J as [<-|J]; [wfb|]). destruct J. }
    apply encode_inj in EQ; auto. subst q. clear - J. cbn [bk_packets dg_packets firstn In] in J. intros ID. repeat (destruct J as [<-|J]; [split; [vm_compute; reflexivity|discriminate]|]). destruct J.
  - apply show_ack. exact SZ.
  - intros s I S. apply show_stop in S. apply (in_map bk_show) in I. rewrite SB in I. cbn [In app bk_after] in I. repeat (destruct I as [I|I]; [rewrite <- I in S; discriminate S|]). destruct I.
  - destruct (map_split _ _ bk_show b [[]; []; []] [185; 1; 1; 1] [] SB) as (b1 & x & b2 & -> & SX & _). exists x. split; [apply in_or_app; right; left; reflexivity|]. apply show_ack. exact SX.
Qed.

Print Assumptions C107_directory.
Print Assumptions C107_contents.
Print Assumptions C107_acknowledged.
Print Assumptions C107_binary.
Print Assumptions C107_telemetry.
Print Assumptions C107_nonvacuous.
