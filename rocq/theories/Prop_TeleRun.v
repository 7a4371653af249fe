(* C101: the telemetry log as a record of the traffic, in every run of the program. *)
From Verif Require Import Base Mav SpecCrc SpecFrame Frame FrameProofs SpecAccept Accept AcceptProofs Names NamesProofs Sys LogFile LogFileProofs ULog Loggers LogInv LogStep SpecLog LogRun LogModes LogModes2
  ExFrame BinProofs Prop_LogModes Prop_TLog RouterCtl Router RouterRoute RouterRoute2 RouterSetup RouterActs RouterInv RouterStart RouterHist RouterTimers SpecRouter RouterTrace Prop_Router Prop_Hangup LogSpare LogHist RouterLogs RouterLives LogLive TeleRun ExRouter.

(* ---- specification ------------------------------------------------------------------------------------------------- *)

(* the messages that were received, not filtered out and no duplicates: those the router forwards *)
Definition traffic (its : list item) : list (list Z * minfo) := flat_map (fun x => match x with IRecv _ bs m Routed _ => [(bs, m)] | _ => [] end) its.

(* To the router a log is an endpoint on which system 2, component 0 is connected.  It is handed broadcasts and messages to
   that address, or everything if the sniffer is system 2; nothing that comes from that address itself. *)
Definition for_log (sniffer : Z) (m : minfo) : Prop :=
  lt_from (letter_of m) <> (2, 0) /\ (addressed_to (letter_of m) (fun a => a = (2, 0)) \/ sniffer = 2).

(* [ps] are the messages of the trace that are to be recorded, in order *)
Definition to_record (sniffer : Z) (its : list item) (ps : list packet) : Prop :=
  exists sel : minfo -> bool, (forall m, sel m = true <-> for_log sniffer m) /\
    map encode ps = map fst (filter (fun bm => sel (snd bm)) (traffic its)).

(* ---- which messages the telemetry logger is handed ------------------------------------------------------------------- *)

Definition broad (t : Z) : bool := (t =? -1) || (t =? 0).
Definition for_logb (s : Z) (m : minfo) : bool :=
  negb ((m_ssys m =? 2) && (m_scomp m =? 0)) && (broad (m_tsys m) || ((m_tsys m =? 2) && broad (m_tcomp m)) || (s =? 2)).
Lemma for_log_b : forall s m, for_logb s m = true <-> for_log s m.
Proof.
  intros s m. unfold for_logb, for_log, addressed_to, broadcast_sys, broadcast_comp, letter_of, broad, field. cbn [lt_from lt_tsys lt_tcomp].
  rewrite andb_true_iff, negb_true_iff, !orb_true_iff, andb_true_iff, !orb_true_iff, andb_false_iff, !Z.eqb_eq, !Z.eqb_neq. split.
  - intros [A B]. split. { intros X. injection X as X1 X2. destruct A; congruence. }
    destruct B as [[[B|B]|[B1 B2]]|B]; auto; left.
    + left. left. rewrite B. reflexivity.
    + left. right. rewrite B. reflexivity.
    + right. exists 2. rewrite B1. split; [reflexivity|]. left. split; [|exists 0; reflexivity]. destruct B2 as [-> | ->]; auto.
  - intros [A B]. split. { destruct (Z.eq_dec (m_ssys m) 2); auto. destruct (Z.eq_dec (m_scomp m) 0); auto. exfalso. apply A. congruence. }
    destruct B as [[[B|B]|(t & T & [[B (k & K)]|(k & K & NZ & Q)])]|B]; auto; left.
    + destruct (Z.eqb_spec (m_tsys m) (-1)); [auto|discriminate].
    + destruct (Z.eqb_spec (m_tsys m) (-1)); [auto|]. injection B as B. auto.
    + destruct (Z.eqb_spec (m_tsys m) (-1)); [discriminate|]. injection T as T. injection K as -> ->. right. split; auto.
      destruct (Z.eqb_spec (m_tcomp m) (-1)); auto. destruct B as [B|B]; [discriminate|]. injection B as B. auto.
    + injection Q as _ ->. congruence.
Qed.

Section Handed.
Variables (f : nat) (v : env) (c : config) (lc : logconf) (its : list item) (w : world) (l : logger).
Hypothesis WT : wf_table (v_tbl v).
Hypothesis SN : 0 <= cf_sniffer c < 256.
Hypothesis RUN : runs f v c its w.
Hypothesis LOG : cf_log c = Some lc.
Hypothesis TL : lc_tlog lc = true.
Hypothesis AT : at_log (tele c) w l.

Lemma tele_logger : is_logger c (tele c).
Proof. unfold is_logger, loggers, tele, flight. rewrite LOG, TL. lia. Qed.
Lemma tele_known : forall pre post, its = pre ++ post -> forall a, known_after c pre (tele c) a <-> a = (2, 0).
Proof.
  intros pre post E a. split; [|intros ->; left; split; [apply tele_logger|reflexivity]]. intros K.
  assert (K2 : known_after c its (tele c) a). { destruct K as [K|(i & bs & m & ds & I & Q)]; [left; auto|]. right. exists i, bs, m, ds. split; auto. rewrite E. apply in_or_app; auto. }
  destruct AT as (e & L & KE). destruct (trace_runs _ _ _ _ _ WT RUN) as [SY _]. destruct (sy_ep _ _ _ SY _ _ L) as (_ & _ & _ & KN). apply KN in K2.
  assert (IL : is_log e = true) by (unfold is_log; rewrite KE; reflexivity). destruct (i_logs _ (inv_runs _ _ _ _ _ WT RUN) _ _ L IL) as (ID & _).
  destruct K2 as (B1 & B2 & K2). unfold known in K2. rewrite ID in K2. destruct K2 as [K2|[]]. destruct a as [s k]. cbn [fst snd] in *. unfold is_byte in *. f_equal; lia.
Qed.
Lemma tele_open_after : forall pre post, its = pre ++ post -> In (tele c) (open_after c pre).
Proof.
  intros pre post E. unfold open_after. apply filter_In. split. { apply in_or_app. left. apply in_seq. pose proof tele_logger as [_ X]. lia. }
  apply negb_true_iff. apply Bool.not_true_iff_false. intros X. unfold memb in X. apply existsb_exists in X. destruct X as (k & I & Q). apply Nat.eqb_eq in Q. subst k.
  assert (I2 : In (tele c) (gone its)) by (rewrite E; unfold gone; rewrite flat_map_app; apply in_or_app; auto).
  destruct (C94_let_go_partial _ _ _ _ _ (tele c) WT RUN) as [G _]. { apply group_of_new. unfold tele, flight. lia. }
  destruct (G I2) as [N _]. destruct AT as (e & L & _). congruence.
Qed.

Lemma tele_handed : forall pre i bs m d ds post, its = pre ++ IRecv i bs m d ds :: post ->
  existsb (Nat.eqb (tele c)) (map dl_to ds) = match d with Routed => for_logb (cf_sniffer c) m | _ => false end.
Proof.
  intros pre i bs m d ds post E. assert (I : In (IRecv i bs m d ds) its) by (rewrite E; apply in_or_app; right; left; auto).
  pose proof (runs_recv _ _ _ _ _ WT RUN) as RO. rewrite Forall_forall in RO. destruct (RO _ I) as (_ & _ & _ & _ & ND & _).
  destruct d; try (rewrite ND by discriminate; reflexivity). clear ND RO.
  destruct (C17_delivered _ _ _ _ _ _ _ _ _ _ _ WT SN RUN E) as (ok & D & W).
  assert (E2 : its = (pre ++ [IRecv i bs m Routed ds]) ++ post) by (rewrite <- app_assoc; exact E). set (h := pre ++ [IRecv i bs m Routed ds]) in *.
  assert (X : existsb (Nat.eqb (tele c)) (map dl_to ds) = true <-> for_log (cf_sniffer c) m).
  2:{ rewrite <- for_log_b in X. apply eq_true_iff_eq. exact X. }
  pose proof (tele_known _ _ E2) as K. specialize (W (tele c) (tele_open_after _ _ E2)).
  assert (WW : wanted c h m (tele c) <-> for_log (cf_sniffer c) m).
  { unfold wanted, for_log. rewrite filters_of_new by (unfold tele, flight; lia). cbv zeta. split.
    - intros (A & _ & B). split. { intros Q. apply A. apply K. exact Q. } destruct B as [B|[_ (k & B)]]; [left|right; apply K in B; congruence].
      unfold addressed_to in *. destruct B as [B|(s & S & B)]; [left; auto|]. right. exists s. split; auto. destruct B as [[B (k & Q)]|(k & Q & NZ & B)]; [left|right].
      + split; auto. exists k. apply K; auto.
      + exists k. repeat split; auto. apply K; auto.
    - intros (A & B). split. { intros Q. apply A. apply K. exact Q. } split. { repeat split; cbn; auto. } destruct B as [B|B]; [left|right; split; [lia|exists 0; apply K; congruence]].
      unfold addressed_to in *. destruct B as [B|(s & S & B)]; [left; auto|]. right. exists s. split; auto. destruct B as [[B (k & Q)]|(k & Q & NZ & B)]; [left|right].
      + split; auto. exists k. apply K; auto.
      + exists k. repeat split; auto. apply K; auto. }
  rewrite <- WW, <- W, D. rewrite existsb_exists. split.
  - intros (k & IK & Q). apply Nat.eqb_eq in Q. subst k. apply filter_In in IK. apply IK.
  - intros Q. exists (tele c). split; [|apply Nat.eqb_refl]. apply filter_In. split; auto. eapply tele_open_after; eauto.
Qed.

Lemma handed_traffic : handed (tele c) its = map fst (filter (fun bm => for_logb (cf_sniffer c) (snd bm)) (traffic its)).
Proof.
  pose proof tele_handed as H. revert H. generalize its. intros h. induction h as [|x h IH]; intros H; [reflexivity|].
  cbn [handed traffic flat_map]. fold (handed (tele c) h) (traffic h). rewrite filter_app, map_app, <- IH. 2:{ intros pre i bs m d ds post E. apply (H (x :: pre) i bs m d ds post). rewrite E. reflexivity. }
  f_equal. destruct x as [|i bs m d ds| | | |]; try reflexivity. rewrite (H [] i bs m d ds h eq_refl). destruct d; try reflexivity. cbn [filter snd]. destruct (for_logb _ m); reflexivity.
Qed.
End Handed.

Section Log.
Variables (f : nat) (v : env) (c : config) (lc : logconf) (its : list item) (w : world).
Hypothesis WT : wf_table (v_tbl v).
Hypothesis SN : 0 <= cf_sniffer c < 256.
Hypothesis RUN : runs f v c its w.
Hypothesis LOG : cf_log c = Some lc.
Hypothesis TL : lc_tlog lc = true.
Hypothesis MD : lc_mode lc = MAlways.
Hypothesis DI : lc_dialect lc = DArdupilot.

Lemma tele_any : forall R : packet -> list Z -> Prop,
  (forall y g p tail data, l_open g = true -> content y (l_name g) data -> l_off g = length data -> wf_packet p ->
    exists y' g' x, tele_write v y g (encode p ++ tail) (info_of (v_tbl v) p) = Ok (y', g') /\ R p x /\ content y' (l_name g') (data ++ x) /\ l_off g' = length (data ++ x) /\
      l_open g' = true /\ l_name g' = l_name g /\ l_mode g' = l_mode g /\ l_talive g' = l_talive g) ->
  exists g ps, at_log (tele c) w (LFile g BTele) /\ Forall wf_packet ps /\ to_record (cf_sniffer c) its ps /\ tele_state tele_names (lc_fcu lc) R ps (w_sys w) g.
Proof.
  intros R AD. destruct (lives_tele _ _ _ _ _ _ WT RUN LOG TL DI) as (y0 & l & S & T & AT & LV).
  destruct (tele_lives tele_names f v (lc_fcu lc) R) with (i := tele c) (y := y0) (l := new_tlog (tele c) lc) (its := its) (y' := w_sys w) (l' := l) as (g & ps & -> & W & H & ST); auto.
  - intros k t. apply log_name_ext.
  - split; auto.
  - eexists. exists []. split; [reflexivity|]. split; [constructor|]. split; [reflexivity|]. rewrite MD. split; [reflexivity|]. split; [reflexivity|]. left. repeat split; reflexivity.
  - exists g, ps. split; auto. split; auto. split; auto. exists (for_logb (cf_sniffer c)). split; [intros; apply for_log_b|]. rewrite <- H. eapply handed_traffic; eauto.
Qed.
End Log.

(* the telemetry logger's state: the file it is writing, or none *)
Definition telemetry (c : config) (w : world) (g : lg) : Prop := exists e b, lookup w (S (length (SpecRouter.confs c))) = Some e /\ ep_kind e = KLog (LFile g b).

Lemma at_telemetry : forall c w g g', at_log (tele c) w (LFile g BTele) -> telemetry c w g' -> g' = g.
Proof. intros c w g g' (e & L & K) (e' & b & L' & K'). unfold tele, flight in L. rewrite L in L'. injection L' as <-. congruence. Qed.

(* Whatever the system calls return, an open telemetry log holds for every message that is to be recorded, from the one that made the
   monitored system known on, in order, the first part of a time and the first part of the message, and nothing else. *)
Theorem C101_telemetry_partial : forall f v c lc its w g, wf_table (v_tbl v) -> 0 <= cf_sniffer c < 256 -> runs f v c its w ->
  cf_log c = Some lc -> lc_tlog lc = true -> lc_mode lc = MAlways -> lc_dialect lc = DArdupilot -> telemetry c w g ->
  exists ps, Forall wf_packet ps /\ to_record (cf_sniffer c) its ps /\
    (l_open g = true -> exists xs, Forall2 piece (covered (lc_fcu lc) ps) xs /\ content (w_sys w) (l_name g) (concat xs)) /\
    (covered (lc_fcu lc) ps <> [] -> l_open g = true \/ l_mode g = MDisabled).
Proof.
  intros f v c lc its w g WT SN RUN LOG TL MD DI TE.
  destruct (tele_any f v c lc its w WT SN RUN LOG TL MD DI piece) as (g0 & ps & AT & W & TR & _ & _ & ST).
  { intros y q p tail data O C F _. destruct (tele_open_any v y q p tail data O C F) as (y1 & g1 & x & A1 & A2 & A3 & A4 & A5 & A6 & A7 & A8 & _). exists y1, g1, x. auto 10. }
  rewrite (at_telemetry _ _ _ _ AT TE). exists ps. split; auto. split; auto. destruct ST as [(O & M & _ & C)|[(O & M)|(O & M & _ & C & xs & F & K & _)]].
  - split; intros; congruence.
  - split; [congruence|auto].
  - split; [|auto]. intros _. exists xs. split; auto. apply kept_content in K. apply K.
Qed.

(* If writes are complete, a reader gets back every one of them with a time. *)
Theorem C101_read_back_partial : forall f v c lc its w g, wf_table (v_tbl v) -> 0 <= cf_sniffer c < 256 -> runs f v c its w ->
  cf_log c = Some lc -> lc_tlog lc = true -> lc_mode lc = MAlways -> lc_dialect lc = DArdupilot -> telemetry c w g -> (forall k, 280 <= v_orc v k) -> l_open g = true ->
  exists ps data, Forall wf_packet ps /\ to_record (cf_sniffer c) its ps /\ content (w_sys w) (l_name g) data /\
    exists n, map snd (read_log n data) = map encode (covered (lc_fcu lc) ps).
Proof.
  intros f v c lc its w g WT SN RUN LOG TL MD DI TE OR OP.
  destruct (tele_any f v c lc its w WT SN RUN LOG TL MD DI (fun p x => exists t, 0 <= t < 18446744073709551616 /\ x = record t p)) as (g0 & ps & AT & W & TR & _ & _ & ST).
  { intros y q p tail data O C F WP. destruct (tele_open v y q p tail data O C F WP) as (y1 & g1 & t & A1 & A2 & A3 & A4 & A5 & A6 & A7 & A8 & _); auto. exists y1, g1, (record t p). eauto 12. }
  rewrite (at_telemetry _ _ _ _ AT TE) in *. exists ps. destruct ST as [(O & _)|[(O & _)|(_ & _ & _ & _ & xs & F & K & _)]]; [congruence|congruence|].
  exists (concat xs). split; auto. split; auto. apply kept_content in K. split; [apply K|].
  assert (X : exists ts, length ts = length (covered (lc_fcu lc) ps) /\ Forall (fun t => 0 <= t < 2 ^ 64) ts /\ concat xs = records ts (covered (lc_fcu lc) ps)).
  { revert F. generalize (covered (lc_fcu lc) ps). clear. intros qs F. induction F as [|p x qs xs (t & T & ->) F (ts & L & A & E)]; [exists []; repeat split; constructor|]. exists (t :: ts). cbn [length]. split; [congruence|]. split; [constructor; auto|].
    cbn [concat]. rewrite E. reflexivity. }
  destruct X as (ts & L & A & ->). exists (S (length (covered (lc_fcu lc) ps))).
  rewrite C59_readable; auto.
  - revert L. clear. revert ts. generalize (covered (lc_fcu lc) ps). induction l as [|p l IH]; intros [|t ts] L; try discriminate; auto. cbn [combine map snd]. f_equal. apply IH. injection L; auto.
  - clear - W. induction W; [constructor|]. cbn [covered]. destruct (_ && _); auto.
Qed.
Print Assumptions C101_telemetry_partial.
Print Assumptions C101_read_back_partial.

(* A vehicle and a ground station; the ground station commands the vehicle. *)
Definition tr_conf (sniffer : Z) : config :=
  mkCf [] [mkEc (CUdp true 8 14551) true no_filters []; mkEc (CUdp true 8 14552) true no_filters []] [] 0 (Some (mkLc DArdupilot 0 0 MAlways (-1) true)) sniffer false 0.
Definition tr_events : list (list event) :=
  [[rx_from 1 (6, 2000) (rx_hb 255 190 0)]; [rx_from 0 (5, 1000) (rx_hb 1 1 0)]; [rx_from 1 (6, 2000) (rx_cmd 255 190 1 1 1)]; [rx_from 1 (6, 2000) (rx_hb 255 190 1)]; [rx_from 0 (5, 1000) (rx_hb 1 1 1)]].
Definition tr_log (w : world) : option (bool * list (list Z)) :=
  match lookup w 3 with
  | Some e => match ep_kind e with KLog (LFile g _) => match y_fs (w_sys w) with
      | Some l => match filter (fun d => beqs (d_name d) (l_name g)) l with [d] => Some (l_open g, map snd (read_log 9 (d_data d))) | _ => None end | None => None end | _ => None end
  | None => None end.
Lemma tr_log_content : forall s w o ps, tr_log w = Some (o, ps) -> exists g data, telemetry (tr_conf s) w g /\ l_open g = o /\ content (w_sys w) (l_name g) data /\ map snd (read_log 9 data) = ps.
Proof.
  intros s w o ps H. unfold tr_log in H. destruct (lookup w 3) as [e|] eqn:L; [|discriminate]. destruct (ep_kind e) as [| | |[g b|]] eqn:K; try discriminate.
  destruct (y_fs (w_sys w)) as [l|] eqn:F; [|discriminate]. destruct (filter (fun d => beqs (d_name d) (l_name g)) l) as [|d [|]] eqn:X; try discriminate.
  assert (H1 : l_open g = o) by congruence. assert (H2 : map snd (read_log 9 (d_data d)) = ps) by congruence.
  assert (ALL : forall a, In a l -> d_name a = l_name g -> a = d). { intros a A N. assert (Q : In a [d]) by (rewrite <- X; apply filter_In; split; auto; apply beqs_eq; auto). destruct Q as [Q|[]]; auto. }
  exists g, (d_data d). split; [exists e, b; auto|]. split; [auto|]. split; [|auto]. exists l. split; auto. assert (Q : In d (filter (fun d => beqs (d_name d) (l_name g)) l)) by (rewrite X; left; auto). apply filter_In in Q. destruct Q as [Q1 Q2].
  split. { exists d. split; auto. apply beqs_eq. auto. } intros a A N. rewrite (ALL a A N). auto.
Qed.

(* Refuted: all traffic.  With complete writes the router passes a command of the ground station on to the vehicle, after the monitored system
   was known, and the open telemetry log has the messages before and after it but not the command. *)
Theorem C101_all_traffic_refuted : exists its w g data i m ds, wf_table (v_tbl (rx_env [])) /\ (forall k, 280 <= v_orc (rx_env []) k) /\ runs 9 (rx_env []) (tr_conf 0) its w /\
  telemetry (tr_conf 0) w g /\ l_open g = true /\ content (w_sys w) (l_name g) data /\
  In (IRecv i (encode (rx_cmd 255 190 1 1 1)) m Routed ds) its /\ map dl_to ds = [0%nat] /\
  map snd (read_log 9 data) = map encode [rx_hb 1 1 0; rx_hb 255 190 1; rx_hb 1 1 1].
Proof.
  destruct (view_runs _ (fun w its => (tr_log w, existsb (fun x => match x with IRecv 1 bs _ Routed [d] => beqs bs (encode (rx_cmd 255 190 1 1 1)) && Nat.eqb (dl_to d) 0 | _ => false end) its))
    (Some (true, map encode [rx_hb 1 1 0; rx_hb 255 190 1; rx_hb 1 1 1]), true) 9 (rx_env []) (Some []) (tr_conf 0) tr_events) as (w & its & R & X). { vm_compute. reflexivity. }
  pose proof (f_equal fst X) as X1. pose proof (f_equal snd X) as X2. cbn [fst snd] in X1, X2. clear X. destruct (tr_log_content 0 _ _ _ X1) as (g & data & T & O & C & Q).
  apply existsb_exists in X2. destruct X2 as (x & I & B). destruct x as [|i bs m [] ds| | | |]; try discriminate B; try (destruct i as [|[|]]; discriminate B). destruct i as [|[|]]; try discriminate B. destruct ds as [|d [|]]; try discriminate B.
  apply andb_prop in B. destruct B as [B1 B2]. apply beqs_eq in B1. apply Nat.eqb_eq in B2. subst bs. exists its, w, g, data, 1%nat, m, [d].
  split; [apply rx_tbl_wf|]. split; [intros k; vm_compute; discriminate|]. split; [exact R|]. split; [exact T|]. split; [exact O|]. split; [exact C|]. split; [exact I|]. split; [cbn [map]; congruence|]. exact Q.
Qed.

(* With system 2 as sniffer the same session records the command as well. *)
Example C101_nonvacuous : exists its w g data, wf_table (v_tbl (rx_env [])) /\ (forall k, 280 <= v_orc (rx_env []) k) /\ runs 9 (rx_env []) (tr_conf 2) its w /\ 0 <= cf_sniffer (tr_conf 2) < 256 /\
  telemetry (tr_conf 2) w g /\ l_open g = true /\ content (w_sys w) (l_name g) data /\
  map fst (traffic its) = map encode [rx_hb 255 190 0; rx_hb 1 1 0; rx_cmd 255 190 1 1 1; rx_hb 255 190 1; rx_hb 1 1 1] /\
  map snd (read_log 9 data) = map encode [rx_hb 1 1 0; rx_cmd 255 190 1 1 1; rx_hb 255 190 1; rx_hb 1 1 1].
Proof.
  destruct (view_runs _ (fun w its => (tr_log w, map fst (traffic its)))
    (Some (true, map encode [rx_hb 1 1 0; rx_cmd 255 190 1 1 1; rx_hb 255 190 1; rx_hb 1 1 1]), map encode [rx_hb 255 190 0; rx_hb 1 1 0; rx_cmd 255 190 1 1 1; rx_hb 255 190 1; rx_hb 1 1 1])
    9 (rx_env []) (Some []) (tr_conf 2) tr_events) as (w & its & R & X). { vm_compute. reflexivity. }
  pose proof (f_equal fst X) as X1. pose proof (f_equal snd X) as X2. cbn [fst snd] in X1, X2. clear X. destruct (tr_log_content 2 _ _ _ X1) as (g & data & T & O & C & Q).
  exists its, w, g, data. split; [apply rx_tbl_wf|]. split; [intros k; vm_compute; discriminate|]. split; [exact R|]. split; [vm_compute; split; congruence|]. auto 10.
Qed.
Print Assumptions C101_all_traffic_refuted.
