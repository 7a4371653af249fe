(* What a logger is handed in the running program, and while-armed mode along the run. *)
From Verif Require Import Base Mav SpecCrc SpecFrame Frame FrameProofs SpecAccept Accept AcceptProofs Names NamesProofs Sys LogFile LogFileProofs ULog Loggers LogInv LogStep SpecLog LogRun LogModes LogModes2
  ExFrame BinProofs Prop_LogModes Prop_TLog RouterCtl Router RouterRoute RouterRoute2 RouterSetup RouterActs RouterInv RouterStart RouterHist RouterTimers SpecRouter RouterTrace Prop_Router Prop_Hangup LogSpare LogHist RouterLogs RouterLives LogLive TeleRun ExRouter Prop_TeleRun.

(* the messages handed to any logger: those of the traffic that are addressed to it *)
Section Handed.
Variables (f : nat) (v : env) (c : config) (its : list item) (w : world) (l : logger) (q : nat).
Hypothesis WT : wf_table (v_tbl v).
Hypothesis SN : 0 <= cf_sniffer c < 256.
Hypothesis RUN : runs f v c its w.
Hypothesis LG : is_logger c q.
Hypothesis AT : at_log q w l.

Lemma log_known : forall pre post, its = pre ++ post -> forall a, known_after c pre q a <-> a = (2, 0).
Proof.
  intros pre post E a. split; [|intros ->; left; split; [exact LG|reflexivity]]. intros K.
  assert (K2 : known_after c its q a). { destruct K as [K|(i & bs & m & ds & I & Q)]; [left; auto|]. right. exists i, bs, m, ds. split; auto. rewrite E. apply in_or_app; auto. }
  destruct AT as (e & L & KE). destruct (trace_runs _ _ _ _ _ WT RUN) as [SY _]. destruct (sy_ep _ _ _ SY _ _ L) as (_ & _ & _ & KN). apply KN in K2.
  assert (IL : is_log e = true) by (unfold is_log; rewrite KE; reflexivity). destruct (i_logs _ (inv_runs _ _ _ _ _ WT RUN) _ _ L IL) as (ID & _).
  destruct K2 as (B1 & B2 & K2). unfold known in K2. rewrite ID in K2. destruct K2 as [K2|[]]. destruct a as [s k]. cbn [fst snd] in *. unfold is_byte in *. f_equal; lia.
Qed.
Lemma log_open_after : forall pre post, its = pre ++ post -> In q (open_after c pre).
Proof.
  intros pre post E. unfold open_after. apply filter_In. split. { apply in_or_app. left. apply in_seq. destruct LG as [_ X]. lia. }
  apply negb_true_iff. apply Bool.not_true_iff_false. intros X. unfold memb in X. apply existsb_exists in X. destruct X as (k & I & Q). apply Nat.eqb_eq in Q. subst k.
  assert (I2 : In q (gone its)) by (rewrite E; unfold gone; rewrite flat_map_app; apply in_or_app; auto).
  destruct (C94_let_go_partial _ _ _ _ _ q WT RUN) as [G _]. { apply group_of_new. destruct LG; lia. }
  destruct (G I2) as [N _]. destruct AT as (e & L & _). congruence.
Qed.

Lemma log_handed : forall pre i bs m d ds post, its = pre ++ IRecv i bs m d ds :: post ->
  existsb (Nat.eqb q) (map dl_to ds) = match d with Routed => for_logb (cf_sniffer c) m | _ => false end.
Proof.
  intros pre i bs m d ds post E. assert (I : In (IRecv i bs m d ds) its) by (rewrite E; apply in_or_app; right; left; auto).
  pose proof (runs_recv _ _ _ _ _ WT RUN) as RO. rewrite Forall_forall in RO. destruct (RO _ I) as (_ & _ & _ & _ & ND & _).
  destruct d; try (rewrite ND by discriminate; reflexivity). clear ND RO.
  destruct (C17_delivered _ _ _ _ _ _ _ _ _ _ _ WT SN RUN E) as (ok & D & W).
  assert (E2 : its = (pre ++ [IRecv i bs m Routed ds]) ++ post) by (rewrite <- app_assoc; exact E). set (h := pre ++ [IRecv i bs m Routed ds]) in *.
  assert (X : existsb (Nat.eqb q) (map dl_to ds) = true <-> for_log (cf_sniffer c) m).
  2:{ rewrite <- for_log_b in X. apply eq_true_iff_eq. exact X. }
  pose proof (log_known _ _ E2) as K. specialize (W q (log_open_after _ _ E2)).
  assert (WW : wanted c h m q <-> for_log (cf_sniffer c) m).
  { unfold wanted, for_log. rewrite filters_of_new by (destruct LG; lia). cbv zeta. split.
    - intros (A & _ & B). split. { intros Q. apply A. apply K. exact Q. } destruct B as [B|[_ (k & B)]]; [left|right; apply K in B; congruence].
      unfold addressed_to in *. destruct B as [B|(s & S & B)]; [left; auto|]. right. exists s. split; auto. destruct B as [[B (k & Q)]|(k & Q & NZ & B)]; [left|right].
      + split; auto. exists k. apply K; auto.
      + exists k. repeat split; auto. apply K; auto.
    - intros (A & B). split. { intros Q. apply A. apply K. exact Q. } split. { repeat split; cbn; auto. } destruct B as [B|B]; [left|right; split; [lia|exists 0; apply K; congruence]].
      unfold addressed_to in *. destruct B as [B|(s & S & B)]; [left; auto|]. right. exists s. split; auto. destruct B as [[B (k & Q)]|(k & Q & NZ & B)]; [left|right].
      + split; auto. exists k. apply K; auto.
      + exists k. repeat split; auto. apply K; auto. }
  rewrite <- WW, <- W, D. rewrite existsb_exists. split.
  - intros (k & IK & Q). apply Nat.eqb_eq in Q. subst k. apply filter_In in IK. apply IK.
  - intros Q. exists q. split; [|apply Nat.eqb_refl]. apply filter_In. split; auto. eapply log_open_after; eauto.
Qed.

Lemma logger_traffic : handed q its = map fst (filter (fun bm => for_logb (cf_sniffer c) (snd bm)) (traffic its)).
Proof.
  pose proof log_handed as H. revert H. generalize its. intros h. induction h as [|x h IH]; intros H; [reflexivity|].
  cbn [handed traffic flat_map]. fold (handed q h) (traffic h). rewrite filter_app, map_app, <- IH. 2:{ intros pre i bs m d ds post E. apply (H (x :: pre) i bs m d ds post). rewrite E. reflexivity. }
  f_equal. destruct x as [|i bs m d ds| | | |]; try reflexivity. rewrite (H [] i bs m d ds h eq_refl). destruct d; try reflexivity. cbn [filter snd]. destruct (for_logb _ m); reflexivity.
Qed.
End Handed.

(* ---- while-armed mode -------------------------------------------------------------------------------------------------- *)

(* log data only come while the vehicle says it is armed *)
Definition data_armed (k : LogModes.kind) (fcu : Z) (ps : list packet) : Prop :=
  forall a p b, ps = a ++ p :: b -> data_packet k p = true -> reported_armed (monitored fcu a) a false = true.
Definition free_of_data (k : LogModes.kind) (ps : list packet) : Prop := forall p, In p ps -> data_packet k p = false.

(* the logger after [ps]; [na]: no alive check so far *)
Definition armed_state (k : LogModes.kind) (fcu : Z) (ps : list packet) (na : Prop) (g : lg) (b : backend) : Prop :=
  let armed := reported_armed (monitored fcu ps) ps false in
  kind_of b = k /\ l_target g = monitored fcu ps /\ (l_mode g = MWhileArmed \/ l_mode g = MDisabled) /\
  (l_mode g = MWhileArmed \/ free_of_data k ps -> l_open g = true -> armed = true) /\
  (free_of_data k ps -> l_mode g = MDisabled -> l_open g = false) /\
  (free_of_data k ps -> na -> l_mode g = MWhileArmed -> l_open g = armed).

Definition step_packets (e : lev) : list packet := match e with LMsg p _ => [p] | _ => [] end.
Definition step_na (na : Prop) (e : lev) : Prop := match e with LAlive => False | _ => na end.

Lemma armed_event : forall f v y g b e y' g' b' cs k fcu ps na, levent f v y g b e = Ok (y', g', b', cs) -> sys_ok y -> linv y g -> armed_state k fcu ps na g b ->
  Forall wf_packet (ps ++ step_packets e) -> full_heartbeats (ps ++ step_packets e) -> data_armed k fcu (ps ++ step_packets e) ->
  armed_state k fcu (ps ++ step_packets e) (step_na na e) g' b'.
Proof.
  intros f v y g1 b1 e y' g' b' cs k fcu ps na E S1 L1 (K1 & T1 & M1 & O1 & P1 & Q1) W FH DA.
  apply Forall_app in W. destruct W as [W1 W2].
  destruct (levent_step _ _ _ _ _ _ _ _ _ _ E S1 L1) as (_ & _ & _ & _ & _ & T2).
  assert (TG : l_target g' = monitored fcu (ps ++ step_packets e)).
  { rewrite T2, T1. destruct e as [p t| |]; cbn [step_packets]; rewrite ?app_nil_r; auto.
    rewrite monitored_snoc by auto. destruct ((monitored fcu ps =? -1) && (p_id p =? 0) && (p_comp p =? 1)) eqn:C; auto.
    cbn [andb]. destruct (Z.eqb_spec fcu (-1)) as [F|F]; auto. exfalso. unfold monitored in C. rewrite (proj2 (Z.eqb_neq _ _) F) in C. rewrite (proj2 (Z.eqb_neq _ _) F) in C. discriminate. }
  assert (NDL : free_of_data k (ps ++ step_packets e) -> free_of_data k ps). { intros X p I. apply X. apply in_or_app; auto. }
  unfold armed_state. destruct e as [p tail| |]; cbn [step_packets step_na] in *.
  - destruct (data_packet k p) eqn:DP.
    + pose proof (DA ps p [] eq_refl DP) as ARM.
      assert (HBF : autopilot_heartbeat p = false).
      { unfold autopilot_heartbeat, data_packet in *. destruct k; try discriminate;
        destruct (Z.eqb_spec (p_id p) 0) as [Z0|]; auto; rewrite Z0 in DP; discriminate. }
      assert (MS : monitored fcu (ps ++ [p]) = monitored fcu ps).
      { rewrite monitored_snoc by auto. unfold autopilot_heartbeat in HBF. rewrite <- (andb_assoc _ (p_id p =? 0)), HBF, andb_false_r. reflexivity. }
      assert (AR : reported_armed (monitored fcu (ps ++ [p])) (ps ++ [p]) false = true).
      { rewrite MS, reported_snoc, HBF. auto. }
      cbn [levent] in E. inv_bind E. inversion E; subst.
      pose proof (learn_inv _ _ (info_of (v_tbl v) p) L1) as L1'.
      destruct (lwrite_split _ _ _ _ _ _ _ _ _ _ _ _ E0) as (y3 & g3 & b3 & c3 & c4 & A & RS & _).
      destruct (auto_spec _ _ _ _ _ _ _ _ _ _ _ A S1 L1') as (K & A0 & _ & _ & A2).
      pose proof (step_auto _ _ _ _ _ _ _ _ _ _ _ A) as [B1 B2 _ _].
      destruct (rest_mode _ _ _ _ _ _ _ _ _ _ _ _ RS (B1 S1 L1') (B2 S1 L1')) as (MM & KK).
      assert (NID : p_id p =? 0 = false).
      { unfold data_packet in *. destruct (kind_of b1); try discriminate; destruct (Z.eqb_spec (p_id p) 0) as [Z0|]; auto; rewrite Z0 in DP; discriminate. }
      destruct (learn_ep g1 (info_of (v_tbl v) p)) as (_ & _ & Q3 & Q4 & _). rewrite Q4 in *.
      assert (SAME : g3 = learn_target g1 (info_of (v_tbl v) p)).
      { destruct M1 as [M1|M1].
        - specialize (A2 M1). cbn [m_id info_of] in A2. rewrite NID in A2. cbn [andb] in A2. apply A2.
        - destruct A0 as (_ & X & _); auto. }
      split; [congruence|]. split; auto. split. { rewrite MM, SAME, Q4. auto. } split; auto.
      assert (CX : free_of_data (kind_of b1) (ps ++ [p]) -> False).
      { intros ND. rewrite (ND p) in DP by (apply in_or_app; cbn; auto). discriminate. }
      split; intros ND; destruct (CX ND).
    + cbn [levent] in E. inv_bind E. inversion E; subst. inversion W2; subst.
      destruct (armed_message _ _ _ _ _ _ _ _ _ _ _ _ E0 S1 L1 H1) as (K2 & D2 & A2); auto.
      { apply FH. apply in_or_app; cbn; auto. }
      split; [congruence|]. split; auto. rewrite reported_snoc. unfold autopilot_heartbeat. rewrite <- TG.
      assert (MSAME : (p_id p =? 0) && (p_comp p =? 1) && (p_sys p =? l_target g') = false ->
                reported_armed (l_target g') ps false = reported_armed (monitored fcu ps) ps false).
      { intros C. rewrite TG, monitored_snoc in * by auto.
        destruct ((monitored fcu ps =? -1) && (p_id p =? 0) && (p_comp p =? 1) && (fcu =? -1)) eqn:X; auto.
        apply andb_prop in X. destruct X as [X X4]. apply andb_prop in X. destruct X as [X X3]. apply andb_prop in X. destruct X as [X1 X2].
        rewrite X2, X3, Z.eqb_refl in C. discriminate. }
      destruct M1 as [M1|M1].
      * specialize (A2 M1). destruct ((p_id p =? 0) && (p_comp p =? 1) && (p_sys p =? l_target g')) eqn:C.
        -- destruct A2 as [(X1 & X2)|(X1 & X2 & X3)]; rewrite X1, X2.
           ++ split; auto. split; auto. split; auto. intros; discriminate.
           ++ split; auto. split; [discriminate|]. split; auto; intros; discriminate.
        -- destruct A2 as (X1 & X2). rewrite X1, X2, (MSAME eq_refl). split; auto. split; auto. split.
           { intros ND X; congruence. } intros ND NA _. apply Q1; auto.
      * destruct (D2 M1) as (X1 & X2). rewrite X1, X2. split; auto. split; [|split; [auto|intros; discriminate]].
        intros [?|ND] OP; [discriminate|]. rewrite P1 in OP; auto. discriminate.
  - rewrite app_nil_r in *. destruct (start_tick _ _ _ _ _ _ _ _ _ E) as (X1 & X2 & X3 & _). subst b1.
    rewrite X1, X2. repeat (split; auto).
  - rewrite app_nil_r in *. destruct (alive_tick _ _ _ _ _ _ _ _ _ E S1 L1) as (X1 & X2 & X3).
    rewrite X1. split; [congruence|]. split; auto. split; auto. split.
    + intros MN OP. destruct (l_open g1) eqn:OG; auto. destruct (X3 eq_refl) as (_ & ->). congruence.
    + split.
      * intros ND MD. destruct (X3 (P1 ND MD)) as (_ & ->). auto.
      * intros ND [].
Qed.

Definition checks (i : nat) (x : item) : Prop := exists t, x = IFire t (CbAlive i).
Definition armed_log (k : LogModes.kind) (fcu : Z) (i : nat) (its : list item) (ps : list packet) (l : logger) : Prop :=
  exists g b, l = LFile g b /\ armed_state k fcu ps (forall x, In x its -> ~ checks i x) g b.

Lemma prefix_data : forall k fcu a b, data_armed k fcu (a ++ b) -> data_armed k fcu a.
Proof. intros k fcu a b H x p y E. apply (H x p (y ++ b)). rewrite E, <- app_assoc. reflexivity. Qed.
Lemma prefix_full : forall a b, full_heartbeats (a ++ b) -> full_heartbeats a.
Proof. intros a b H p I. apply H. apply in_or_app; auto. Qed.
Lemma state_na : forall k fcu ps (na na' : Prop) g b, armed_state k fcu ps na g b -> (na' -> na) -> armed_state k fcu ps na' g b.
Proof. intros k fcu ps na na' g b (A & B & C & D & E & F) I. repeat (split; auto). Qed.

Lemma armed_lives : forall P f v i y l its y' l' k fcu, lives P f v i y l its y' l' -> held y i l -> armed_log k fcu i [] [] l ->
  exists ps, Forall wf_packet ps /\ handed i its = map encode ps /\ (full_heartbeats ps -> data_armed k fcu ps -> armed_log k fcu i its ps l').
Proof.
  intros P f v i y l its y' l' k fcu H. induction H; intros Q T0.
  - exists []. split; [constructor|]. split; auto.
  - pose proof (lives_held _ _ _ _ _ _ _ _ _ H Q) as Q1. pose proof (held_hist _ _ _ _ _ _ _ H0 Q1) as Q2. destruct (IHlives Q T0) as (ps & W & HD & IH). clear IHlives.
    exists (ps ++ step_packets e). change (x :: r) with ([x] ++ r). rewrite !handed_app, (handed_ctls i r H5), app_nil_r, HD, map_app.
    assert (SP : Forall wf_packet (step_packets e) /\ handed i [x] = map encode (step_packets e)).
    { destruct x as [|j bs m d ds|j bs m ds|t0 cb| |]; try contradiction; destruct e as [p t| |]; try contradiction; try (destruct cb; contradiction); cbn [step_packets map]; try (split; [constructor|reflexivity]).
      destruct H2 as (WP & -> & _). split; [constructor; auto|]. cbn [concerns] in H1. cbn [handed flat_map]. rewrite H1. reflexivity. }
    destruct SP as [SP1 SP2]. split; [apply Forall_app; auto|]. split; [congruence|]. intros FH DA.
    destruct (IH (prefix_full _ _ FH) (prefix_data _ _ _ _ DA)) as (g & b & -> & ST). cbn [kevent] in H4. inv_bind H4. injection H4 as <- <- <-. destruct Q2 as [S [_ L]].
    eexists. eexists. split; [reflexivity|]. eapply state_na. { eapply armed_event; [exact E|exact S|exact L|exact ST|apply Forall_app; auto|exact FH|exact DA]. }
    intros NA. destruct e as [p t| |]; cbn [step_na].
    + intros z Z. apply NA. apply in_or_app; auto.
    + intros z Z. apply NA. apply in_or_app; auto.
    + apply (NA x). { apply in_or_app. right. left. reflexivity. } destruct x as [|j bs m d ds|j bs m ds|t0 cb| |]; try contradiction. destruct cb; try contradiction. cbn [concerns] in H1. apply Nat.eqb_eq in H1. subst. exists t0. reflexivity.
  - destruct (IHlives Q T0) as (ps & W & HD & IH). exists ps. split; auto. split. { rewrite handed_app, (handed_none i r H0), app_nil_r. auto. }
    intros FH DA. destruct (IH FH DA) as (g & b & -> & ST). exists g, b. split; auto. eapply state_na; [exact ST|]. intros NA z Z. apply NA. apply in_or_app; auto.
Qed.
