(* C98: the loggers' dialogue with the vehicle.  Asked for once a second until answered, not asked again afterwards, and
   asked for anew when no log data came for a whole interval of the alive check. *)
From Verif Require Import Base Mav SpecFrame Frame FrameProofs Names Sys LogFile LogFileProofs ULog Loggers LogInv LogStep SpecLog LogRun LogModes LogModes2
  ExFrame BinProofs Prop_LogModes Prop_BinLog Prop_ULogEx Prop_ULogNew SpecAsk LogAsk LogAsk2 LogAsk3 LogWatch LogPer.

Lemma ask_dialect_sub : forall v k ps qs, ask_dialect v k ps -> (forall p, In p qs -> In p ps) -> ask_dialect v k qs.
Proof.
  intros v k ps qs D I. destruct k; cbn [ask_dialect] in *; auto.
  - destruct D as (A & B). split; auto.
  - destruct D as (A & B & C & W). split; [exact A|]. split; [exact B|]. split; [exact C|]. auto.
Qed.
Lemma no_start_number_sub : forall k ps qs, no_start_number k ps -> (forall p, In p qs -> In p ps) -> no_start_number k qs.
Proof. unfold no_start_number. intuition eauto. Qed.

(* ---- every event --------------------------------------------------------------------------------------- *)

Definition ev_ans (k : protocol) (e : lev) : bool := match e with LMsg p _ => answer k p | _ => false end.
Definition ev_log (k : protocol) (e : lev) : bool := match e with LMsg p _ => log_data k p | _ => false end.

Lemma offered_one : forall e, offered [e] = match e with LMsg p _ => [p] | _ => [] end.
Proof. destruct e; reflexivity. Qed.

Lemma event_ask_ok : forall f v y g b e y' g' b' cs, levent f v y g b e = Ok (y', g', b', cs) -> sys_ok y -> linv y g -> ask_dialect v (proto b) (offered [e]) ->
  sys_ok y' /\ linv y' g' /\ proto b' = proto b /\
  (l_wtotal g' = l_wtotal g \/ l_wtotal g' = u32 (l_wtotal g + 1)) /\
  (asking g -> ev_ans (proto b) e = false -> asking g') /\
  (proto b <> NoProtocol -> answered g \/ (ev_ans (proto b) e = true /\ l_open g = true) -> answered g' \/ exists t, stopped (proto b) t cs) /\
  (no_start_number (proto b) (offered [e]) -> e <> LStart \/ answered g -> no_start (proto b) cs).
Proof.
  intros f v y g b e y' g' b' cs H S L D. pose proof (levent_step _ _ _ _ _ _ _ _ _ _ H S L) as (S' & L' & _). split; auto. split; auto.
  destruct e as [p t| |]; cbn [offered ev_ans] in *.
  - destruct (msg_ask _ _ _ _ _ _ _ _ _ _ _ H S L D) as ([A1 A2 A3 A4 A5 A6] & _ & P & NS). split; auto. split; auto. split; auto. split; auto.
    intros NP Q. destruct (A3 NP Q); eauto.
  - destruct (start_ask _ _ _ _ _ _ _ _ _ H) as (-> & (C1 & C2) & (K1 & K2 & K3 & K4) & M). split; auto. split; auto.
    split; [unfold asking; rewrite K1, K2; auto|]. split.
    + intros _ [[Q1 Q2]|[Q _]]; [|discriminate]. left. split; congruence.
    + intros _ [Q|[_ Q]]; [congruence|]. rewrite Q in M. destruct M as (-> & _). apply no_start_nil.
  - destruct (alive_ask _ _ _ _ _ _ _ _ _ H) as (W & M & N & P & NS & F & K). split; auto. split; auto.
    destruct (l_talive g) as [id|] eqn:TA.
    2:{ destruct (N eq_refl) as [-> ->]. split; auto. split; [|auto]. intros _ [Q|[Q _]]; [auto|discriminate]. }
    destruct (Z.eq_dec (l_mark g) (l_wtotal g)) as [E|E].
    + destruct F as (F1 & F2 & F3); auto; [discriminate|]. split; [unfold asking; auto|]. split; auto. intros NP [[Q _]|[Q _]]; [|discriminate]. right. eauto.
    + destruct K as (-> & -> & -> & (K1 & K2 & K3 & K4) & _); auto. split; [unfold asking; rewrite K1, K2; auto|]. split; auto.
      intros _ [[Q1 Q2]|[Q _]]; [|discriminate]. left. split; congruence.
Qed.

Lemma offered_cons_in : forall e evs p, In p (offered [e]) -> In p (offered (e :: evs)).
Proof. intros e evs p H. destruct e; cbn in *; tauto. Qed.
Lemma offered_tail_in : forall e evs p, In p (offered evs) -> In p (offered (e :: evs)).
Proof. intros e evs p H. destruct e; cbn in *; auto. Qed.

(* ---- whole runs ----------------------------------------------------------------------------------------- *)

Definition total_ok (g : lg) : Prop := 0 <= l_wtotal g < 4294967296.
Lemma total_step : forall g g', total_ok g -> l_wtotal g' = l_wtotal g \/ l_wtotal g' = u32 (l_wtotal g + 1) -> total_ok g'.
Proof. unfold total_ok. intros g g' T [-> | ->]; auto. unfold u32. apply Z.mod_pos_bound. lia. Qed.

Lemma run_proto : forall f v evs y g b y' g' b' cs, lrun f v y g b evs = Ok (y', g', b', cs) -> sys_ok y -> linv y g -> total_ok g -> ask_dialect v (proto b) (offered evs) ->
  sys_ok y' /\ linv y' g' /\ total_ok g' /\ proto b' = proto b.
Proof.
  induction evs as [|e evs IH]; intros y g b y' g' b' cs H S L T D; cbn [lrun] in H. { inversion H; subst; auto. }
  inv_bind H. inv_bind H. inversion H; subst.
  destruct (event_ask_ok _ _ _ _ _ _ _ _ _ _ E S L (ask_dialect_sub _ _ _ _ D (offered_cons_in _ _))) as (S1 & L1 & P1 & T1 & _).
  apply ask_dialect_sub with (qs := offered evs) in D; [|apply offered_tail_in]. rewrite <- P1 in D.
  destruct (IH _ _ _ _ _ _ _ E0 S1 L1 (total_step _ _ T T1) D) as (A & B & C & F). rewrite P1 in F. auto.
Qed.

Lemma run_asking : forall f v evs y g b y' g' b' cs, lrun f v y g b evs = Ok (y', g', b', cs) -> sys_ok y -> linv y g -> ask_dialect v (proto b) (offered evs) ->
  (forall p, In p (offered evs) -> answer (proto b) p = false) -> asking g -> asking g'.
Proof.
  induction evs as [|e evs IH]; intros y g b y' g' b' cs H S L D NA AK; cbn [lrun] in H. { inversion H; subst; auto. }
  inv_bind H. inv_bind H. inversion H; subst.
  destruct (event_ask_ok _ _ _ _ _ _ _ _ _ _ E S L (ask_dialect_sub _ _ _ _ D (offered_cons_in _ _))) as (S1 & L1 & P1 & T1 & A1 & _).
  apply ask_dialect_sub with (qs := offered evs) in D; [|apply offered_tail_in]. rewrite <- P1 in D.
  apply (IH _ _ _ _ _ _ _ E0 S1 L1 D).
  - intros p I. rewrite P1. apply NA. apply offered_tail_in; auto.
  - apply A1; auto. destruct e; auto. cbn [ev_ans]. apply NA. cbn. auto.
Qed.

Lemma run_quiet : forall f v evs y g b y' g' b' cs, lrun f v y g b evs = Ok (y', g', b', cs) -> sys_ok y -> linv y g -> ask_dialect v (proto b) (offered evs) ->
  proto b <> NoProtocol -> no_start_number (proto b) (offered evs) -> answered g -> (forall t, ~ stopped (proto b) t cs) -> no_start (proto b) cs.
Proof.
  induction evs as [|e evs IH]; intros y g b y' g' b' cs H S L D NP NN AD NS; cbn [lrun] in H. { inversion H; subst; apply no_start_nil. }
  inv_bind H. inv_bind H. inversion H; subst.
  destruct (event_ask_ok _ _ _ _ _ _ _ _ _ _ E S L (ask_dialect_sub _ _ _ _ D (offered_cons_in _ _))) as (S1 & L1 & P1 & _ & _ & Q1 & N1).
  apply ask_dialect_sub with (qs := offered evs) in D; [|apply offered_tail_in]. rewrite <- P1 in D.
  assert (X1 : forall t, ~ stopped (proto b) t l). { intros t (c & I & R). apply (NS t). exists c. split; auto. apply in_or_app; auto. }
  assert (X2 : forall t, ~ stopped (proto b) t l1). { intros t (c & I & R). apply (NS t). exists c. split; auto. apply in_or_app; auto. }
  apply no_start_app.
  - apply N1; auto. eapply no_start_number_sub; [exact NN|]. apply offered_cons_in.
  - rewrite <- P1. apply (IH _ _ _ _ _ _ _ E0 S1 L1 D); rewrite ?P1; auto.
    + eapply no_start_number_sub; [exact NN|]. apply offered_tail_in.
    + destruct (Q1 NP (or_introl AD)) as [X|(t & X)]; auto. destruct (X1 t X).
Qed.

Lemma run_silent : forall f v evs y g b y' g' b' cs, lrun f v y g b evs = Ok (y', g', b', cs) -> sys_ok y -> linv y g -> ask_dialect v (proto b) (offered evs) ->
  ~ In LAlive evs -> (forall p, In p (offered evs) -> answer (proto b) p = false /\ log_data (proto b) p = false) -> l_talive g' <> None ->
  l_talive g <> None /\ l_wtotal g' = l_wtotal g /\ l_mark g' = l_mark g.
Proof.
  induction evs as [|e evs IH]; intros y g b y' g' b' cs H S L D NA ND TA; cbn [lrun] in H. { inversion H; subst; auto. }
  inv_bind H. inv_bind H. inversion H; subst.
  destruct (event_ask_ok _ _ _ _ _ _ _ _ _ _ E S L (ask_dialect_sub _ _ _ _ D (offered_cons_in _ _))) as (S1 & L1 & P1 & _).
  pose proof (ask_dialect_sub _ _ _ _ D (offered_cons_in e evs)) as D1.
  apply ask_dialect_sub with (qs := offered evs) in D; [|apply offered_tail_in]. rewrite <- P1 in D.
  destruct (IH _ _ _ _ _ _ _ E0 S1 L1 D) as (A & B & C); auto.
  { intros X. apply NA. right; auto. } { intros p I. rewrite P1. apply ND. apply offered_tail_in; auto. }
  destruct e as [p t| |]; [| |destruct NA; left; auto].
  - destruct (ND p (or_introl eq_refl)) as [N1 N2].
    destruct (msg_ask _ _ _ _ _ _ _ _ _ _ _ E S L D1) as ([_ _ _ A4 _ _] & M & _). destruct (A4 N1 N2 A). repeat split; congruence.
  - destruct (start_ask _ _ _ _ _ _ _ _ _ E) as (_ & (C1 & C2) & (K1 & K2 & K3 & K4) & _). repeat split; congruence.
Qed.

Lemma run_busy : forall f v evs y g b y' g' b' cs, lrun f v y g b evs = Ok (y', g', b', cs) -> sys_ok y -> linv y g -> ask_dialect v (proto b) (offered evs) ->
  ~ In LAlive evs -> exists k, (k <= length (offered evs))%nat /\ l_wtotal g' = (if (k =? 0)%nat then l_wtotal g else u32 (l_wtotal g + Z.of_nat k)) /\ l_mark g' = l_mark g /\
    (l_talive g = None \/ (exists p, In p (offered evs) /\ log_data (proto b) p = true) -> l_talive g' = None \/ (k > 0)%nat).
Proof.
  induction evs as [|e evs IH]; intros y g b y' g' b' cs H S L D NA; cbn [lrun] in H.
  { inversion H; subst. exists 0%nat. repeat split; auto. intros [X|(p & [] & _)]; auto. }
  inv_bind H. inv_bind H. inversion H; subst.
  destruct (event_ask_ok _ _ _ _ _ _ _ _ _ _ E S L (ask_dialect_sub _ _ _ _ D (offered_cons_in _ _))) as (S1 & L1 & P1 & _).
  pose proof (ask_dialect_sub _ _ _ _ D (offered_cons_in e evs)) as D1.
  apply ask_dialect_sub with (qs := offered evs) in D; [|apply offered_tail_in]. rewrite <- P1 in D.
  destruct (IH _ _ _ _ _ _ _ E0 S1 L1 D) as (k & K1 & K2 & K3 & K4). { intros X. apply NA. right; auto. }
  rewrite P1 in K4. destruct e as [p t| |]; [| |destruct NA; left; auto].
  - destruct (msg_ask _ _ _ _ _ _ _ _ _ _ _ E S L D1) as ([A1 _ _ _ A5 A6] & M & _).
    assert (UU : u32 (u32 (l_wtotal g + 1) + Z.of_nat k) = u32 (l_wtotal g + Z.of_nat (Datatypes.S k))).
    { unfold u32. rewrite Z.add_mod_idemp_l by lia. f_equal. lia. }
    assert (GO : (l_talive l0 = None \/ l_wtotal l0 = u32 (l_wtotal g + 1)) \/ ~ (l_talive g = None \/ (log_data (proto b) p = true))).
    { destruct (l_talive g) eqn:TG; [|left; auto]. destruct (log_data (proto b) p) eqn:LD; [left; auto|]. right. intros [X|X]; discriminate. }
    destruct (Z.eq_dec (l_wtotal l0) (u32 (l_wtotal g + 1))) as [W|W].
    + exists (Datatypes.S k). split; [cbn [offered length]; lia|]. split.
      { cbn [Nat.eqb]. destruct (Nat.eqb_spec k 0) as [->|NK]; rewrite K2, W; auto. }
      split; [congruence|]. intros _. right. lia.
    + assert (W' : l_wtotal l0 = l_wtotal g) by tauto. exists k. split; [cbn [offered length]; lia|]. split; [rewrite K2, W'; reflexivity|]. split; [congruence|].
      intros Q. apply K4. destruct GO as [[X|X]|X]; [auto|congruence|]. destruct Q as [Q|(q & [<-|I] & Q)]; [tauto|tauto|eauto].
  - destruct (start_ask _ _ _ _ _ _ _ _ _ E) as (_ & (C1 & C2) & (Q1 & Q2 & Q3 & Q4) & _). exists k. cbn [offered]. rewrite <- C1, <- Q3, <- C2. auto.
Qed.

(* ---- C98 -------------------------------------------------------------------------------------------------- *)

Lemma new_state : forall y ep ext mf ml mode fcu, fresh_in y ep -> sys_ok y /\ linv y (lg_new ep ext mf ml mode fcu) /\ total_ok (lg_new ep ext mf ml mode fcu).
Proof. intros y ep ext mf ml mode fcu (S & N). split; auto. split; [apply linv_new; auto|]. cbn. unfold total_ok. cbn. lia. Qed.
Lemma in_app_left : forall (a b : list packet) p, In p a -> In p (a ++ b). Proof. intros. apply in_or_app; auto. Qed.
Lemma in_app_right : forall (a b : list packet) p, In p b -> In p (a ++ b). Proof. intros. apply in_or_app; auto. Qed.

(* Until it is answered, every run of the start timer asks the monitored system, once. *)
Theorem C98_asks_until_answered : forall fuel v y ep ext mf ml mode fcu b before y1 g1 b1 c1 evs y2 g2 b2 c2 y3 g3 b3 c3,
  fresh_in y ep -> Forall wf_packet (offered (before ++ evs)) -> ask_dialect v (proto b) (offered (before ++ evs)) -> proto b <> NoProtocol ->
  lrun fuel v y (lg_new ep ext mf ml mode fcu) b before = Ok (y1, g1, b1, c1) -> l_open g1 = false ->
  lrun fuel v y1 g1 b1 evs = Ok (y2, g2, b2, c2) -> (forall p, In p (offered evs) -> answer (proto b) p = false) -> l_open g2 = true ->
  levent fuel v y2 g2 b2 LStart = Ok (y3, g3, b3, c3) ->
  exists c, c3 = [c] /\ start_request (proto b) (monitored fcu (offered (before ++ evs)) mod 256) (fst c).
Proof.
  intros fuel v y ep ext mf ml mode fcu b before y1 g1 b1 c1 evs y2 g2 b2 c2 y3 g3 b3 c3 F W D NP R1 O1 R2 NA O2 ST.
  destruct (new_state _ _ ext mf ml mode fcu F) as (S & L & T). rewrite offered_app in D.
  destruct (run_proto _ _ _ _ _ _ _ _ _ _ R1 S L T (ask_dialect_sub _ _ _ _ D (in_app_left _ _))) as (S1 & L1 & T1 & P1).
  apply ask_dialect_sub with (qs := offered evs) in D; [|apply in_app_right]. rewrite <- P1 in D, NA.
  destruct (run_proto _ _ _ _ _ _ _ _ _ _ R2 S1 L1 T1 D) as (_ & _ & _ & P2).
  assert (AK : l_tstart g2 <> None). { apply (run_asking _ _ _ _ _ _ _ _ _ _ R2 S1 L1 D NA); auto. intros X. congruence. }
  assert (TG : l_target g2 = monitored fcu (offered (before ++ evs))).
  { eapply (run_target fuel v (before ++ evs)); [|exact S|exact L|exact W|reflexivity]. rewrite lrun_app, R1. cbn [bind]. rewrite R2. cbn [bind]. reflexivity. }
  destruct (start_ask _ _ _ _ _ _ _ _ _ ST) as (_ & _ & _ & M). destruct (l_tstart g2); [|congruence]. rewrite <- TG, <- P1, <- P2.
  destruct b2; auto. rewrite <- P1, <- P2 in NP. cbn in NP. congruence.
Qed.

(* After the answer the vehicle is not asked again, unless it was told to stop in between. *)
Theorem C98_quiet_once_answered : forall fuel v y ep ext mf ml mode fcu b before y1 g1 b1 c1 p tail evs y2 g2 b2 c2,
  fresh_in y ep -> ask_dialect v (proto b) (offered (before ++ LMsg p tail :: evs)) -> no_start_number (proto b) (p :: offered evs) ->
  lrun fuel v y (lg_new ep ext mf ml mode fcu) b before = Ok (y1, g1, b1, c1) -> l_open g1 = true -> answer (proto b) p = true ->
  lrun fuel v y1 g1 b1 (LMsg p tail :: evs) = Ok (y2, g2, b2, c2) -> (forall c t, In c c2 -> ~ stop_request (proto b) (t mod 256) (fst c)) ->
  forall c t, In c c2 -> ~ start_request (proto b) t (fst c).
Proof.
  intros fuel v y ep ext mf ml mode fcu b before y1 g1 b1 c1 p tail evs y2 g2 b2 c2 F D NN R1 O1 AN R2 NS.
  destruct (new_state _ _ ext mf ml mode fcu F) as (S & L & T). rewrite offered_app in D. cbn [offered] in D.
  destruct (run_proto _ _ _ _ _ _ _ _ _ _ R1 S L T (ask_dialect_sub _ _ _ _ D (in_app_left _ _))) as (S1 & L1 & T1 & P1).
  apply ask_dialect_sub with (qs := p :: offered evs) in D; [|apply in_app_right]. rewrite <- P1 in *.
  cbn [lrun] in R2. inv_bind R2. inv_bind R2. inversion R2; subst.
  assert (NP : proto b1 <> NoProtocol). { intros X. rewrite X in AN. discriminate AN. }
  destruct (event_ask_ok _ _ _ _ _ _ _ _ _ _ E S1 L1 (ask_dialect_sub _ _ _ _ D (offered_cons_in (LMsg p tail) evs))) as (S2 & L2 & P2 & _ & _ & Q & N).
  assert (AD : answered l0).
  { destruct (Q NP (or_intror (conj AN O1))) as [X|(t & c & I & X)]; auto. exfalso. eapply (NS c t); auto. apply in_or_app; auto. }
  apply ask_dialect_sub with (qs := offered evs) in D; [|cbn; auto]. rewrite <- P2 in D.
  assert (X : no_start (proto b1) (l ++ l1)); [|exact X]. apply no_start_app.
  - apply N; [|left; discriminate]. eapply no_start_number_sub; [exact NN|]. cbn. tauto.
  - rewrite <- P2. apply (run_quiet _ _ _ _ _ _ _ _ _ _ E0 S2 L2 D); rewrite ?P2; auto.
    + eapply no_start_number_sub; [exact NN|]. cbn. tauto.
    + intros t (c & I & X). eapply (NS c t); eauto. apply in_or_app; auto.
Qed.

(* When no log data came between two runs of the alive check, the vehicle is told to stop and asked again. *)
Theorem C98_silent_restart : forall fuel v y ep ext mf ml mode fcu b before y1 g1 b1 c1 evs y2 g2 b2 c2 y3 g3 b3 c3 y4 g4 b4 c4,
  fresh_in y ep -> Forall wf_packet (offered (before ++ evs)) -> ask_dialect v (proto b) (offered (before ++ evs)) -> proto b <> NoProtocol ->
  lrun fuel v y (lg_new ep ext mf ml mode fcu) b before = Ok (y1, g1, b1, c1) ->
  lrun fuel v y1 g1 b1 (LAlive :: evs) = Ok (y2, g2, b2, c2) -> ~ In LAlive evs ->
  (forall p, In p (offered evs) -> answer (proto b) p = false /\ log_data (proto b) p = false) -> l_talive g2 <> None ->
  levent fuel v y2 g2 b2 LAlive = Ok (y3, g3, b3, c3) ->
  (exists c, In c c3 /\ stop_request (proto b) (monitored fcu (offered (before ++ evs)) mod 256) (fst c)) /\
  (l_open g3 = true -> levent fuel v y3 g3 b3 LStart = Ok (y4, g4, b4, c4) ->
     exists c, c4 = [c] /\ start_request (proto b) (monitored fcu (offered (before ++ evs)) mod 256) (fst c)).
Proof.
  intros fuel v y ep ext mf ml mode fcu b before y1 g1 b1 c1 evs y2 g2 b2 c2 y3 g3 b3 c3 y4 g4 b4 c4 F W D NP R1 R2 NA ND TA EV.
  destruct (new_state _ _ ext mf ml mode fcu F) as (S & L & T). rewrite offered_app in D.
  destruct (run_proto _ _ _ _ _ _ _ _ _ _ R1 S L T (ask_dialect_sub _ _ _ _ D (in_app_left _ _))) as (S1 & L1 & T1 & P1).
  assert (TG : l_target g2 = monitored fcu (offered (before ++ evs))).
  { replace (offered (before ++ evs)) with (offered (before ++ LAlive :: evs)) by (rewrite !offered_app; reflexivity).
    eapply (run_target fuel v (before ++ LAlive :: evs)); [|exact S|exact L| |reflexivity].
    - rewrite lrun_app, R1. cbn [bind]. rewrite R2. cbn [bind]. reflexivity.
    - rewrite offered_app in *. exact W. }
  apply ask_dialect_sub with (qs := offered evs) in D; [|apply in_app_right]. rewrite <- P1 in *.
  cbn [lrun] in R2. inv_bind R2. inv_bind R2. inversion R2; subst.
  destruct (event_ask_ok _ _ _ _ _ _ _ _ _ _ E S1 L1) as (S2 & L2 & P2 & T2 & _). { eapply ask_dialect_sub; [exact D|]. intros q []. }
  destruct (alive_ask _ _ _ _ _ _ _ _ _ E) as (AW & AM & AZ & _ & _ & _ & _).
  rewrite <- P2 in D, ND.
  destruct (run_silent _ _ _ _ _ _ _ _ _ _ E0 S2 L2 D NA ND TA) as (TA1 & W1 & M1).
  destruct (run_proto _ _ _ _ _ _ _ _ _ _ E0 S2 L2 (total_step _ _ T1 T2) D) as (S3 & L3 & _ & P3).
  assert (TA0 : l_talive g1 <> None). { intros X. destruct (AZ X) as [-> _]. congruence. }
  specialize (AM TA0).
  destruct (alive_ask _ _ _ _ _ _ _ _ _ EV) as (_ & _ & _ & P4 & _ & FR & _).
  destruct FR as (F1 & F2 & F3); auto. { congruence. }
  rewrite P3, P2 in *. split.
  - destruct F2 as (c & I & X); auto.
    { destruct (l_open g2) eqn:O; auto. destruct (li_closed _ _ L3 O) as (_ & _ & X). congruence. }
    exists c. rewrite <- TG. auto.
  - intros O ST. destruct (start_ask _ _ _ _ _ _ _ _ _ ST) as (_ & _ & _ & M). specialize (F1 O). destruct (l_tstart g3); [|congruence].
    rewrite <- TG, <- F3, <- P4. destruct b3; auto. rewrite <- P4 in NP. cbn in NP. congruence.
Qed.

(* When log data came between two runs of the alive check, the second one does nothing. *)
Theorem C98_busy_undisturbed : forall fuel v y ep ext mf ml mode fcu b before y1 g1 b1 c1 evs y2 g2 b2 c2 y3 g3 b3 c3,
  fresh_in y ep -> ask_dialect v (proto b) (offered (before ++ evs)) ->
  lrun fuel v y (lg_new ep ext mf ml mode fcu) b before = Ok (y1, g1, b1, c1) -> l_talive g1 <> None ->
  lrun fuel v y1 g1 b1 (LAlive :: evs) = Ok (y2, g2, b2, c2) -> ~ In LAlive evs -> Z.of_nat (length (offered evs)) < 4294967296 ->
  (exists p, In p (offered evs) /\ log_data (proto b) p = true) ->
  levent fuel v y2 g2 b2 LAlive = Ok (y3, g3, b3, c3) ->
  c3 = [] /\ y3 = y2 /\ b3 = b2 /\ l_open g3 = l_open g2 /\ l_name g3 = l_name g2 /\ l_tstart g3 = l_tstart g2 /\ l_talive g3 = l_talive g2.
Proof.
  intros fuel v y ep ext mf ml mode fcu b before y1 g1 b1 c1 evs y2 g2 b2 c2 y3 g3 b3 c3 F D R1 TA R2 NA LN EX EV.
  destruct (new_state _ _ ext mf ml mode fcu F) as (S & L & T). rewrite offered_app in D.
  destruct (run_proto _ _ _ _ _ _ _ _ _ _ R1 S L T (ask_dialect_sub _ _ _ _ D (in_app_left _ _))) as (S1 & L1 & T1 & P1).
  apply ask_dialect_sub with (qs := offered evs) in D; [|apply in_app_right]. rewrite <- P1 in *.
  cbn [lrun] in R2. inv_bind R2. inv_bind R2. inversion R2; subst.
  destruct (event_ask_ok _ _ _ _ _ _ _ _ _ _ E S1 L1) as (S2 & L2 & P2 & T2 & _). { eapply ask_dialect_sub; [exact D|]. intros q []. }
  destruct (alive_ask _ _ _ _ _ _ _ _ _ E) as (AW & AM & _). specialize (AM TA). rewrite <- P2 in D, EX.
  destruct (run_busy _ _ _ _ _ _ _ _ _ _ E0 S2 L2 D NA) as (k & K1 & K2 & K3 & K4). specialize (K4 (or_intror EX)).
  destruct (alive_ask _ _ _ _ _ _ _ _ _ EV) as (_ & _ & _ & _ & _ & _ & K).
  destruct K as (A1 & A2 & A3 & (A4 & A5 & A6 & _) & A7); [|auto 10].
  destruct K4 as [X|X]; [auto|right]. rewrite K2, K3, AM. destruct (Nat.eqb_spec k 0); [lia|]. rewrite AW. unfold total_ok in T1. unfold u32.
  intros Y. assert (Z.of_nat k < 4294967296) by lia. pose proof (Z.div_mod (l_wtotal g1 + Z.of_nat k) 4294967296 ltac:(lia)) as DM. rewrite <- Y in DM.
  assert (Z.of_nat k = 4294967296 * ((l_wtotal g1 + Z.of_nat k) / 4294967296)) by lia. nia.
Qed.

(* The start timer runs every second and the alive check every five seconds, and neither runs for a closed log. *)
Theorem C98_periods : forall fuel v y ep ext mf ml mode fcu b evs y' g' b' cs,
  fresh_in y ep -> (forall t, In t (y_timers y) -> log_period t) ->
  lrun fuel v y (lg_new ep ext mf ml mode fcu) b evs = Ok (y', g', b', cs) ->
  (forall id, l_tstart g' = Some id -> exists t, In t (y_timers y') /\ tm_id t = id /\ tm_dead t = false /\ tm_cb t = CbLogStart ep /\ tm_ms t = 1000) /\
  (forall id, l_talive g' = Some id -> exists t, In t (y_timers y') /\ tm_id t = id /\ tm_dead t = false /\ tm_cb t = CbAlive ep /\ tm_ms t = 5000) /\
  (l_open g' = false -> forall t, In t (y_timers y') -> tm_dead t = false -> tm_cb t <> CbLogStart ep /\ tm_cb t <> CbAlive ep).
Proof.
  intros fuel v y ep ext mf ml mode fcu b evs y' g' b' cs F P R. destruct (new_state _ _ ext mf ml mode fcu F) as (S & L & _).
  destruct (lrun_inv _ _ _ _ _ _ _ _ _ _ R S L) as (_ & L' & _ & EP & _). cbn in EP. pose proof (per_run _ _ _ _ _ _ _ _ _ _ R P) as P'.
  destruct L' as [LC _ LS _ LA LO]. rewrite EP in LS, LA, LO. split; [|split].
  - intros id I. rewrite I in LS. destruct LS as (t & A & B & C & D). exists t. specialize (P' t A). unfold log_period in P'. rewrite C in P'. auto.
  - intros id I. rewrite I in LA. destruct LA as (t & A & B & C & D). exists t. specialize (P' t A). unfold log_period in P'. rewrite C in P'. auto.
  - intros O t I D. destruct (LC O) as (C1 & C2 & C3). destruct (LO t I D) as (X1 & _ & X3). split; intros E; [specialize (X1 E)|specialize (X3 E)]; congruence.
Qed.

(* As long as timers can be created, an open log is either being asked for every second or checked for silence every five seconds. *)
Lemma run_watch : forall f v evs y g b y' g' b' cs, (forall p, v_tmr v p = true) -> lrun f v y g b evs = Ok (y', g', b', cs) -> sys_ok y -> linv y g -> ask_dialect v (proto b) (offered evs) ->
  watched g -> watched g'.
Proof.
  intros f v evs y g b y' g' b' cs TW. revert y g b y' g' b' cs. induction evs as [|e evs IH]; intros y g b y' g' b' cs H S L D W; cbn [lrun] in H. { inversion H; subst; auto. }
  inv_bind H. inv_bind H. inversion H; subst. pose proof (ask_dialect_sub _ _ _ _ D (offered_cons_in e evs)) as D1.
  destruct (event_ask_ok _ _ _ _ _ _ _ _ _ _ E S L D1) as (S1 & L1 & P1 & _). pose proof (event_watch _ _ _ _ _ _ _ _ _ _ TW E S L D1 W) as W1.
  apply ask_dialect_sub with (qs := offered evs) in D; [|apply offered_tail_in]. rewrite <- P1 in D. eapply IH; eauto.
Qed.
Theorem C98_asked_or_checked : forall fuel v y ep ext mf ml mode fcu b evs y' g' b' cs,
  (forall p, v_tmr v p = true) -> fresh_in y ep -> (forall t, In t (y_timers y) -> log_period t) -> ask_dialect v (proto b) (offered evs) ->
  lrun fuel v y (lg_new ep ext mf ml mode fcu) b evs = Ok (y', g', b', cs) -> l_open g' = true ->
  exists t, In t (y_timers y') /\ tm_dead t = false /\ (tm_cb t = CbLogStart ep /\ tm_ms t = 1000 \/ tm_cb t = CbAlive ep /\ tm_ms t = 5000).
Proof.
  intros fuel v y ep ext mf ml mode fcu b evs y' g' b' cs TW F P D R O. destruct (new_state _ _ ext mf ml mode fcu F) as (S & L & _).
  pose proof (run_watch _ _ _ _ _ _ _ _ _ _ TW R S L D (watched_new _ _ _ _ _ _)) as W. destruct (C98_periods _ _ _ _ _ _ _ _ _ _ _ _ _ _ _ F P R) as (A & B & _).
  destruct (l_tstart g') as [id|] eqn:TS.
  - destruct (A id eq_refl) as (t & I & _ & X & Y & Z). exists t. auto.
  - specialize (W O TS). destruct (l_talive g') as [id|] eqn:TA; [|congruence]. destruct (B id eq_refl) as (t & I & _ & X & Y & Z). exists t. auto 10.
Qed.

(* the whole dialogue: asked; a block out of turn is refused; asked again; answered and no longer asked; log data keeps the log,
   silence restarts it *)
Definition ax_hb : lev := LMsg (lx_hb 1 81 3) [].
Definition ax_one : list lev := [ax_hb; LStart; LMsg (lx_block 3) []].
Definition ax_two : list lev := [LMsg (lx_block 0) []; LStart; LMsg (lx_block 1) []].
Definition ax_three : list lev := [LMsg (lx_block 2) []].
Definition ax_four : list lev := [ax_hb; LStart].
Definition ax_says (cs : list ctl) : list (Z * Z) := map (fun c => (raw_id (fst c), field32 (raw_payload 7 (fst c)) 0)) cs.

Example C98_nonvacuous :
  fresh_in lx_sys 0 /\ Forall wf_packet (offered (ax_one ++ ax_two ++ ax_three ++ ax_four)) /\
  ask_dialect lx_env Blocks (offered (ax_one ++ ax_two ++ ax_three ++ ax_four)) /\
  no_start_number Blocks (offered (ax_one ++ ax_two ++ ax_three ++ ax_four)) /\
  map (answer Blocks) (offered (ax_one ++ ax_two ++ ax_three ++ ax_four)) = [false; false; true; false; false; false] /\
  match lrun 9 lx_env lx_sys (lx_bin MAlways 1) (BBin 0) (ax_one ++ [LStart] ++ ax_two) with
  | Ok (y, g, b, cs) => ax_says cs = [(185, 2147483646); (185, 2147483645); (185, 2147483646); (185, 0); (185, 1)] /\ l_open g = true /\ l_talive g <> None /\
    match lrun 9 lx_env y g b (LAlive :: ax_three ++ [LAlive]) with
    | Ok (y, g, b, cs) => ax_says cs = [(185, 2)] /\ l_talive g <> None /\
      match lrun 9 lx_env y g b (ax_four ++ [LAlive; LStart]) with
      | Ok (y, g, b, cs) => ax_says cs = [(185, 2147483645); (185, 2147483646)] /\ l_open g = true
      | _ => False end
    | _ => False end
  | _ => False end.
Proof.
  split. { split; [split; constructor|intros t []]. }
  split. { cbn. repeat (apply Forall_cons; [wfb|]); constructor. }
  split. { split. { exists (mkEntry 159 206 (Some 4%nat) (Some 5%nat)). split; reflexivity. }
           intros p I ID. cbn in I. repeat (destruct I as [<-|I]; [first [discriminate ID|split; [wfb|intros X; discriminate X]]|]). destruct I. }
  split. { intros _ p I ID. cbn in I. repeat (destruct I as [<-|I]; [first [discriminate ID|vm_compute; discriminate]|]). destruct I. }
  split; [vm_compute; reflexivity|]. vm_compute. repeat split; discriminate.
Qed.

(* the same with log streaming; a refused command is asked again *)
Definition ax_no : packet := seal 143 (mkPacket (V2 0 0 []) 0 1 1 77 [206; 9; 4] 0 0).
Definition ax_u : list lev := [ax_hb; LStart; LMsg ax_no []; LStart; LMsg ux_ack []; LStart; ux_head; LAlive; LMsg (ux_data 1 255 [1]) []; LAlive].
Definition ax_commands (cs : list ctl) : list (Z * Z) := map (fun c => (raw_id (fst c), field16 (raw_payload 33 (fst c)) 28)) cs.

Example C98_streaming_nonvacuous :
  Forall wf_packet (offered (ax_u ++ ax_four)) /\ ask_dialect un_env Streaming (offered (ax_u ++ ax_four)) /\
  map (answer Streaming) (offered ax_u) = [false; false; true; false; false] /\ map (log_data Streaming) (offered ax_u) = [false; false; false; true; true] /\
  match lrun 700 un_env lx_sys (lg_new 0 ext_ulg 0 0 MAlways 1) ux_new ax_u with
  | Ok (y, g, b, cs) => ax_commands cs = [(76, 2510); (76, 2510)] /\ l_open g = true /\ l_talive g <> None /\
    match lrun 700 un_env y g b (ax_four ++ [LAlive; LStart]) with
    | Ok (y, g, b, cs) => ax_commands cs = [(76, 2511); (76, 2510)] /\ l_open g = true
    | _ => False end
  | _ => False end.
Proof.
  split. { cbn. repeat (apply Forall_cons; [wfb|]); constructor. }
  split. { split. { exists (mkEntry 143 10 (Some 8%nat) (Some 9%nat)). split; [reflexivity|]. cbn. lia. }
           split; [discriminate|]. split; [discriminate|].
           intros p I ID. cbn in I. repeat (destruct I as [<-|I]; [first [discriminate ID|split; [wfb|intros X; discriminate X]]|]). destruct I. }
  split; [vm_compute; reflexivity|]. split; [vm_compute; reflexivity|]. vm_compute. repeat split; discriminate.
Qed.

Example C98_asked_or_checked_nonvacuous : (forall p, v_tmr lx_env p = true) /\ (forall p, v_tmr un_env p = true) /\ (forall t, In t (y_timers lx_sys) -> log_period t) /\
  match lrun 9 lx_env lx_sys (lx_bin MAlways 1) (BBin 0) (ax_one ++ [LStart] ++ ax_two) with
  | Ok (y, g, _, _) => l_open g = true /\ map (fun t => (tm_cb t, tm_ms t)) (filter (fun t => negb (tm_dead t)) (y_timers y)) = [(CbAlive 0, 5000); (CbFsync 0, 1000)] | _ => False end.
Proof. split; [reflexivity|]. split; [reflexivity|]. split; [intros t []|]. vm_compute. auto. Qed.

Print Assumptions C98_asks_until_answered.
Print Assumptions C98_quiet_once_answered.
Print Assumptions C98_silent_restart.
Print Assumptions C98_busy_undisturbed.
Print Assumptions C98_periods.
Print Assumptions C98_asked_or_checked.
