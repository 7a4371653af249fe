(* What every event does to the logger's timers and counters. *)
From Verif Require Import Base Mav SpecFrame Frame FrameProofs Names Sys LogFile LogFileProofs ULog Loggers LogInv LogStep SpecLog LogRun LogModes LogModes2
  BinProofs Prop_BinLog SpecAsk LogAsk LogAsk2.

Lemma auto_ask : forall f v y g b mem m y' g' b' cs, auto_start_stop f v y g b mem m = Ok (y', g', b', cs) ->
  cnt g g' /\ (kept g g' \/ fresh (proto b) g cs g') /\ no_start (proto b) cs /\ proto b' = proto b /\ l_target g' = l_target g.
Proof.
  intros f v y g b mem m y' g' b' cs H. unfold auto_start_stop in H.
  assert (SAME : forall y' g' b' cs, Ok (y, g, b, []) = Ok (y', g', b', cs) -> cnt g g' /\ (kept g g' \/ fresh (proto b) g cs g') /\ no_start (proto b) cs /\ proto b' = proto b /\ l_target g' = l_target g).
  { intros. inversion H0; subst. auto using kept_refl, cnt_refl, no_start_nil. }
  assert (STA : forall y' g' b' cs, l_open g = false -> (let* (y, g, b, ok) := lstart v y g b in Ok (y, if ok then g else set_mode g MDisabled, b, [])) = Ok (y', g', b', cs) ->
    cnt g g' /\ (kept g g' \/ fresh (proto b) g cs g') /\ no_start (proto b) cs /\ proto b' = proto b /\ l_target g' = l_target g).
  { clear H. intros y0 g0 b0 cs0 O H. inv_bind H. inversion H; subst. destruct (lstart_ask _ _ _ _ _ _ _ _ E O) as (A & B & C & D & F).
    assert (X : cnt g (if b1 then l else set_mode l MDisabled)) by (destruct b1; exact A).
    assert (T : l_target (if b1 then l else set_mode l MDisabled) = l_target g) by (destruct b1; exact D).
    split; [exact X|]. split; [right|auto using no_start_nil]. split; [|split; auto; congruence]. destruct b1; auto. cbn [l_open set_mode]. congruence. }
  destruct (l_target g =? -1); [eapply SAME; eassumption|]. destruct (l_mode g); [| |eapply SAME; eassumption].
  - destruct (l_open g) eqn:O; [eapply SAME|eapply STA]; eauto.
  - destruct (_ && _); [|eapply SAME; eassumption]. inv_bind H. destruct (l_open g) eqn:O; cbn [negb andb] in H.
    + destruct (negb (128 <=? a)); [|eapply SAME; eassumption]. destruct (lstop_fresh _ _ _ _ _ _ _ _ _ H) as (A & B & C & D & F). destruct B as (B1 & B2 & B3).
      split; auto. split; [right; split; auto|auto].
    + destruct (128 <=? a); [eapply STA|eapply SAME]; eauto.
Qed.

(* asking: an open log has the start timer running.  answered: the log is open and the start timer is not running *)
Definition asking (g : lg) : Prop := l_open g = true -> l_tstart g <> None.
Definition answered (g : lg) : Prop := l_open g = true /\ l_tstart g = None.

Record event_ask (k : protocol) (g : lg) (cs : list ctl) (g' : lg) (ans data : bool) : Prop := {
  ev_total : l_wtotal g' = l_wtotal g \/ l_wtotal g' = u32 (l_wtotal g + 1);
  ev_asking : asking g -> ans = false -> asking g';
  ev_quiet : k <> NoProtocol -> answered g \/ (ans = true /\ l_open g = true) -> answered g' \/ stopped k (l_target g') cs;
  ev_idle : ans = false -> data = false -> l_talive g' <> None -> l_talive g <> None /\ l_wtotal g' = l_wtotal g;
  ev_data : data = true -> l_talive g' = None \/ l_wtotal g' = u32 (l_wtotal g + 1);
  ev_late : l_talive g = None -> l_talive g' = None \/ l_wtotal g' = u32 (l_wtotal g + 1) }.

Lemma fresh_alive : forall y k g cs g', linv y g' -> fresh k g cs g' -> l_talive g' = None.
Proof. intros y k g cs g' L (F & _). destruct (l_open g') eqn:O. - apply (li_alive _ _ L); auto. - apply (li_closed _ _ L); auto. Qed.
Lemma talive_tstart : forall y g, linv y g -> l_talive g <> None -> l_tstart g = None.
Proof. intros y g L A. destruct (l_tstart g) eqn:T; auto. destruct A. apply (li_alive _ _ L). congruence. Qed.

Lemma msg_ask : forall f v y g b p tail y' g' b' cs, levent f v y g b (LMsg p tail) = Ok (y', g', b', cs) -> sys_ok y -> linv y g ->
  ask_dialect v (proto b) [p] ->
  event_ask (proto b) g cs g' (answer (proto b) p) (log_data (proto b) p) /\ l_mark g' = l_mark g /\ proto b' = proto b /\
  (no_start_number (proto b) [p] -> no_start (proto b) cs).
Proof.
  intros f v y g b p tail y' g' b' cs H S L D. pose proof (levent_step _ _ _ _ _ _ _ _ _ _ H S L) as (S' & L' & _). cbn [levent] in H. inv_bind H. inversion H; subst; clear H.
  pose proof (learn_inv _ _ (info_of (v_tbl v) p) L) as L0.
  destruct (lwrite_split _ _ _ _ _ _ _ _ _ _ _ _ E) as (y1 & g1 & b1 & c1 & c2 & A & R & ->). clear E.
  pose proof (step_auto _ _ _ _ _ _ _ _ _ _ _ A) as [B1 B2 _ _]. specialize (B1 S L0). specialize (B2 S L0).
  destruct (auto_ask _ _ _ _ _ _ _ _ _ _ _ A) as ((C1 & C2) & KF & NS1 & P1 & T1).
  set (g0 := learn_target g (info_of (v_tbl v) p)) in *.
  assert (G0 : l_open g0 = l_open g /\ l_tstart g0 = l_tstart g /\ l_talive g0 = l_talive g /\ l_wtotal g0 = l_wtotal g /\ l_mark g0 = l_mark g).
  { unfold g0, learn_target. destruct (_ && _); cbn; auto 10. }
  destruct G0 as (G1 & G2 & G3 & G4 & G5). rewrite <- P1 in D.
  destruct (rest_ask _ _ _ _ _ _ _ _ _ _ _ _ R B1 B2 D) as ([A1 A2 A3 A4 A5 A6 A7] & P2 & NS2). rewrite P1 in *.
  set (k := proto b) in *.
  assert (ST : forall t cs1, stopped k t c1 \/ stopped k t cs1 -> stopped k t (c1 ++ cs1)).
  { intros t cs1 [(c & I & X)|(c & I & X)]; exists c; split; auto; apply in_or_app; auto. }
  split; [|split; [congruence|split; [congruence|intros N; apply no_start_app; auto]]].
  split.
  - rewrite C1, G4 in A2. auto.
  - intros AK AN O. assert (AK1 : asking g1).
    { destruct KF as [(K1 & K2 & _)|(F & _)]; auto. unfold asking. rewrite K1, K2, G1, G2. auto. }
    destruct A6 as [(K1 & K2 & _)|[(F & _)|(X & _)]]; [rewrite K2; apply AK1; congruence|auto|congruence].
  - intros NP Q.
    assert (Q1 : (l_open g1 = true /\ (l_tstart g1 = None \/ answer k p = true)) \/ stopped k (l_target g') c1).
    { destruct KF as [(K1 & K2 & _)|(F1 & F2 & F3)].
      - left. rewrite K1, K2, G1, G2. unfold answered in Q. tauto.
      - right. rewrite A5, F3. apply F2; auto. rewrite G1. unfold answered in Q. tauto. }
    destruct Q1 as [[O Q1]|Q1]; [|right; auto].
    assert (Q2 : (l_open g' = true /\ l_tstart g' = None) \/ fresh k g1 c2 g').
    { destruct A6 as [(K1 & K2 & _)|[F|(X & X2 & X3 & X4 & _)]]; auto.
      - destruct Q1 as [Q1|Q1]; [left; split; congruence|]. destruct (A7 Q1) as [X|X]; auto. left. split; congruence.
      - left. split; congruence. }
    destruct Q2 as [Q2|(_ & F & _)]; [left; exact Q2|right]. apply ST. right. rewrite A5. apply F; auto.
  - intros AN DA TA. destruct A6 as [(K1 & K2 & K3 & K4)|[F|(X & _)]]; [| |congruence].
    2:{ rewrite (fresh_alive _ _ _ _ _ L' F) in TA. congruence. }
    assert (TA1 : l_talive g1 <> None) by congruence.
    destruct KF as [(K5 & K6 & K7 & K8)|F]. 2:{ rewrite (fresh_alive _ _ _ _ _ B2 F) in TA1. congruence. }
    split; [congruence|]. rewrite A3; [congruence|]. split; auto. left. eapply talive_tstart; eauto.
  - intros DA. destruct (l_tstart g1) eqn:TS.
    + assert (TA : l_talive g1 = None) by (apply (li_alive _ _ B2); congruence).
      destruct A6 as [(_ & _ & K & _)|[F|(_ & _ & _ & _ & X)]].
      * left. congruence. * left. eapply fresh_alive; eauto. * right. congruence.
    + right. rewrite A4; auto. congruence.
  - intros TA. assert (TA1 : l_talive g1 = None).
    { destruct KF as [(_ & _ & K & _)|F]; [congruence|eapply fresh_alive; eauto]. }
    destruct A6 as [(_ & _ & K & _)|[F|(_ & _ & _ & _ & X)]].
    * left. congruence. * left. eapply fresh_alive; eauto. * right. congruence.
Qed.

(* the start timer *)
Lemma start_ask : forall f v y g b y' g' b' cs, levent f v y g b LStart = Ok (y', g', b', cs) ->
  b' = b /\ cnt g g' /\ kept g g' /\
  match l_tstart g with
  | None => cs = [] /\ y' = y /\ g' = g
  | Some _ => match b with BTele => cs = [] | _ => exists c, cs = [c] /\ start_request (proto b) (l_target g mod 256) (fst c) end
  end.
Proof.
  intros f v y g b y' g' b' cs H. cbn [levent] in H. destruct (l_tstart g). 2:{ inversion H; subst. auto 10 using cnt_refl, kept_refl. }
  destruct b; cbn [lcb_start] in H.
  - destruct (send_block_status y g BLOCK_START 1) as [[y1 g1] c] eqn:S. inversion H; subst. assert (C1 := S). unfold send_block_status in C1.
    pose proof (calm_kept _ _ _ _ (calm_send_ctl _ _ _ _ _ _ _ _ C1)) as K. apply cnt_send_ctl in C1. split; auto. split; auto. split; auto.
    exists c. split; auto. destruct (block_request y g BLOCK_START 1 _ _ _ ltac:(unfold BLOCK_START; lia) S) as (R1 & R2 & R3).
    cbn [start_request request proto]. rewrite R3, R2. repeat split; auto.
  - destruct (send_command y g CMD_LOGGING_START) as [[y1 g1] c] eqn:S. inversion H; subst. assert (C1 := S). unfold send_command in C1.
    pose proof (calm_kept _ _ _ _ (calm_send_ctl _ _ _ _ _ _ _ _ C1)) as K. apply cnt_send_ctl in C1. split; auto. split; auto. split; auto.
    exists c. split; auto. destruct (command_request y g CMD_LOGGING_START _ _ _ ltac:(unfold CMD_LOGGING_START; lia) S) as (R1 & R2 & R3).
    cbn [start_request request proto]. auto.
  - inversion H; subst. auto using cnt_refl, kept_refl.
Qed.

(* the alive timer *)
Lemma alive_ask : forall f v y g b y' g' b' cs, levent f v y g b LAlive = Ok (y', g', b', cs) ->
  l_wtotal g' = l_wtotal g /\ (l_talive g <> None -> l_mark g' = l_wtotal g) /\ (l_talive g = None -> g' = g /\ cs = []) /\ proto b' = proto b /\ no_start (proto b) cs /\
  (l_talive g <> None -> l_mark g = l_wtotal g -> fresh (proto b) g cs g') /\
  (l_talive g = None \/ l_mark g <> l_wtotal g -> y' = y /\ b' = b /\ cs = [] /\ kept g g' /\ l_name g' = l_name g).
Proof.
  intros f v y g b y' g' b' cs H. cbn [levent] in H. destruct (l_talive g).
  2:{ inversion H; subst. split; auto. split; [congruence|]. split; auto. split; auto. split; [apply no_start_nil|]. split; [congruence|]. auto 10 using kept_refl. }
  unfold lcb_alive in H. destruct (Z.eqb_spec (l_mark g) (l_wtotal g)) as [M|M]; cbn [bind] in H.
  - inv_bind H. inv_bind E. inv_bind E. inversion E; subst. inversion H; subst.
    match goal with X : lstop _ _ _ _ _ = _, X2 : lstart _ _ _ _ = _ |- _ => destruct (restart_fresh _ _ _ _ _ _ _ _ _ _ _ _ _ X X2) as ((A1 & A2) & B & C & D) end.
    cbn [set_counts l_wtotal l_mark]. split; auto. split; [intros _; congruence|]. split; [discriminate|]. split; auto. split; auto. split; [intros; exact B|].
    intros [X|X]; congruence.
  - inversion H; subst. cbn [set_counts l_wtotal l_mark l_name]. split; auto. split; auto. split; [discriminate|]. split; auto. split; [apply no_start_nil|]. split; [congruence|].
    intros _. repeat split; auto.
Qed.
