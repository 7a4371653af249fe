(* The state of a logger, read off the trace. *)
From Verif Require Import Base Mav SpecFrame Frame FrameProofs Names Sys LogFile LogFileProofs ULog Loggers LogInv LogStep SpecLog LogRun LogModes LogModes2
  BinProofs Prop_LogModes Prop_BinLog SpecAsk LogAsk LogAsk2 LogAsk3 LogWatch Prop_Ask Router RouterTimers LogHist SpecTalk LogLive.

(* an open log stays open or the vehicle is told to stop *)
Lemma msg_open : forall f v y g b p tail y' g' b' cs, levent f v y g b (LMsg p tail) = Ok (y', g', b', cs) -> sys_ok y -> linv y g ->
  ask_dialect v (proto b) [p] -> proto b <> NoProtocol -> l_open g = true -> l_open g' = true \/ exists t, stopped (proto b) t cs.
Proof.
  intros f v y g b p tail y' g' b' cs H S L D NP O. cbn [levent] in H. inv_bind H. inversion H; subst; clear H.
  pose proof (learn_inv _ _ (info_of (v_tbl v) p) L) as L0.
  destruct (lwrite_split _ _ _ _ _ _ _ _ _ _ _ _ E) as (y1 & g1 & b1 & c1 & c2 & A & R & ->). clear E.
  pose proof (step_auto _ _ _ _ _ _ _ _ _ _ _ A) as [B1 B2 _ _]. specialize (B1 S L0). specialize (B2 S L0).
  destruct (auto_ask _ _ _ _ _ _ _ _ _ _ _ A) as ((C1 & C2) & KF & NS1 & P1 & T1).
  set (g0 := learn_target g (info_of (v_tbl v) p)) in *.
  assert (G1 : l_open g0 = l_open g) by (unfold g0, learn_target; destruct (_ && _); auto).
  rewrite <- P1 in D. destruct (rest_ask _ _ _ _ _ _ _ _ _ _ _ _ R B1 B2 D) as ([A1 A2 A3 A4 A5 A6 A7] & P2 & NS2). rewrite P1 in *.
  destruct KF as [(K1 & _)|(_ & F & _)].
  2:{ right. destruct F as (c & I & X); auto; [congruence|]. exists (l_target g0), c. split; auto. apply in_or_app; auto. }
  assert (O1 : l_open g1 = true) by congruence.
  destruct A6 as [(K2 & _)|[(_ & F & _)|(_ & _ & K2 & _)]]; [left; congruence| |left; congruence].
  right. destruct F as (c & I & X); auto. exists (l_target g1), c. split; auto. apply in_or_app; auto.
Qed.
Lemma event_open : forall f v y g b e y' g' b' cs, levent f v y g b e = Ok (y', g', b', cs) -> sys_ok y -> linv y g -> ask_dialect v (proto b) (offered [e]) ->
  proto b <> NoProtocol -> l_open g = true -> l_open g' = true \/ exists t, stopped (proto b) t cs.
Proof.
  intros f v y g b e y' g' b' cs H S L D NP O. destruct e as [p t| |].
  - eapply msg_open; eauto.
  - destruct (start_ask _ _ _ _ _ _ _ _ _ H) as (_ & _ & (K & _) & _). left. congruence.
  - destruct (alive_ask _ _ _ _ _ _ _ _ _ H) as (_ & _ & N & _ & _ & F & K). destruct (l_talive g) eqn:TA.
    2:{ destruct (N eq_refl) as [-> _]. auto. }
    destruct (Z.eq_dec (l_mark g) (l_wtotal g)) as [E|E].
    + destruct F as (_ & F & _); auto; [discriminate|]. right. eauto.
    + destruct K as (_ & _ & _ & (K & _) & _); auto. left. congruence.
Qed.

Section Talk.
Variables (k : protocol) (i : nat) (v : env).
Hypothesis NP : k <> NoProtocol.
Hypothesis DI : knows v k.

Definition started (its : list item) : Prop := exists a x b, its = a ++ x :: b /\ asks k i x /\ (forall s, In s b -> ~ stops k i s).
Definition replied (its : list item) : Prop := exists a x b y c, its = (a ++ x :: b) ++ y :: c /\ asks k i x /\ gets (answer k) i y /\ (forall s, In s (b ++ c) -> ~ stops k i s).
Definition unanswered (its : list item) : Prop := exists a x b, its = a ++ x :: b /\ asks k i x /\ (forall s, In s b -> ~ gets (answer k) i s).
Definition silent (its : list item) : Prop := exists a x b, its = a ++ x :: b /\ alive_check i x /\ (forall s, In s b -> ~ alive_check i s) /\
  (forall s, In s b -> ~ gets (answer k) i s /\ ~ gets (log_data k) i s).
Definition counted (its : list item) (g : lg) : Prop := forall a x b, its = a ++ x :: b -> alive_check i x -> (forall s, In s b -> ~ alive_check i s) ->
  exists n, (n <= length b)%nat /\ l_wtotal g = u32 (l_mark g + Z.of_nat n) /\ (l_talive g = None \/ (n > 0)%nat \/ (forall s, In s b -> ~ gets (log_data k) i s)).

Record talk (its : list item) (g : lg) : Prop := mkTalk {
  ta_open : started its -> l_open g = true;
  ta_replied : replied its -> answered g;
  ta_asking : unanswered its -> asking g;
  ta_silent : silent its -> l_talive g <> None -> l_mark g = l_wtotal g;
  ta_total : total_ok g;
  ta_counted : counted its g;
  ta_watched : (forall p, v_tmr v p = true) -> watched g }.
Definition talk_inv (its : list item) (l : logger) : Prop :=
  match inner l with
  | None => sent_by i its = [] /\ (forall x, In x its -> ~ alive_check i x)
  | Some (g, b) => proto b = k -> talk its g
  end.

Lemma no_asks : forall its, sent_by i its = [] -> forall x, In x its -> ~ asks k i x.
Proof. intros its E x I (bs & m & ds & t & -> & _). eapply sent_nil; eauto. Qed.
Lemma talk_start : forall its g, sent_by i its = [] -> (forall x, In x its -> ~ alive_check i x) -> total_ok g -> l_open g = false -> talk its g.
Proof.
  intros its g E A T OF. pose proof (no_asks _ E) as N. split; auto; [..|intros _ O; congruence].
  - intros (a & x & b & -> & X & _). exfalso. eapply N; [|exact X]. apply in_or_app; right; left; auto.
  - intros (a & x & b & y & c & -> & X & _). exfalso. eapply N; [|exact X]. apply in_or_app; left. apply in_or_app; right; left; auto.
  - intros (a & x & b & -> & X & _). exfalso. eapply N; [|exact X]. apply in_or_app; right; left; auto.
  - intros (a & x & b & -> & X & _). exfalso. eapply A; [|exact X]. apply in_or_app; right; left; auto.
  - intros a x b -> X. exfalso. eapply A; [|exact X]. apply in_or_app; right; left; auto.
Qed.

(* the chunk *)
Lemma in_ctls_asks : forall x r s, concerns i x = true -> In s (x :: r) -> asks k i s -> In s r.
Proof. intros x r s C [<-|I] (bs & m & ds & t & -> & _); [discriminate|auto]. Qed.
Lemma ctls_not_gets : forall r P s, only_ctls r -> In s r -> ~ gets P i s.
Proof. intros r P s O I (j & p & m & d & ds & -> & _). destruct (O _ I) as (? & ? & ? & ? & E). discriminate. Qed.
Lemma ctls_not_alive : forall r s, only_ctls r -> In s r -> ~ alive_check i s.
Proof. intros r s O I (t & ->). destruct (O _ I) as (? & ? & ? & ? & E). discriminate. Qed.
Lemma gets_ans : forall P x e, concerns i x = true -> ev_of v x e -> (gets P i x <-> match e with LMsg p _ => P p | _ => false end = true).
Proof.
  intros P x e C E. split.
  - intros (j & p & m & d & ds & -> & W & X & I). destruct e as [q tl| |]; try destruct E. destruct H0 as [EQ _]. apply encode_inj in EQ; auto. congruence.
  - destruct x; cbn [ev_of concerns] in *; try (destruct E; fail); try discriminate.
    + destruct e as [q tl| |]; try destruct E. destruct H0 as [-> _]. intros X. exists i0, q, m, d, ds. split; auto. split; auto. split; auto.
      apply existsb_exists in C. destruct C as (z & I & Z). apply Nat.eqb_eq in Z. congruence.
    + destruct e as [q tl| |]; [|discriminate|discriminate]. destruct cb; destruct E.
Qed.
Lemma alive_ev : forall x e, concerns i x = true -> ev_of v x e -> (alive_check i x <-> e = LAlive).
Proof.
  intros x e C E. split.
  - intros (t & ->). destruct e; cbn in E; tauto.
  - intros ->. destruct x; cbn [ev_of concerns] in *; try (destruct E; fail). destruct cb; try (destruct E; fail). apply Nat.eqb_eq in C. subst. eexists; reflexivity.
Qed.
Lemma stopped_in : forall r t, stopped k t (sent_by i r) -> exists s, In s r /\ stops k i s.
Proof. intros r t (c & I & X). destruct (in_sent _ _ _ I) as (ds & J). eexists. split; [exact J|]. exists (fst c), (snd c), ds, (t mod 256). auto. Qed.

Lemma step_talk : forall f y its l x e r y' l', talk_inv its l -> held y i l -> concerns i x = true -> ev_of v x e -> due l e ->
  kevent f v y l e = Ok (y', l', sent_by i r) -> only_ctls r -> proper_trace k [x] -> talk_inv (its ++ x :: r) l'.
Proof.
  intros f y its l x e r y' l' T H C EV D K OC PT. unfold talk_inv in *. destruct (inner l) as [[g b]|] eqn:IN.
  2:{ destruct T as [T1 T2]. destruct (kevent_none _ _ _ _ _ _ _ _ K IN) as [SN CASE].
    assert (S2 : sent_by i (its ++ x :: r) = []). { rewrite sent_app, T1. cbn [app]. change (x :: r) with ([x] ++ r). rewrite sent_app, SN, app_nil_r. destruct x; try reflexivity. discriminate. }
    assert (A2 : forall z, In z (its ++ x :: r) -> ~ alive_check i z).
    { intros z I. apply in_app_or in I. destruct I as [I|[<-|I]]; auto; [|eapply ctls_not_alive; eauto]. rewrite (alive_ev _ _ C EV).
      destruct (due_inner _ _ D) as [[_ (p & t & ->)]|(g & b & X & _)]; congruence. }
    destruct CASE as [->|(ep & ext & mf & ml & md & fcu & b' & ->)]; auto. intros _. apply talk_start; auto. unfold total_ok, lg_new. cbn. lia. }
  destruct (kevent_inner _ _ _ _ _ _ _ _ _ _ K IN) as (g' & b' & LE & ->). clear K. destruct (held_linv _ _ _ _ _ H IN) as [EP L]. destruct H as [S _].
  assert (PR : forall p t, e = LMsg p t -> wf_packet p /\ proper k p).
  { intros p t ->. destruct x; cbn [ev_of] in EV; try (destruct EV; fail). - destruct EV as (W & -> & _). split; auto. eapply PT; [left; reflexivity|auto]. - destruct cb; destruct EV. }
  assert (AD : proto b = k -> ask_dialect v (proto b) (offered [e])).
  { intros PB. rewrite PB. clear - DI PR. destruct k; cbn [knows proper ask_dialect] in *; auto.
    - split; auto. intros p I ID. destruct e as [q t| |]; cbn in I; try tauto. destruct I as [<-|[]]. destruct (PR _ _ eq_refl) as [W X]. split; auto. apply X; auto.
    - destruct DI as (A & B & B2). split; [exact A|]. split; [exact B|]. split; [exact B2|]. intros p I ID. destruct e as [q t| |]; cbn in I; try tauto. destruct I as [<-|[]]. destruct (PR _ _ eq_refl) as [W X]. split; auto. }
  assert (NN : no_start_number k (offered [e])).
  { intros KB p I ID. destruct e as [q t| |]; cbn in I; try tauto. destruct I as [<-|[]]. destruct (PR _ _ eq_refl) as [W X]. rewrite KB in X. apply X; auto. }
  intros PB'. assert (PB : proto b = k).
  { destruct e as [p t| |].
    - rewrite <- PB'. symmetry. eapply msg_proto; eauto.
    - destruct (start_ask _ _ _ _ _ _ _ _ _ LE) as (-> & _). auto.
    - destruct (alive_ask _ _ _ _ _ _ _ _ _ LE) as (_ & _ & _ & X & _). congruence. }
  specialize (T PB). specialize (AD PB). destruct T as [T1 T2 T3 T4 T5 T6 T7].
  destruct (event_ask_ok _ _ _ _ _ _ _ _ _ _ LE S L AD) as (S' & L' & _ & TOT & ASK & QUI & NST).
  assert (OPN := event_open _ _ _ _ _ _ _ _ _ _ LE S L AD). rewrite PB in *.
  assert (NS : (forall s, In s r -> ~ stops k i s) -> forall t, ~ stopped k t (sent_by i r)).
  { intros Q t X. destruct (stopped_in _ _ X) as (s & I & Y). exact (Q s I Y). }
  assert (CTL : forall s, In s (x :: r) -> asks k i s -> e = LStart /\ l_tstart g <> None /\ kept g g').
  { intros s I A. pose proof (in_ctls_asks _ _ _ C I A) as J. destruct A as (bs & m & ds & t & -> & A). apply sent_in in J.
    assert (e = LStart). { destruct e; auto; exfalso; eapply (NST NN); eauto; left; discriminate. } subst e. split; auto.
    destruct (due_inner _ _ D) as [[X _]|(g0 & b0 & X & Y)]; [congruence|]. rewrite IN in X. injection X as <- <-. split; auto.
    destruct (start_ask _ _ _ _ _ _ _ _ _ LE) as (_ & _ & X & _). exact X. }
  assert (OPS : l_tstart g <> None -> l_open g = true). { intros X. destruct (l_open g) eqn:O; auto. destruct (li_closed _ _ L O) as (Y & _). congruence. }
  assert (QN : (forall s, In s r -> ~ stops k i s) -> answered g \/ (ev_ans k e = true /\ l_open g = true) -> answered g').
  { intros Q A. destruct (QUI NP A) as [X|(t & X)]; auto. destruct (NS Q t X). }
  assert (DU : e = LAlive -> l_talive g <> None).
  { intros ->. destruct (due_inner _ _ D) as [[X _]|(g0 & b0 & X & Y)]; [congruence|]. rewrite IN in X. injection X as <- <-. auto. }
  split.
  - intros (a & x0 & b0 & E & A & Q). symmetry in E. apply split_snoc in E. destruct E as [(b1 & -> & ->)|(r1 & -> & E)].
    + assert (O : l_open g = true). { apply T1. exists a, x0, b1. repeat split; auto. intros s I. apply Q. apply in_or_app; auto. }
      destruct (OPN NP O) as [X|(t & X)]; auto. exfalso. eapply NS; [|exact X]. intros s I. apply Q. apply in_or_app; right; right; auto.
    + destruct (CTL x0) as (-> & TS & (K1 & _)); auto. { rewrite E. apply in_or_app; right; left; auto. } rewrite K1. auto.
  - intros (a & x0 & b0 & y0 & c & E & A & G & Q). symmetry in E. apply split_snoc in E. destruct E as [(b1 & -> & ->)|(r1 & E1 & E)].
    + apply QN. { intros s I. apply Q. apply in_or_app; right. apply in_or_app; right; right; auto. }
      left. apply T2. exists a, x0, b0, y0, b1. repeat split; auto; try (intros s I; apply Q; apply in_app_or in I; apply in_or_app; destruct I; auto; right; apply in_or_app; auto).
    + destruct r1 as [|z r1]; cbn [app] in E.
      * injection E as <- <-. rewrite app_nil_r in E1. apply QN. { intros s I. apply Q. apply in_or_app; auto. }
        right. split; [apply (gets_ans _ _ _ C EV); exact G|]. apply T1. rewrite <- E1. exists a, x0, b0. repeat split; auto. intros s I. apply Q. apply in_or_app; auto.
      * exfalso. injection E as <- E. eapply ctls_not_gets; [exact OC| |exact G]. rewrite E. apply in_or_app; right; left; auto.
  - intros (a & x0 & b0 & E & A & Q). symmetry in E. apply split_snoc in E. destruct E as [(b1 & -> & ->)|(r1 & -> & E)].
    + apply ASK. { apply T3. exists a, x0, b1. repeat split; auto. intros s I. apply Q. apply in_or_app; auto. }
      destruct (ev_ans k e) eqn:EA; auto. exfalso. apply (Q x); [apply in_or_app; right; left; auto|]. apply (gets_ans _ _ _ C EV). exact EA.
    + destruct (CTL x0) as (-> & TS & (K1 & K2 & _)); auto. { rewrite E. apply in_or_app; right; left; auto. } intros _. rewrite K2. auto.
  - intros (a & x0 & b0 & E & A & NA & Q) TA. symmetry in E. apply split_snoc in E. destruct E as [(b1 & -> & ->)|(r1 & -> & E)].
    + assert (SI : l_talive g <> None -> l_mark g = l_wtotal g).
      { apply T4. exists a, x0, b1. split; auto. split; auto. split; intros s I; [apply NA|apply Q]; apply in_or_app; auto. }
      assert (XI : In x (b1 ++ x :: r)) by (apply in_or_app; right; left; auto). specialize (NA _ XI). destruct (Q _ XI) as [Q1 Q2].
      rewrite (alive_ev _ _ C EV) in NA. rewrite (gets_ans (answer k) _ _ C EV) in Q1. rewrite (gets_ans (log_data k) _ _ C EV) in Q2. destruct e as [p t| |]; [| |congruence].
      * rewrite <- PB in AD. destruct (msg_ask _ _ _ _ _ _ _ _ _ _ _ LE S L AD) as ([_ _ _ A4 _ _] & M & _). rewrite PB in *.
        destruct A4 as [A4 A5]; auto. { destruct (answer k p); congruence. } { destruct (log_data k p); congruence. } rewrite M, A5. auto.
      * destruct (start_ask _ _ _ _ _ _ _ _ _ LE) as (_ & (C1 & C2) & (_ & _ & K3 & _) & _). rewrite C1, C2. apply SI. congruence.
    + destruct r1 as [|z r1]; cbn [app] in E.
      * injection E as <- <-. apply (alive_ev _ _ C EV) in A. subst e. destruct (alive_ask _ _ _ _ _ _ _ _ _ LE) as (W & M & _). rewrite W. auto.
      * exfalso. injection E as <- E. eapply ctls_not_alive; [exact OC| |exact A]. rewrite E. apply in_or_app; right; left; auto.
  - eapply total_step; eauto.
  - intros a x0 b0 E A NA. symmetry in E. apply split_snoc in E. destruct E as [(b1 & -> & ->)|(r1 & -> & E)].
    + destruct (T6 _ _ _ eq_refl A) as (n & N1 & N2 & N3). { intros s I. apply NA. apply in_or_app; auto. }
      assert (XI : In x (b1 ++ x :: r)) by (apply in_or_app; right; left; auto). specialize (NA _ XI). rewrite (alive_ev _ _ C EV) in NA. destruct e as [p t| |]; [| |congruence].
      * rewrite <- PB in AD. destruct (msg_ask _ _ _ _ _ _ _ _ _ _ _ LE S L AD) as ([A1 _ _ _ A5 A6] & M & _). rewrite PB in *. rewrite M.
        destruct (Z.eq_dec (l_wtotal g') (u32 (l_wtotal g + 1))) as [W|W].
        -- exists (Datatypes.S n). split; [rewrite app_length; cbn [length]; lia|]. split; [|right; left; lia].
           rewrite W, N2. unfold u32. rewrite Z.add_mod_idemp_l by lia. f_equal. lia.
        -- exists n. split; [rewrite app_length; lia|]. split; [destruct A1; congruence|]. destruct (l_talive g') eqn:TA; auto. right.
           destruct N3 as [N3|[N3|N3]]; auto. { destruct (A6 N3); congruence. }
           right. intros s I. apply in_app_or in I. destruct I as [I|[<-|I]]; auto; [|eapply ctls_not_gets; eauto].
           rewrite (gets_ans _ _ _ C EV). intros X. destruct (A5 X); congruence.
      * destruct (start_ask _ _ _ _ _ _ _ _ _ LE) as (_ & (C1 & C2) & (_ & _ & K3 & _) & _). exists n. rewrite C1, C2, K3. split; [rewrite app_length; lia|]. split; auto.
        destruct N3 as [N3|[N3|N3]]; auto. right; right. intros s I. apply in_app_or in I. destruct I as [I|[<-|I]]; auto; [|eapply ctls_not_gets; eauto].
        rewrite (gets_ans _ _ _ C EV). discriminate.
    + destruct r1 as [|z r1]; cbn [app] in E.
      * injection E as <- <-. apply (alive_ev _ _ C EV) in A. subst e. destruct (alive_ask _ _ _ _ _ _ _ _ _ LE) as (W & M & _).
        exists 0%nat. split; [lia|]. split; [|right; right; intros s I; eapply ctls_not_gets; eauto]. rewrite W, M by auto. unfold u32. rewrite Z.add_0_r. unfold total_ok in T5. rewrite Z.mod_small; lia.
      * exfalso. injection E as <- E. eapply ctls_not_alive; [exact OC| |exact A]. rewrite E. apply in_or_app; right; left; auto.
  - intros TW. rewrite <- PB in AD. eapply event_watch; eauto.
Qed.
Lemma lives_talk : forall solo f y l its y' l', lives solo f v i y l its y' l' -> held y i l -> talk_inv [] l -> proper_trace k its -> talk_inv its l'.
Proof.
  intros solo f y l its y' l' H. induction H; intros Q T P; auto.
  - assert (P1 : proper_trace k its) by (intros j p m d ds I; apply (P j p m d ds); apply in_or_app; auto). specialize (IHlives Q T P1).
    pose proof (lives_held _ _ _ _ _ _ _ _ _ H Q) as Q1. rewrite <- H6 in H4. apply (step_talk f y2 its l1 x e r y3 l3 IHlives (held_hist _ _ _ _ _ _ _ H0 Q1) H1 H2 H3 H4 H5).
    intros j p m d ds I. apply (P j p m d ds). apply in_or_app; right. destruct I as [<-|[]]. left; auto.
  - assert (P1 : proper_trace k its) by (intros j p m d ds I; apply (P j p m d ds); apply in_or_app; auto). specialize (IHlives Q T P1).
    assert (CC : forall x, In x r -> concerns i x = false).
    { intros x I. destruct (concerns i x) eqn:C; auto. assert (X : In x (filter (concerns i) r)) by (apply filter_In; auto). rewrite H0 in X. destruct X. }
    assert (NG : forall P x, In x r -> ~ gets P i x).
    { intros Pr x I (j & p & m & d & ds & -> & _ & _ & D). specialize (CC _ I). cbn in CC. assert (X : existsb (Nat.eqb i) (map dl_to ds) = true); [|congruence]. apply existsb_exists. exists i. rewrite Nat.eqb_refl. auto. }
    assert (NA : forall x, In x r -> ~ alive_check i x). { intros x I (t & ->). specialize (CC _ I). cbn in CC. rewrite Nat.eqb_refl in CC. discriminate. }
    pose proof (no_asks _ H1) as NK. unfold talk_inv in *. destruct (inner l1) as [[g b]|].
    2:{ destruct IHlives as [A B]. rewrite sent_app, A, H1. split; auto. intros x I. apply in_app_or in I. destruct I; auto. }
    intros PB. destruct (IHlives PB) as [T1 T2 T3 T4 T5 T6 T7]. split; auto.
    + intros (a & x0 & b0 & E & A & S). symmetry in E. apply split_snoc in E. destruct E as [(b1 & -> & ->)|(r1 & -> & ->)].
      * apply T1. exists a, x0, b1. repeat split; auto. intros s I. apply S. apply in_or_app; auto.
      * exfalso. eapply NK; [|exact A]. apply in_or_app; right; left; auto.
    + intros (a & x0 & b0 & y0 & c & E & A & G & S). symmetry in E. apply split_snoc in E. destruct E as [(b1 & -> & ->)|(r1 & E1 & ->)].
      * apply T2. exists a, x0, b0, y0, b1. split; auto. split; auto. split; auto. intros s I. apply S. apply in_app_or in I. apply in_or_app. destruct I; auto. right. apply in_or_app; auto.
      * exfalso. eapply NG; [|exact G]. apply in_or_app; right; left; auto.
    + intros (a & x0 & b0 & E & A & S). symmetry in E. apply split_snoc in E. destruct E as [(b1 & -> & ->)|(r1 & -> & ->)].
      * apply T3. exists a, x0, b1. repeat split; auto. intros s I. apply S. apply in_or_app; auto.
      * exfalso. eapply NK; [|exact A]. apply in_or_app; right; left; auto.
    + intros (a & x0 & b0 & E & A & S1 & S2). symmetry in E. apply split_snoc in E. destruct E as [(b1 & -> & ->)|(r1 & -> & ->)].
      * apply T4. exists a, x0, b1. split; auto. split; auto. split; intros s I; [apply S1|apply S2]; apply in_or_app; auto.
      * exfalso. eapply NA; [|exact A]. apply in_or_app; right; left; auto.
    + intros a x0 b0 E A S. symmetry in E. apply split_snoc in E. destruct E as [(b1 & -> & ->)|(r1 & -> & ->)].
      * destruct (T6 _ _ _ eq_refl A) as (n & N1 & N2 & N3). { intros s I. apply S. apply in_or_app; auto. }
        exists n. split; [rewrite app_length; lia|]. split; auto. destruct N3 as [N3|[N3|N3]]; auto. right; right. intros s I. apply in_app_or in I. destruct I; auto.
      * exfalso. eapply NA; [|exact A]. apply in_or_app; right; left; auto.
Qed.
End Talk.
