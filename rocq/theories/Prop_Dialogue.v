(* C100: the dialogue between the flight-stack logger and the vehicle, in every run of the program. *)
From Verif Require Import Base Mav SpecFrame Frame FrameProofs Names Sys LogFile LogFileProofs ULog Loggers LogInv LogStep SpecLog LogRun LogModes LogModes2
  ExFrame Accept BinProofs Prop_LogModes Prop_BinLog SpecAsk LogAsk LogAsk2 LogAsk3 Prop_Ask Router RouterSetup RouterLogs RouterTimers SpecRouter LogHist RouterLives ExRouter SpecTalk LogLive LogLive2.

Section Run.
Variables (f : nat) (v : env) (c : config) (lc : logconf) (its : list item) (w : world) (k : protocol).
Hypothesis WT : wf_table (v_tbl v).
Hypothesis RUN : runs f v c its w.
Hypothesis LOG : cf_log c = Some lc.
Hypothesis TK : talks w (length (confs c)) k.
Hypothesis NP : k <> NoProtocol.
Hypothesis KN : knows v k.
Hypothesis PT : proper_trace k its.
Local Notation i := (length (confs c)).

(* an event of the logger and what the trace says about its state before *)
Definition scene (a : list item) (x : item) (r : list item) : Prop :=
  concerns i x = true /\ only_ctls r /\ exists y l e y' l', held y i l /\ ev_of v x e /\ due l e /\ kevent f v y l e = Ok (y', l', sent_by i r) /\
  (forall g b, inner l = Some (g, b) -> proto b = k /\ talk k i v a g /\ ask_dialect v k (offered [e]) /\ no_start_number k (offered [e])).

Lemma new_talk : forall l, new_flight c lc l -> talk_inv k i v [] l.
Proof.
  intros l N. unfold new_flight, talk_inv in *. destruct (lc_dialect lc).
  - subst l. cbn [inner]. intros _. apply talk_start; [reflexivity|intros x []| |reflexivity]. unfold total_ok, lg_new. cbn. lia.
  - destruct N as (uj & _ & ->). cbn [inner]. intros _. apply talk_start; [reflexivity|intros x []| |reflexivity]. unfold total_ok, lg_new. cbn. lia.
  - subst l. cbn [inner a_inner]. split; [reflexivity|]. intros x [].
Qed.

Lemma world_logger : exists y l solo y0 l0, at_log i w l /\ y = w_sys w /\ held y0 i l0 /\ talk_inv k i v [] l0 /\ lives solo f v i y0 l0 its y l /\
  exists g b, inner l = Some (g, b) /\ proto b = k.
Proof.
  destruct (lives_runs _ _ _ _ _ _ WT RUN LOG) as (y0 & l0 & l & NF & S & T & AL & LV). fold i in *. exists (w_sys w), l, flight_names, y0, l0.
  split; auto. split; auto. split; [split; auto|]. split; [apply new_talk; auto|]. split; auto.
  destruct AL as (e & L & KE). destruct TK as (e' & L' & X). unfold flight in *. rewrite L in L'. injection L' as <-. rewrite KE in X. destruct l as [g b|a]; cbn [inner]; eauto.
Qed.

Lemma proper_sub : forall a b, its = a ++ b -> proper_trace k a.
Proof. intros a b E j p m d ds I. apply (PT j p m d ds). rewrite E. apply in_or_app; auto. Qed.

Lemma moment_scene : forall solo y0 l0 a x r b l, its = a ++ x :: b -> held y0 i l0 -> talk_inv k i v [] l0 -> moment solo f v i y0 l0 a x r l ->
  (exists g b, inner l = Some (g, b) /\ proto b = k) -> scene a x r.
Proof.
  intros solo y0 l0 a x r b l E H T [(y1 & l1 & y2 & e & y3 & l3 & LV & HI & EV & DU & KE & KP) CO OC] (gl & bl & IL & PL).
  split; auto. split; auto. exists y2, l1, e, y3, l3. split. { eapply held_hist; [exact HI|]. eapply lives_held; eauto. } split; auto. split; auto. split; auto.
  intros g b0 I. destruct (keeps_trans _ _ _ (kevent_keeps _ _ _ _ _ _ _ _ KE) KP _ _ I) as (g' & b' & I' & P'). rewrite IL in I'. injection I' as <- <-.
  assert (PB : proto b0 = k) by congruence. split; auto.
  pose proof (lives_talk k i v NP KN _ _ _ _ _ _ _ LV H T (proper_sub _ _ E)) as TI. unfold talk_inv in TI. rewrite I in TI. split; [auto|].
  assert (PR : forall p t, e = LMsg p t -> wf_packet p /\ proper k p).
  { intros p t ->. destruct x; cbn [ev_of] in EV; try (destruct EV; fail). 2:{ destruct cb; destruct EV. }
    destruct EV as (W & -> & _). split; auto. eapply PT; [|exact W]. rewrite E. apply in_or_app; right; left; reflexivity. }
  clear - KN PR. split.
  - destruct k; cbn [knows proper ask_dialect] in *; auto.
    + split; auto. intros p I ID. destruct e as [q t| |]; cbn in I; try tauto. destruct I as [<-|[]]. destruct (PR _ _ eq_refl) as [W X]. split; auto. apply X; auto.
    + destruct KN as (A & B & B2). split; [exact A|]. split; [exact B|]. split; [exact B2|]. intros p I ID. destruct e as [q t| |]; cbn in I; try tauto. destruct I as [<-|[]]. destruct (PR _ _ eq_refl) as [W X]. split; auto.
  - intros KB p I ID. destruct e as [q t| |]; cbn in I; try tauto. destruct I as [<-|[]]. destruct (PR _ _ eq_refl) as [W X]. rewrite KB in X. apply X; auto.
Qed.

Lemma scene_at : forall a x b, its = a ++ x :: b -> concerns i x = true -> exists r b', b = r ++ b' /\ scene a x r.
Proof.
  intros a x b E C. destruct world_logger as (y & l & solo & y0 & l0 & AL & -> & H & T & LV & P).
  destruct (lives_at _ _ _ _ _ _ _ _ _ LV _ _ _ E C) as (r & b' & -> & M). exists r, b'. split; auto. eapply moment_scene; eauto.
Qed.
Lemma scene_ctl : forall a bs m ds b, its = a ++ ICtl i bs m ds :: b ->
  exists a' x r1 r2, a = a' ++ x :: r1 /\ scene a' x (r1 ++ ICtl i bs m ds :: r2).
Proof.
  intros a bs m ds b E. destruct world_logger as (y & l & solo & y0 & l0 & AL & -> & H & T & LV & P).
  destruct (lives_ctl _ _ _ _ _ _ _ _ _ LV _ _ _ _ _ E) as (a' & x & r1 & r2 & b' & -> & -> & M). exists a', x, r1, r2. split; auto.
  eapply moment_scene; eauto. rewrite E, <- app_assoc. reflexivity.
Qed.

(* what a start request tells about its scene *)
Lemma asks_scene : forall a bs m ds b t, its = a ++ ICtl i bs m ds :: b -> start_request k t bs ->
  exists a' x r1 g, a = a' ++ x :: r1 /\ only_ctls r1 /\ start_timer i x /\ talk k i v a' g /\ l_tstart g <> None.
Proof.
  intros a bs m ds b t E S. destruct (scene_ctl _ _ _ _ _ E) as (a' & x & r1 & r2 & -> & C & OC & y & l & e & y' & l' & H & EV & DU & KE & Q).
  exists a', x, r1. assert (IS : In (bs, m) (sent_by i (r1 ++ ICtl i bs m ds :: r2))) by (eapply sent_in; apply in_or_app; right; left; reflexivity).
  assert (INN : exists g b, inner l = Some (g, b)).
  { destruct (inner l) as [[g b0]|] eqn:I; eauto. exfalso. destruct (kevent_none _ _ _ _ _ _ _ _ KE I) as [Z _]. rewrite Z in IS. destruct IS. }
  destruct INN as (g & b0 & I). exists g. destruct (Q _ _ I) as (PB & TA & AD & NN). destruct (kevent_inner _ _ _ _ _ _ _ _ _ _ KE I) as (g' & b' & LE & _).
  destruct (held_linv _ _ _ _ _ H I) as [_ L]. destruct H as [SY _]. rewrite <- PB in AD.
  destruct (event_ask_ok _ _ _ _ _ _ _ _ _ _ LE SY L AD) as (_ & _ & _ & _ & _ & _ & NST). rewrite PB in *.
  assert (ES : e = LStart). { destruct e; auto; exfalso; eapply (NST NN); eauto; left; discriminate. }
  subst e. split; auto. split. { intros s J. apply OC. apply in_or_app; auto. } split.
  { destruct x; cbn [ev_of concerns] in *; try (destruct EV; fail). destruct cb; try (destruct EV; fail). apply Nat.eqb_eq in C. rewrite C. eexists; reflexivity. }
  split; auto. destruct (due_inner _ _ DU) as [[X _]|(g0 & b1 & X & Y)]; congruence.
Qed.

(* Every start request follows a run of the start timer, with nothing but messages of loggers in between. *)
Theorem C100_asks_by_timer : forall a x b, its = a ++ x :: b -> asks k i x -> exists a' y r, a = a' ++ y :: r /\ start_timer i y /\ messages r.
Proof.
  intros a x b E (bs & m & ds & t & -> & S). destruct (asks_scene _ _ _ _ _ _ E S) as (a' & y & r1 & g & -> & OC & ST & _). eauto 10.
Qed.

(* Every run of the start timer is followed by a start request. *)
Theorem C100_timer_asks : forall a x b, its = a ++ x :: b -> start_timer i x -> exists r y b', b = r ++ y :: b' /\ messages r /\ asks k i y.
Proof.
  intros a x b E (t & ->). destruct (scene_at _ _ _ E) as (r & b' & -> & C & OC & y & l & e & y' & l' & H & EV & DU & KE & Q). { cbn. apply Nat.eqb_refl. }
  assert (e = LStart) by (destruct e; cbn in EV; tauto). subst e. destruct (due_inner _ _ DU) as [[_ (p & q & X)]|(g & b0 & I & TS)]; [discriminate|].
  destruct (Q _ _ I) as (PB & _). destruct (kevent_inner _ _ _ _ _ _ _ _ _ _ KE I) as (g' & b2 & LE & _). destruct (start_ask _ _ _ _ _ _ _ _ _ LE) as (_ & _ & _ & M).
  destruct (l_tstart g); [|congruence]. assert (X : exists cc, sent_by i r = [cc] /\ start_request (proto b0) (l_target g mod 256) (fst cc)).
  { destruct b0; auto. cbn in PB. congruence. }
  destruct X as (cc & SB & SR). destruct (in_sent i r cc) as (ds & J). { rewrite SB. left; auto. } apply in_split in J. destruct J as (r1 & r2 & ->).
  exists r1, (ICtl i (fst cc) (snd cc) ds), (r2 ++ b'). split. { rewrite <- app_assoc. reflexivity. } split. { intros s J. apply OC. apply in_or_app; auto. }
  exists (fst cc), (snd cc), ds, (l_target g mod 256). rewrite <- PB. auto.
Qed.

(* Once a request was answered there is no other, unless the vehicle was told to stop after the request. *)
Theorem C100_quiet_once_answered : forall a x b y e z d, its = a ++ x :: b ++ y :: e ++ z :: d -> asks k i x -> gets (answer k) i y ->
  (forall s, In s (b ++ e) -> ~ stops k i s) -> ~ asks k i z.
Proof.
  intros a x b y e z d E A G NS (bs & m & ds & t & -> & S). replace (a ++ x :: b ++ y :: e ++ ICtl i bs m ds :: d) with (((a ++ x :: b) ++ y :: e) ++ ICtl i bs m ds :: d) in E.
  2:{ rewrite <- !app_assoc. reflexivity. }
  destruct (asks_scene _ _ _ _ _ _ E S) as (a' & x' & r1 & g & E2 & OC & ST & TA & TS). apply split_snoc in E2. destruct E2 as [(b1 & -> & ->)|(r2 & E1 & E2)].
  - destruct (ta_replied _ _ _ _ _ TA) as [_ X]; [|congruence]. exists a, x, b, y, b1. split; auto. split; auto. split; auto. intros s I. apply NS. apply in_app_or in I. apply in_or_app. destruct I; auto. right. apply in_or_app; auto.
  - assert (I : In y (x' :: r1)) by (rewrite E2; apply in_or_app; right; left; auto). destruct G as (j & p & m0 & d0 & ds0 & -> & _). destruct I as [->|I].
    + destruct ST as (q & X). discriminate.
    + destruct (OC _ I) as (? & ? & ? & ? & X). discriminate.
Qed.

(* While a request is unanswered, and the vehicle was not told to stop, the start timer is running. *)
Theorem C100_keeps_asking : forall a x b, its = a ++ x :: b -> asks k i x -> (forall s, In s b -> ~ gets (answer k) i s) -> (forall s, In s b -> ~ stops k i s) ->
  exists t, In t (y_timers (w_sys w)) /\ tm_dead t = false /\ tm_cb t = CbLogStart i.
Proof.
  intros a x b E A NG NS. destruct world_logger as (y & l & solo & y0 & l0 & AL & -> & H & T & LV & (g & b0 & I & PB)).
  pose proof (lives_talk k i v NP KN _ _ _ _ _ _ _ LV H T PT) as TI. unfold talk_inv in TI. rewrite I in TI. specialize (TI PB).
  pose proof (lives_held _ _ _ _ _ _ _ _ _ LV H) as HW. destruct (held_linv _ _ _ _ _ HW I) as [EP L].
  assert (O : l_open g = true). { apply (ta_open _ _ _ _ _ TI). exists a, x, b. auto. }
  assert (TS : l_tstart g <> None). { apply (ta_asking _ _ _ _ _ TI); auto. exists a, x, b. auto. }
  pose proof (li_start _ _ L) as LS. rewrite EP in LS. destruct (l_tstart g) as [id|]; [|congruence]. destruct LS as (t & A1 & A2 & A3 & A4). exists t. auto.
Qed.

(* Once a request was answered, and the vehicle was not told to stop, the alive check is running, if timers can be created. *)
Theorem C100_keeps_checking : forall a x b y e, (forall q, v_tmr v q = true) -> its = a ++ x :: b ++ y :: e -> asks k i x -> gets (answer k) i y ->
  (forall s, In s (b ++ e) -> ~ stops k i s) -> exists t, In t (y_timers (w_sys w)) /\ tm_dead t = false /\ tm_cb t = CbAlive i.
Proof.
  intros a x b y e TW E A G NS. destruct world_logger as (ys & l & solo & y0 & l0 & AL & -> & H & T & LV & (g & b0 & I & PB)).
  pose proof (lives_talk k i v NP KN _ _ _ _ _ _ _ LV H T PT) as TI. unfold talk_inv in TI. rewrite I in TI. specialize (TI PB).
  pose proof (lives_held _ _ _ _ _ _ _ _ _ LV H) as HW. destruct (held_linv _ _ _ _ _ HW I) as [EP L].
  destruct (ta_replied _ _ _ _ _ TI) as [O TS]. { exists a, x, b, y, e. split; [rewrite <- app_assoc; exact E|]. auto. }
  pose proof (ta_watched _ _ _ _ _ TI TW O TS) as TA.
  pose proof (li_alv _ _ L) as LS. rewrite EP in LS. destruct (l_talive g) as [id|]; [|congruence]. destruct LS as (t & A1 & A2 & A3 & A4). exists t. auto.
Qed.

(* When neither an answer nor log data came between two alive checks, the vehicle is told to stop at once. *)
Theorem C100_silence : forall a x m y b, its = a ++ x :: m ++ y :: b -> alive_check i x -> alive_check i y -> (forall s, In s m -> ~ alive_check i s) ->
  (forall s, In s m -> ~ gets (answer k) i s /\ ~ gets (log_data k) i s) -> exists r z b', b = r ++ z :: b' /\ messages r /\ stops k i z.
Proof.
  intros a x m y b E AX (ty & ->) NA NG. replace (a ++ x :: m ++ IFire ty (CbAlive i) :: b) with ((a ++ x :: m) ++ IFire ty (CbAlive i) :: b) in E by (rewrite <- app_assoc; reflexivity).
  destruct (scene_at _ _ _ E) as (r & b' & -> & C & OC & ys & l & e & y' & l' & H & EV & DU & KE & Q). { cbn. apply Nat.eqb_refl. }
  assert (e = LAlive) by (destruct e; cbn in EV; tauto). subst e. destruct (due_inner _ _ DU) as [[_ (p & q & X)]|(g & b0 & I & TS)]; [discriminate|].
  destruct (Q _ _ I) as (PB & TA & _). destruct (kevent_inner _ _ _ _ _ _ _ _ _ _ KE I) as (g' & b2 & LE & _). destruct (alive_ask _ _ _ _ _ _ _ _ _ LE) as (_ & _ & _ & _ & _ & F & _).
  destruct (held_linv _ _ _ _ _ H I) as [_ L]. destruct F as (_ & F & _); auto. { apply (ta_silent _ _ _ _ _ TA); auto. exists a, x, m. auto. }
  destruct F as (cc & J & X); [congruence| |]. { destruct (l_open g) eqn:O; auto. destruct (li_closed _ _ L O) as (_ & _ & Y). congruence. }
  destruct (in_sent _ _ _ J) as (ds & K2). apply in_split in K2. destruct K2 as (r1 & r2 & ->).
  exists r1, (ICtl i (fst cc) (snd cc) ds), (r2 ++ b'). split. { rewrite <- app_assoc. reflexivity. } split. { intros s J2. apply OC. apply in_or_app; auto. }
  exists (fst cc), (snd cc), ds, (l_target g mod 256). rewrite <- PB. auto.
Qed.

(* When log data came between two alive checks, the logger sends nothing before its next message or timer. *)
Theorem C100_undisturbed : forall a x m y r bs mi ds b, its = a ++ x :: m ++ y :: r ++ ICtl i bs mi ds :: b -> alive_check i x -> alive_check i y ->
  (forall s, In s m -> ~ alive_check i s) -> Z.of_nat (length m) < 4294967296 -> (exists s, In s m /\ gets (log_data k) i s) ->
  exists s, In s r /\ reaches i s.
Proof.
  intros a x m y r bs mi ds b E AX (ty & ->) NA LN (s & IM & G).
  replace (a ++ x :: m ++ IFire ty (CbAlive i) :: r ++ ICtl i bs mi ds :: b) with (((a ++ x :: m) ++ IFire ty (CbAlive i) :: r) ++ ICtl i bs mi ds :: b) in E.
  2:{ rewrite <- !app_assoc. reflexivity. }
  destruct (scene_ctl _ _ _ _ _ E) as (a' & x' & r1 & r2 & E2 & C & OC & ys & l & e & y' & l' & H & EV & DU & KE & Q).
  apply split_snoc in E2. destruct E2 as [(b1 & -> & ->)|(r3 & E1 & E2)].
  - exists x'. split; [apply in_or_app; right; left; auto|]. destruct x' as [| | |t cb| |]; try (cbn in C; discriminate C).
    + left. destruct e as [p q| |]; cbn [ev_of] in EV; try (destruct EV; fail). destruct EV as (W & -> & _). exists i, p, m0, d, ds0. split; auto. split; auto. split; auto.
      cbn [concerns] in C. apply existsb_exists in C. destruct C as (z & I & Z). apply Nat.eqb_eq in Z. congruence.
    + right. destruct cb; cbn [concerns] in C; try discriminate C; apply Nat.eqb_eq in C; rewrite C; [left|right]; eexists; reflexivity.
  - exfalso. destruct r3 as [|z r3]; cbn [app] in E2.
    + injection E2 as -> ->. rewrite app_nil_r in E1. subst a'. assert (e = LAlive) by (destruct e; cbn in EV; tauto). subst e.
      destruct (due_inner _ _ DU) as [[_ (p & q & X)]|(g & b0 & I & TS)]; [discriminate|]. destruct (Q _ _ I) as (PB & TA & _).
      destruct (kevent_inner _ _ _ _ _ _ _ _ _ _ KE I) as (g' & b2 & LE & _). destruct (alive_ask _ _ _ _ _ _ _ _ _ LE) as (_ & _ & _ & _ & _ & _ & K).
      destruct (ta_counted _ _ _ _ _ TA _ _ _ eq_refl AX NA) as (n & N1 & N2 & N3). assert (NZ : (n > 0)%nat). { destruct N3 as [X|[X|X]]; auto; [congruence|]. destruct (X _ IM G). }
      destruct K as (_ & _ & K & _).
      { right. rewrite N2. unfold u32. intros Y. pose proof (Z.div_mod (l_mark g + Z.of_nat n) 4294967296 ltac:(lia)) as DM. rewrite <- Y in DM.
        assert (Z.of_nat n = 4294967296 * ((l_mark g + Z.of_nat n) / 4294967296)) by lia. nia. }
      eapply sent_nil; [exact K|]. apply in_or_app; right; left; reflexivity.
    + injection E2 as <- E2. destruct (OC (IFire ty (CbAlive i))) as (? & ? & ? & ? & X); [|discriminate]. apply in_or_app. left. rewrite E2. apply in_or_app; right; left; auto.
Qed.
End Run.

(* A run: asked; a block out of turn is refused with a stop message; asked again; answered with block 0; log data keeps the log at the second
   alive check; silence before the third stops it. *)
Definition dg_conf : config := mkCf [] [mkEc (CUdp true 8 14551) true no_filters []] [] 0 (Some (mkLc DArdupilot 0 0 MAlways (-1) false)) 0 false 0.
Definition dg_packets : list packet := [rx_hb 1 1 0; lx_block 3; lx_block 0; lx_block 1; rx_hb 1 1 1].
Definition dg_recv (p : packet) : list event := [rx_from 0 (5, 1000) p].
Definition dg_events : list (list event) :=
  [dg_recv (rx_hb 1 1 0); [ETimer 1 true false]; dg_recv (lx_block 3); [ETimer 1 true false]; dg_recv (lx_block 0);
   [ETimer 3 true false]; dg_recv (lx_block 1); [ETimer 3 true false]; dg_recv (rx_hb 1 1 1); [ETimer 3 true false]; [ETimer 4 true false]].
Definition dg_show (x : item) : list Z :=
  match x with
  | IRecv _ bs _ _ ds => raw_id bs :: (if raw_id bs =? 184 then [field32 (raw_payload 206 bs) 0] else []) ++ map (fun d => Z.of_nat (dl_to d)) ds
  | ICtl j bs _ _ => [- raw_id bs; field32 (raw_payload 7 bs) 0; nth 4 (raw_payload 7 bs) 0; nth 6 (raw_payload 7 bs) 0; Z.of_nat j]
  | IFire _ (CbLogStart j) => [-1; Z.of_nat j]
  | IFire _ (CbAlive j) => [-2; Z.of_nat j]
  | _ => []
  end.
Definition dg_received (its : list item) : list (list Z) := flat_map (fun x => match x with IRecv _ bs _ _ _ => [bs] | _ => [] end) its.
Definition dg_proto (w : world) : option protocol := match lookup w 1 with Some e => match ep_kind e with KLog (LFile _ b) => Some (proto b) | _ => None end | None => None end.
Definition dg_story (w : world) (its : list item) := (filter (fun x => match x with [] => false | _ => true end) (map dg_show its), dg_received its, dg_proto w).

Example C100_nonvacuous : exists its w, wf_table (v_tbl (rx_env [])) /\ (forall q, v_tmr (rx_env []) q = true) /\ runs 9 (rx_env []) dg_conf its w /\ talks w (length (confs dg_conf)) Blocks /\
  knows (rx_env []) Blocks /\ proper_trace Blocks its /\
  filter (fun x => match x with [] => false | _ => true end) (map dg_show its) =
    [[0; 1]; [-1; 1]; [-185; 2147483646; 1; 1; 1]; [184; 3; 1]; [-185; 2147483645; 1; 1; 1];           (* asked; block 3; told to stop *)
     [-1; 1]; [-185; 2147483646; 1; 1; 1]; [184; 0; 1]; [-185; 0; 1; 1; 1];                            (* asked again; block 0, acknowledged *)
     [-2; 1]; [184; 1; 1]; [-185; 1; 1; 1; 1]; [-2; 1];                                                (* block 1 between two alive checks *)
     [0; 1]; [-2; 1]; [-185; 2147483645; 1; 1; 1]; [-1; 1]; [-185; 2147483646; 1; 1; 1]].              (* silence: stop, and asked again *)
Proof.
  destruct (view_runs _ dg_story
    ([[0; 1]; [-1; 1]; [-185; 2147483646; 1; 1; 1]; [184; 3; 1]; [-185; 2147483645; 1; 1; 1];
     [-1; 1]; [-185; 2147483646; 1; 1; 1]; [184; 0; 1]; [-185; 0; 1; 1; 1];
     [-2; 1]; [184; 1; 1]; [-185; 1; 1; 1; 1]; [-2; 1];
     [0; 1]; [-2; 1]; [-185; 2147483645; 1; 1; 1]; [-1; 1]; [-185; 2147483646; 1; 1; 1]], map encode dg_packets, Some Blocks)
    9 (rx_env []) (Some []) dg_conf dg_events) as (w & its & R & X). { vm_compute. reflexivity. }
  unfold dg_story in X. injection X as X1 X2 X3. exists its, w. split; [apply rx_tbl_wf|]. split; [reflexivity|]. split; [exact R|]. split; [|split; [|split; [|exact X1]]].
  - unfold dg_proto in X3. unfold talks. change (length (confs dg_conf)) with 1%nat. destruct (lookup w 1) as [e|] eqn:L; [|discriminate X3]. exists e. split; [reflexivity|].
    destruct (ep_kind e) as [| | |[g b|a]]; try discriminate X3. injection X3 as X3. exact X3.
  - cbn [knows]. exists (mkEntry 159 206 (Some 4%nat) (Some 5%nat)). split; reflexivity.
  - intros j p m d ds I W. assert (J : In (encode p) (dg_received its)). { unfold dg_received. apply in_flat_map. eexists. split; [exact I|]. left; reflexivity. }
    change (dg_received its = map encode dg_packets) in X2. rewrite X2 in J. apply in_map_iff in J. destruct J as (q & EQ & J).
    assert (WQ : wf_packet q). { cbn [dg_packets In] in J. repeat (destruct J as [<-|J]; [wfb|]). destruct J. }
    apply encode_inj in EQ; auto. subst q. clear - J. cbn [dg_packets In] in J. intros ID. repeat (destruct J as [<-|J]; [split; [vm_compute; discriminate|discriminate]|]). destruct J.
Qed.

Print Assumptions C100_asks_by_timer.
Print Assumptions C100_timer_asks.
Print Assumptions C100_quiet_once_answered.
Print Assumptions C100_keeps_asking.
Print Assumptions C100_keeps_checking.
Print Assumptions C100_silence.
Print Assumptions C100_undisturbed.
