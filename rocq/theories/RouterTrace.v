(* The routing of the model against SpecRouter.v. *)
From Verif Require Import Base Mav SpecFrame Frame FrameProofs FrameRefine FrameLink Dedup SpecAccept Accept AcceptProofs Names Sys LogFile LogFileProofs ULog Loggers LogInv LogStep RouterCtl Router RouterRoute RouterRoute2 RouterSetup RouterActs RouterInv RouterLearn RouterStep RouterStart RouterHist SpecRouter.

Lemma news_app : forall a b, news (a ++ b) = news a ++ news b.
Proof. intros. apply flat_map_app. Qed.
Lemma gone_app : forall a b, gone (a ++ b) = gone a ++ gone b.
Proof. intros. apply flat_map_app. Qed.
Lemma memb_app : forall a b i, memb (a ++ b) i = memb a i || memb b i.
Proof. intros. apply existsb_app. Qed.
Lemma memb_In : forall l i, memb l i = true <-> In i l.
Proof. intros. unfold memb. rewrite existsb_exists. split. - intros (x & A & B). apply Nat.eqb_eq in B. subst; auto. - intros. exists i. rewrite Nat.eqb_refl. auto. Qed.

(* ---- endpoints that come and go -------------------------------------------------------------------------- *)

Definition steady (its : list item) : Prop := news its = [] /\ gone its = [].

Lemma ctl_steady : forall its, (forall x, In x its -> exists i bs m ds, x = ICtl i bs m ds) -> steady its.
Proof.
  induction its as [|x r IH]; intros H. { split; auto. } destruct IH as [A B]. { intros; apply H; right; auto. }
  destruct (H x) as (i & bs & m & ds & ->). { left; auto. } split; auto.
Qed.

Lemma ctls_are : forall f v w i cs w' its, logs_ok w -> Forall ctl_ok cs -> route_ctls (route_sub f v) w i cs = Ok (w', its) ->
  forall x, In x its -> exists m ds, (exists bs, x = ICtl i bs m ds /\ from_log m) /\ map dl_to ds = filter (accepts w m) (w_order w).
Proof.
  intros f v w i cs w' its L C H. destruct (ctls_items 1 f v cs w i w' its L C H) as [F _]. clear - F C.
  induction F; intros z X; [destruct X|]. inversion C; subst. destruct X as [<-|X]; auto. destruct H as (ds & -> & A & _). exists (snd x), ds. split; auto. exists (fst x). split; auto. apply ctl_from; auto.
Qed.

Definition order_change (w w' : world) (its : list item) : Prop :=
  w_order w' = filter (fun i => negb (memb (gone its) i)) (w_order w ++ news its) /\
  w_sniffer w' = w_sniffer w /\
  length (w_eps w') = (length (w_eps w) + length (news its))%nat /\
  (forall i, In i (news its) -> (length (w_eps w) <= i < length (w_eps w'))%nat) /\
  (forall i, In i (gone its) -> (i < length (w_eps w'))%nat) /\
  (length (news its) <= 1)%nat.

Lemma filter_true : forall A (l : list A) f, (forall x, In x l -> f x = true) -> filter f l = l.
Proof. induction l; intros f H; auto. cbn. rewrite H by (left; auto). f_equal. apply IHl. intros; apply H; right; auto. Qed.

Lemma steady_change : forall w w' its, steady its -> w_order w' = w_order w -> w_sniffer w' = w_sniffer w -> length (w_eps w') = length (w_eps w) -> order_change w w' its.
Proof.
  intros w w' its [A B] O S L. unfold order_change. rewrite A, B. cbn. split. { rewrite app_nil_r, filter_true; auto. } split; auto. split; [lia|]. split; [intros i []|]. split; [intros i []|lia].
Qed.
Lemma kept_change : forall w w' its, steady its -> kept w w' -> order_change w w' its.
Proof. intros. apply steady_change; auto; apply H0. Qed.

Lemma hangups_change : forall w w' its, process_hangups w = Ok (w', its) -> Inv w -> order_change w w' its.
Proof.
  intros w w' its H I. unfold process_hangups in H. destruct (w_hang w).
  - inv_bind H. inversion H; subst; clear H. destruct (hangups_spec _ _ _ _ _ E (inv_sym _ I)) as (A & B & C & D & F).
    assert (G : gone its = filter (fun i => negb (valid_at w i)) (w_order w)).
    { subst its. clear. induction (w_order w) as [|i r IH]; auto. cbn [filter]. destruct (negb (valid_at w i)); auto. cbn. f_equal. exact IH. }
    assert (N : news its = []) by (subst its; clear; induction (w_order w) as [|i r IH]; auto; cbn [filter]; destruct (negb (valid_at w i)); auto).
    split.
    + rewrite N, app_nil_r, G. cbn. rewrite C. apply filter_ext_in. intros i X. 
      assert (EQ : memb (filter (fun i => negb (valid_at w i)) (w_order w)) i = negb (valid_at w i)).
      { destruct (valid_at w i) eqn:V; cbn.
        - destruct (memb _ i) eqn:M; auto. apply memb_In in M. apply filter_In in M. rewrite V in M. destruct M; discriminate.
        - apply memb_In. apply filter_In. rewrite V. auto. }
      rewrite EQ, negb_involutive. auto.
    + rewrite N. cbn. split. { rewrite A. auto. } split. { rewrite B. lia. } split; [intros i []|]. split; [|lia]. intros i X. rewrite G in X. apply filter_In in X. destruct X as [X _].
      apply (i_alive w I) in X. destruct (lookup w i) eqn:L; [|congruence]. apply lookup_len in L. rewrite B. auto.
  - inversion H; subst. apply kept_change; [split; auto|apply kept_refl].
Qed.

Lemma conn_change : forall v w, Inv w -> order_change w (fst (tcp_connection v w)) (snd (tcp_connection v w)).
Proof.
  intros v w I. unfold tcp_connection. destruct (ask v (w_sys w)) as [r y]. destruct (r <? 0). { apply kept_change; [split; auto|apply kept_sys]. }
  destruct (ask_bytes RXMAX v y) as [junk y1]. unfold add_fd. destruct (ask v y1) as [q y2]. cbn [fst snd]. unfold order_change. cbn. rewrite app_length. cbn.
  split. { rewrite filter_true; auto. } split; auto. split; auto. split; [|split; [intros i []|lia]]. intros i [<-|[]]. lia.
Qed.

Lemma log_cb_ctls : forall w i k f v w' its again, logs_ok w -> log_cb w i k f v = Ok (w', its, again) ->
  (forall g b y g' b' cs ag, k g b = Ok (y, g', b', cs, ag) -> Forall ctl_ok cs /\ is_ulog b' = is_ulog b) ->
  forall x, In x its -> exists m ds, (exists bs, x = ICtl i bs m ds /\ from_log m) /\ map dl_to ds = filter (accepts w m) (w_order w).
Proof.
  intros w i k f v w' its again L H C. unfold log_cb in H. inv_bind H. apply get_lookup in E. rename a into e.
  assert (RP : forall y l l0, ep_kind e = KLog l0 -> same_logger l0 l -> routed w (put (set_sys w y) i (set_kind e (KLog l)))).
  { intros y l l0 K SL. eapply routed_put; eauto. eapply same_log_kind; eauto. }
  assert (GO : forall y l l0 cs w2 its, ep_kind e = KLog l0 -> same_logger l0 l -> Forall ctl_ok cs -> route_ctls (route_sub f v) (put (set_sys w y) i (set_kind e (KLog l))) i cs = Ok (w2, its) ->
     forall x, In x its -> exists m ds, (exists bs, x = ICtl i bs m ds /\ from_log m) /\ map dl_to ds = filter (accepts w m) (w_order w)).
  { intros y l l0 cs w2 it K SL CC R x X. destruct (ctls_are _ _ _ _ _ _ _ (logs_routed _ _ (RP y l l0 K SL) L) CC R x X) as (m & ds & A & B). exists m, ds. split; auto.
    rewrite B. apply (routed_accepts _ _ _ _ (RP y l l0 K SL)). }
  destruct (ep_kind e) as [| | |[g b|a]] eqn:K; try discriminate.
  - inv_bind H. inv_bind H. inversion H; subst. apply C in E0. destruct E0 as [E0 EU]. refine (GO _ _ _ _ _ _ eq_refl _ E0 ltac:(eassumption)); first [exact EU|exact Logic.I].
  - destruct (a_inner a) as [[g b]|]; [|discriminate]. inv_bind H. inv_bind H. inversion H; subst. apply C in E0. destruct E0 as [E0 EU]. refine (GO _ _ _ _ _ _ eq_refl _ E0 ltac:(eassumption)); first [exact EU|exact Logic.I].
Qed.
Lemma run_cb_ctls : forall f v w cb w' its again, logs_ok w -> run_cb f v w cb = Ok (w', its, again) ->
  forall x, In x its -> exists i m ds, (exists bs, x = ICtl i bs m ds /\ from_log m) /\ map dl_to ds = filter (accepts w m) (w_order w).
Proof.
  intros f v w cb w' its again L H x X. destruct cb; cbn [run_cb] in H; try (inv_bind H; inversion H; subst; destruct X; fail).
  - inversion H; subst; destruct X.
  - exists i. eapply log_cb_ctls; eauto. intros g b y g' b' cs ag Y. cbn in Y. destruct (lcb_start (w_sys w) g b) as [[y1 g1] cs1] eqn:E. inversion Y; subst. split; auto. eapply ctl_cb_start; eauto.
  - exists i. eapply log_cb_ctls; eauto. intros g b y g' b' cs ag Y. cbn in Y. inversion Y; subst. auto.
  - exists i. eapply log_cb_ctls; eauto. intros g b y g' b' cs ag Y. cbn in Y. inv_bind Y. inversion Y; subst. split; [eapply ctl_cb_alive; eauto|eapply alive_kind; eauto].
Qed.

(* ---- endpoints with the same routing data ------------------------------------------------------------------ *)

Definition like (e e' : ep) : Prop :=
  ep_ids e' = ep_ids e /\ ep_filters e' = ep_filters e /\ ep_members e' = ep_members e /\ is_log e' = is_log e.
Definition alike (w w' : world) : Prop :=
  w_order w' = w_order w /\ w_sniffer w' = w_sniffer w /\ length (w_eps w') = length (w_eps w) /\
  forall k, match lookup w k, lookup w' k with Some e, Some e' => like e e' | None, None => True | _, _ => False end.

Lemma kept_alike : forall w w', kept w w' -> alike w w'.
Proof.
  intros w w' K. do 3 (split; [apply K|]). intros k. pose proof (kp_ep _ _ K k) as X. destruct (lookup w k), (lookup w' k); cbn in X; auto.
  repeat split; try apply X. apply class_log, X.
Qed.
Lemma alike_refl : forall w, alike w w.
Proof. intros. apply kept_alike, kept_refl. Qed.
Lemma alike_trans : forall a b c, alike a b -> alike b c -> alike a c.
Proof.
  intros a b c (A1 & A2 & A3 & A4) (B1 & B2 & B3 & B4). split; [congruence|]. split; [congruence|]. split; [congruence|].
  intros k. specialize (A4 k). specialize (B4 k). destruct (lookup a k), (lookup b k), (lookup c k); auto; try tauto.
  destruct A4 as (? & ? & ? & ?), B4 as (? & ? & ? & ?). unfold like. repeat split; congruence.
Qed.

(* a message routed while the state was w2: *)
Definition routed_in (w2 : world) (m : minfo) (ds : list delivery) : Prop := map dl_to ds = filter (accepts w2 m) (w_order w2).

Definition first_recv (its : list item) : Prop := forall x r, its = x :: r -> no_recv r.

Lemma act_routes : forall f v w its w', wf_table (v_tbl v) -> act f v w its w' -> Inv w ->
  order_change w w' its /\ first_recv its /\
  exists w2, alike w2 w' /\ Inv w2 /\ 
    (forall x m ds, In x its -> message x m ds -> steady its /\ ((exists i bs, x = ICtl i bs m ds /\ from_log m) \/ (exists i bs, x = IRecv i bs m Routed ds /\ wf_meta m)) /\ routed_in w2 m ds).
Proof.
  intros f v w its w' WT A I.
  assert (I' : Inv w') by (eapply inv_act; eauto).
  assert (PLAIN : (forall x, In x its -> exists i o, x = IRead i o) -> kept w w' -> order_change w w' its /\ first_recv its /\
    exists w2, alike w2 w' /\ Inv w2 /\ 
    (forall x m ds, In x its -> message x m ds -> steady its /\ ((exists i bs, x = ICtl i bs m ds /\ from_log m) \/ (exists i bs, x = IRecv i bs m Routed ds /\ wf_meta m)) /\ routed_in w2 m ds)).
  { intros N K. split. { apply kept_change; auto. clear - N. induction its as [|x r IH]; [split; auto|]. destruct IH as [A B]. { intros; apply N; right; auto. }
      destruct (N x) as (i & o & ->). { left; auto. } split; auto. }
    split. { intros x r -> y Y. destruct (N y) as (i & o & ->). { right; auto. } auto. }
    exists w'. split; [apply alike_refl|]. split; auto. intros x m ds X M. exfalso. destruct (N x X) as (i & o & ->). destruct M as [(? & ? & ?)|(? & ? & ?)]; discriminate. }
  inversion A; subst; try (apply PLAIN; [intros ? []|]; auto using kept_exit, kept_hang, kept_sys; fail).
  - apply PLAIN. { intros x [<-|[]]. eauto. } eapply kept_os_read; eauto.
  - apply PLAIN. { intros ? []. } eapply kept_put0; eauto. apply kept_set_rx. intros X. eapply read_msg_ok; eauto.
  - clear PLAIN. destruct (recv_before f v w i e rr x st known m w1 WT I H H0 H1 H2 H3 _ _ H4) as (K & DD & e1 & p & L1 & F1 & KE & RX & RL & P1 & P2 & P3 & P4 & P5).
    subst m. assert (I1 : Inv w1) by (eapply kept_inv; eauto). rewrite <- RX in P5.
    destruct (handle_cases f v w1 i e1 p w' its H4 I1 L1 F1 P1 P5) as (d & ds & its' & EQ & NR & C).
    assert (EASY : d <> Routed -> its' = [] -> kept w1 w' -> order_change w w' its /\ first_recv its /\
      exists w2, alike w2 w' /\ Inv w2 /\ 
      (forall x m ds, In x its -> message x m ds -> steady its /\ ((exists i bs, x = ICtl i bs m ds /\ from_log m) \/ (exists i bs, x = IRecv i bs m Routed ds /\ wf_meta m)) /\ routed_in w2 m ds)).
    { intros D EI KK. subst its'. split. { rewrite EQ. apply kept_change; [split; auto|]. eapply kept_trans; eauto. }
      split. { rewrite EQ. intros y r Y. inversion Y; subst. intros ? []. }
      exists w'. split; [apply alike_refl|]. split; auto. rewrite EQ. intros y m ds0 [<-|[]] [(? & ? & X)|(? & ? & X)]; congruence. }
    assert (NIL : its' = [] \/ d = Routed).
    { destruct (handle_inv _ _ _ _ _ _ _ H4) as (e0 & pkt & w2 & fresh & _ & _ & _ & CC). rewrite EQ in CC.
      destruct CC as [(_ & _ & X)|[(_ & _ & _ & X)|(_ & _ & ? & ? & ? & ? & ? & ? & ? & _ & _ & _ & _ & _ & X)]]; inversion X; subst; auto. }
    destruct C as [(-> & DS & KK)|[(-> & DS & AL & KK)|(-> & AL & wa & w2 & w3 & e2 & mem & EE & K1 & LE & L2 & Ia & I2 & RT & O1 & O2 & O3 & O4 & O5 & O6)]].
    + destruct NIL as [->|]; [|discriminate]. apply EASY; auto; congruence.
    + destruct NIL as [->|]; [|discriminate]. apply EASY; auto; congruence.
    + clear EASY NIL. pose proof (kept_route _ _ _ _ _ _ _ _ _ RT) as K3. destruct (learn_exact _ _ _ _ _ _ LE Ia ltac:(rewrite (lookup_same_eps w1 wa i EE); eauto)) as [T _].
      assert (TO : w_order w2 = w_order wa) by (rewrite (ta_w _ _ _ T); auto). assert (TS : w_sniffer w2 = w_sniffer wa) by (rewrite (ta_w _ _ _ T); auto).
      assert (ITEMS : forall y, In y its' -> exists j m ds, (exists bs, y = ICtl j bs m ds /\ from_log m) /\ routed_in w2 m ds).
      { intros y Y. pose proof (route_items 0 _ _ _ _ _ _ _ _ _ (inv_logs _ I2) RT) as R. rewrite Forall_forall in R. destruct (R y Y) as (j & cc & _ & _ & OK & dd & -> & Q & _). exists j, (snd cc), dd. split; auto. exists (fst cc). split; auto. apply ctl_from; auto. }
      assert (ST : steady its).
      { rewrite EQ. assert (X : steady its'). { apply ctl_steady. intros y Y. destruct (ITEMS y Y) as (j & mm & dd & (bs & -> & _) & _). eauto 6. }
        destruct X as [X1 X2]. split; auto. }
      split. { apply steady_change; auto.
        - rewrite O1, (kp_order _ _ K3), TO, (kp_order _ _ K1). apply K.
        - rewrite O2, (kp_sniffer _ _ K3), TS, (kp_sniffer _ _ K1). apply K.
        - rewrite O6, (kp_len _ _ K3), (ta_len _ _ _ T), (kp_len _ _ K1). apply K. }
      split. { rewrite EQ. intros y r Y. inversion Y; subst; auto. }
      exists w2. split. { eapply alike_trans; [apply kept_alike; eauto|]. split; auto. split; auto. split; auto. intros k. destruct (Nat.eq_dec k i) as [->|NE].
        - destruct O5 as (e3 & e' & X1 & X2 & X3 & X4 & X5 & X6 & X7). rewrite X1, X2. unfold like, is_log. rewrite X7. auto.
        - rewrite O4 by auto. destruct (lookup w3 k); auto. unfold like. auto. }
      split; auto. intros y m ds0 Y M. split; auto. rewrite EQ in Y. destruct Y as [<-|Y].
      * destruct M as [(? & ? & X)|(? & ? & X)]; [|discriminate]. inversion X; subst. split. { right. do 2 eexists. split; [reflexivity|]. apply wf_meta_info; auto. }
        apply route_spec in RT. apply RT.
      * destruct (ITEMS y Y) as (j & mm & dd & (bs & -> & FL) & Q). destruct M as [(? & ? & X)|(? & ? & X)]; [discriminate|]. inversion X; subst. split; auto. left. eauto.
  - split. { apply conn_change; auto. } destruct (conn_from_old v w) as [_ NR]. split. { intros x r EQ y Y. apply NR. rewrite EQ. right; auto. }
    exists (fst (tcp_connection v w)). split; [apply alike_refl|]. split; auto. intros x m ds X M. exfalso. unfold tcp_connection in X. destruct (ask v (w_sys w)) as [r y]. destruct (r <? 0); [destruct X|].
    destruct (ask_bytes RXMAX v y), (add_fd v _ _). destruct X as [<-|[]]. destruct M as [(? & ? & ?)|(? & ? & ?)]; discriminate.
  - apply PLAIN. { intros ? []. } eapply kept_put; eauto. eapply kept_mod_fd; eauto.
  - clear PLAIN. unfold timer_read in H. destruct (find_timer (w_sys w) t) as [tm|]; [|discriminate]. destruct (negb fired || tm_dead tm) eqn:DD.
    { inversion H; subst. split; [apply kept_change; [split; auto|apply kept_refl]|]. split; [intros ? ? ?; discriminate|]. exists w'. split; [apply alike_refl|]. split; auto. intros ? ? ? []. }
    inv_bind H. inv_bind H. inversion H; subst. clear H.
    match goal with E : run_cb _ _ _ _ = Ok (?wa, ?la, _) |- _ => rename wa into w3, la into its; pose proof (run_cb_ctls _ _ _ _ _ _ _ (inv_logs _ I) E) as CT; pose proof (kept_run_cb _ _ _ _ _ _ _ E) as KR end.
    assert (ST : steady (IFire t (tm_cb tm) :: its)).
    { assert (X : steady its). { apply ctl_steady. intros y Y. destruct (CT y Y) as (j & mm & dd & (bs & -> & _) & _). eauto 6. } destruct X as [X1 X2]. split; auto. }
    split. { apply kept_change; auto. eapply kept_trans; [exact KR|apply kept_sys]. }
    split. { intros x r EQ y Y. inversion EQ; subst. destruct (CT y Y) as (j & mm & dd & (bs & -> & _) & _). auto. }
    exists w. split. { apply kept_alike. eapply kept_trans; [exact KR|apply kept_sys]. } split; auto. intros x m ds [<-|X] M. { destruct M as [(? & ? & ?)|(? & ? & ?)]; discriminate. }
    split; auto. destruct (CT x X) as (j & mm & dd & (bs & -> & FL) & Q). destruct M as [(? & ? & Y)|(? & ? & Y)]; [discriminate|]. inversion Y; subst. split; auto. left. eauto.
  - clear PLAIN. split. { apply hangups_change; auto. } destruct (hangups_from_old _ _ _ H I) as [_ NR]. split. { intros x r EQ y Y. apply NR. rewrite EQ. right; auto. }
    exists w'. split; [apply alike_refl|]. split; auto. intros x m ds X M. exfalso. unfold process_hangups in H. destruct (w_hang w); [|inversion H; subst; destruct X].
    inv_bind H. inversion H; subst; clear H. destruct (hangups_spec _ _ _ _ _ E (inv_sym _ I)) as (_ & _ & _ & D & _). subst its. apply in_map_iff in X. destruct X as (? & <- & _). destruct M as [(? & ? & ?)|(? & ? & ?)]; discriminate.
Qed.

(* ---- the state agrees with the history -------------------------------------------------------------------------- *)

Definition ep_synced (c : config) (h : list item) (k : nat) (e : ep) : Prop :=
  ep_filters e = filters_of c k /\
  (forall j, In j (ep_members e) <-> j <> k /\ same_group c j k) /\
  (is_log e = true <-> is_logger c k) /\
  (forall a, knows (ep_ids e) a <-> known_after c h k a).

Record synced (c : config) (h : list item) (w : world) : Prop := mkSynced {
  sy_order : w_order w = open_after c h;
  sy_sniffer : w_sniffer w = u16 (cf_sniffer c);
  sy_len : (length (confs c) + loggers c <= length (w_eps w))%nat;
  sy_gone : forall i, In i (gone h) -> (i < length (w_eps w))%nat;
  sy_recv : forall i bs m d ds, In (IRecv i bs m d ds) h -> (i < length (w_eps w))%nat /\ wf_meta m;
  sy_ep : forall k e, lookup w k = Some e -> ep_synced c h k e }.

Lemma knows_in : forall ids x, wf_ids ids -> (forall s c, is_byte s -> is_byte c -> x = s * 256 + c -> (knows ids (s, c) <-> In x ids)).
Proof. intros ids x W s c S C ->. unfold knows, known. cbn [fst snd]. tauto. Qed.

Lemma byte_split : forall s c s' c', is_byte s -> is_byte c -> is_byte s' -> is_byte c' -> s * 256 + c = s' * 256 + c' -> s = s' /\ c = c'.
Proof. unfold is_byte. intros. lia. Qed.

Lemma log_count_loggers : forall c, log_count c = loggers c.
Proof. reflexivity. Qed.

Lemma group_of_new : forall c k, (length (confs c) <= k)%nat -> group_of c k = [].
Proof. intros c k H. unfold group_of. apply nth_error_None in H. rewrite H. auto. Qed.
Lemma filters_of_new : forall c k, (length (confs c) <= k)%nat -> filters_of c k = no_filters.
Proof. intros c k H. unfold filters_of. apply nth_error_None in H. rewrite H. auto. Qed.

Lemma Forall2_len : forall A B (P : A -> B -> Prop) l l', Forall2 P l l' -> length l = length l'.
Proof. induction 1; cbn; auto. Qed.
Lemma filter_filter : forall A (f g : A -> bool) l, filter f (filter g l) = filter (fun x => g x && f x) l.
Proof. induction l as [|x l IH]; auto. cbn. destruct (g x); cbn; auto. destruct (f x); cbn; rewrite IH; auto. Qed.

Lemma synced_start : forall v y c w, start v y c = Some w -> synced c [] w.
Proof.
  intros v y c w S. destruct (start_shape _ _ _ _ S) as (es & ls & F & LF & EP & OR & _ & SN & _ & _ & _ & NF & LC).
  pose proof (Forall2_len _ _ _ _ _ F) as LEN. fold (confs c) in LEN, F. rewrite log_count_loggers in LC.
  assert (LL : length (link_groups (map Some es)) = length es) by (unfold link_groups; rewrite link_len, map_length; auto).
  split.
  - rewrite OR. unfold open_after. cbn. rewrite app_nil_r, filter_true by auto. congruence.
  - auto.
  - rewrite EP, app_length, LL, map_length. lia.
  - intros i [].
  - intros i bs m d ds [].
  - intros k e L. unfold lookup in L. rewrite EP in L. destruct (Nat.lt_ge_cases k (length es)) as [A|A].
    + rewrite nth_error_app1 in L by lia. destruct (nth_error es k) as [e0|] eqn:N; [|apply nth_error_None in N; lia].
      destruct (nth_Forall2 _ _ _ _ _ _ _ F N) as (cc & NC & (FE1 & FE2 & FE3 & FE4) & FG & FF).
      assert (N2 : nth_error (map Some es) k = Some (Some e0)) by (rewrite nth_error_map, N; auto).
      destruct (link_groups_spec es k e0 N2 FE2) as (e' & L' & SE & ME). rewrite L' in L. inversion L; subst e'. clear L.
      assert (GK : group_of c k = ep_group e0) by (unfold group_of; rewrite NC; auto).
      split. { unfold filters_of. rewrite NC, SE. auto. } split.
      { intros j. rewrite ME. unfold same_group. rewrite GK. split.
        - intros (NE & o & NO & G1 & G2). split; auto. split; auto. destruct (nth_Forall2 _ _ _ _ _ _ _ F NO) as (cj & NJ & _ & GJ & _). unfold group_of. rewrite NJ. congruence.
        - intros (NE & G1 & G2). split; auto. unfold group_of in G1. destruct (nth_error (confs c) j) as [cj|] eqn:NJ; [|congruence].
          assert (JL : (j < length es)%nat) by (rewrite <- LEN; apply nth_error_Some; congruence). destruct (nth_error es j) as [o|] eqn:NO; [|apply nth_error_None in NO; lia].
          exists o. split; auto. destruct (nth_Forall2 _ _ _ _ _ _ _ F NO) as (cj' & NJ' & _ & GJ & _). split; [congruence|congruence]. }
      split. { rewrite SE. cbn. unfold is_logger. split; [|lia]. intros X. exfalso. change (is_log e0 = true) in X. congruence. }
      intros a. rewrite SE. cbn. rewrite FE1. split. { intros (_ & _ & []). } intros [[X _]|(i & bs & m & ds & [] & _)]. unfold is_logger in X. lia.
    + rewrite nth_error_app2, nth_error_map in L by lia. destruct (nth_error ls (k - length (link_groups (map Some es)))) as [q|] eqn:N; [|discriminate]. cbn in L. inversion L; subst q. clear L.
      assert (KB : (k < length es + length ls)%nat). { assert (X : (k - length (link_groups (map Some es)) < length ls)%nat) by (apply nth_error_Some; congruence). lia. }
      apply nth_error_In in N. rewrite Forall_forall in LF, NF. pose proof (NF _ N) as NF1. destruct (LF _ N) as (B1 & B2 & B3 & _ & _ & _ & B4).
      split. { rewrite filters_of_new by lia. auto. } split.
      { intros j. rewrite B2. unfold same_group. rewrite (group_of_new c k) by lia. split; [intros []|]. intros (_ & _ & X). congruence. }
      assert (IL : is_logger c k) by (unfold is_logger; lia). split. { split; auto. }
      intros a. rewrite B1. split.
      * intros (X1 & X2 & [X|[]]). left. split; auto. destruct a as [s q]. cbn [fst snd] in *. destruct (byte_split s q 2 0) as [-> ->]; auto; unfold is_byte in *; lia.
      * intros [[_ ->]|(i & bs & m & ds & [] & _)]. unfold knows, known, is_byte; cbn; lia.
Qed.

Lemma known_app : forall c h k a, (forall x, In x h -> is_recv x = false \/ exists i bs m d ds, x = IRecv i bs m d ds /\ d <> Routed) ->
  forall h0, known_after c (h0 ++ h) k a <-> known_after c h0 k a.
Proof.
  intros c h k a H h0. unfold known_after. split; intros [X|(i & bs & m & ds & X & Y)]; auto; right; exists i, bs, m, ds; split; auto.
  - apply in_app_or in X. destruct X as [X|X]; auto. exfalso. destruct (H _ X) as [Z|(? & ? & ? & ? & ? & Z & N)]; [discriminate|]. inversion Z; subst. auto.
  - apply in_or_app; auto.
Qed.

Lemma synced_act : forall f v c h w its w', wf_table (v_tbl v) -> act f v w its w' -> Inv w -> synced c h w -> synced c (h ++ its) w'.
Proof.
  intros f v c h w its w' WT A I SY. destruct (act_routes f v w its w' WT A I) as ((O1 & O2 & O3 & O4 & O5 & _) & FR & _).
  destruct (act_endpoints f v w its w' WT A I) as (LL & RO & EP). split.
  - rewrite O1, (sy_order _ _ _ SY). unfold open_after. rewrite news_app, gone_app, app_assoc, (filter_app _ _ (news its)), filter_app, (filter_app _ _ (news its)). f_equal.
    + rewrite <- filter_app, filter_filter. apply filter_ext. intros i. rewrite memb_app, negb_orb. auto.
    + apply filter_ext_in. intros i X. rewrite memb_app, negb_orb. destruct (memb (gone h) i) eqn:M; auto.
      apply memb_In in M. apply (sy_gone _ _ _ SY) in M. apply O4 in X. lia.
  - rewrite O2. apply SY.
  - pose proof (sy_len _ _ _ SY). lia.
  - intros i X. rewrite gone_app in X. apply in_app_or in X. destruct X as [X|X]; auto. apply (sy_gone _ _ _ SY) in X. lia.
  - intros i bs m d ds X. apply in_app_or in X. destruct X as [X|X]. { destruct (sy_recv _ _ _ SY _ _ _ _ _ X). split; auto. lia. }
    rewrite Forall_forall in RO. destruct (RO _ X) as (X1 & (p & WP & _ & _ & ->) & _). split; auto. apply wf_meta_info; auto.
  - intros k e' L. assert (I' : Inv w') by (eapply inv_act; eauto). destruct (EP k e' L) as [(e & L0 & F1 & F2 & F3 & F4 & _ & F5)|(Q & (N1 & N2 & N3 & N4 & N5) & NR)].
    + destruct (sy_ep _ _ _ SY k e L0) as (S1 & S2 & S3 & S4). split; [congruence|]. split. { rewrite F2. auto. } split. { rewrite F4. auto. }
      destruct (i_ids w' I' k e' L) as [_ W']. destruct (i_ids w I k e L0) as [_ W].
      intros [s q]. split.
      * intros (B1 & B2 & K). cbn [fst snd] in *. unfold known in K. cbn [fst snd] in K. rewrite F5 in K. destruct K as [K|(i & bs & m & ds & X & Y & Z)].
        -- assert (KK : known_after c h k (s, q)) by (apply S4; split; auto). destruct KK as [KK|(i & bs & m & ds & X & Y)]; [left; auto|]. right. exists i, bs, m, ds. split; auto. apply in_or_app; auto.
        -- right. exists i, bs, m, ds. split; [apply in_or_app; auto|]. rewrite Forall_forall in RO. destruct (RO _ X) as (_ & (p & WP & _ & _ & EM) & _).
           assert (WM : wf_meta m) by (subst m; apply wf_meta_info; auto). destruct WM as (M1 & M2 & _). unfold sender in Y. destruct (byte_split s q (m_ssys m) (m_scomp m)) as [-> ->]; auto. split; auto.
           destruct Z as [Z|Z]; auto. right. apply S2 in Z. apply Z.
      * intros KK. assert (X : known_after c h k (s, q) \/ exists i bs m ds, In (IRecv i bs m Routed ds) its /\ (s, q) = (m_ssys m, m_scomp m) /\ (i = k \/ same_group c i k)).
        { destruct KK as [KK|(i & bs & m & ds & X & Y)]; [left; left; auto|]. apply in_app_or in X. destruct X as [X|X]; [left; right|right]; exists i, bs, m, ds; auto. }
        destruct X as [X|(i & bs & m & ds & X & Y & Z)].
        -- apply S4 in X. destruct X as (B1 & B2 & K). split; auto. split; auto. unfold known in *. cbn [fst snd] in *. apply F5. auto.
        -- rewrite Forall_forall in RO. destruct (RO _ X) as (_ & (p & WP & _ & _ & EM) & _). assert (WM : wf_meta m) by (subst m; apply wf_meta_info; auto). destruct WM as (M1 & M2 & _).
           inversion Y; subst s q. split; auto. split; auto. unfold known. cbn [fst snd]. apply F5. right. exists i, bs, m, ds. split; auto. split; auto.
           destruct (Nat.eq_dec i k); auto. right. apply S2. split; auto. tauto.
    + pose proof (sy_len _ _ _ SY). split. { rewrite N5. symmetry. apply filters_of_new. lia. } split.
      { intros j. rewrite N2. unfold same_group. rewrite (group_of_new c k) by lia. split; [intros []|]. intros (_ & _ & X). congruence. }
      split. { rewrite N3. unfold is_logger. split; [discriminate|lia]. }
      intros a. rewrite N1. split. { intros (_ & _ & []). } intros [[X _]|(i & bs & m & ds & X & _ & Z)]. { unfold is_logger in X. lia. }
      exfalso. destruct Z as [->|[_ Z]]; [|apply Z; apply group_of_new; lia]. apply in_app_or in X. destruct X as [X|X]; [|apply NR in X; discriminate]. apply (sy_recv _ _ _ SY) in X. lia.
Qed.

(* ---- routing ---------------------------------------------------------------------------------------------------------- *)

Lemma addressed_ext : forall l K K', (forall a, K a <-> K' a) -> (addressed_to l K <-> addressed_to l K').
Proof.
  intros l K K' E. unfold addressed_to. split; intros [X|(s & T & [(B & q & Q)|(q & Q1 & Q2 & Q3)])]; auto; right; exists s; split; auto.
  - left. split; auto. exists q. apply E; auto.
  - right. exists q. rewrite <- E. auto.
  - left. split; auto. exists q. apply E; auto.
  - right. exists q. rewrite E. auto.
Qed.
Lemma sniffs_ext : forall s K K', (forall a, K a <-> K' a) -> (sniffs s K <-> sniffs s K').
Proof. intros s K K' E. unfold sniffs. split; intros (N & q & Q); split; auto; exists q; apply E; auto. Qed.

Lemma synced_accepts : forall c h w m k, synced c h w -> Inv w -> wf_meta m -> 0 <= cf_sniffer c < 256 -> In k (w_order w) ->
  (accepts w m k = true <-> wanted c h m k).
Proof.
  intros c h w m k SY I WM SN IN. apply (i_alive w I) in IN. unfold accepts, verdict_of. destruct (lookup w k) as [e|] eqn:L; [|congruence].
  destruct (sy_ep _ _ _ SY k e L) as (S1 & _ & _ & S4). destruct (i_ids w I k e L) as [_ W]. rewrite (sy_sniffer _ _ _ SY).
  replace (u16 (cf_sniffer c)) with (cf_sniffer c) by (unfold u16; rewrite Z.mod_small; lia).
  pose proof (accept_spec (cf_sniffer c) (ep_ids e) (ep_filters e) m WM W SN) as AS. cbv zeta in AS. unfold wanted. rewrite <- S1.
  rewrite <- (S4 (lt_from (letter_of m))), <- (addressed_ext _ _ _ S4), <- (sniffs_ext _ _ _ S4).
  destruct (accept_msg _ _ _ _); split; try discriminate; tauto.
Qed.

Definition trace_ok (c : config) (h : list item) : Prop :=
  forall pre x post m ds, h = pre ++ x :: post -> message x m ds ->
  ((exists i bs, x = ICtl i bs m ds /\ from_log m) \/ (exists i bs, x = IRecv i bs m Routed ds /\ wf_meta m)) /\
  (is_byte (m_ssys m) -> is_byte (m_scomp m) -> forall k, In k (map dl_to ds) -> In k (open_after c (pre ++ [x])) /\ ~ known_after c (pre ++ [x]) k (m_ssys m, m_scomp m)) /\
  NoDup (map dl_to ds) /\
  (wf_meta m -> 0 <= cf_sniffer c < 256 -> delivered c (pre ++ [x]) m ds).

Lemma open_steady : forall c h its, steady its -> open_after c (h ++ its) = open_after c h.
Proof. intros c h its [A B]. unfold open_after. rewrite news_app, gone_app, A, B, !app_nil_r. auto. Qed.

Lemma split_app : forall A (h its pre post : list A) x, h ++ its = pre ++ x :: post ->
  (exists q, h = pre ++ x :: q) \/ (exists p, pre = h ++ p /\ its = p ++ x :: post).
Proof.
  induction h as [|y h IH]; intros its pre post x E. { right. exists pre. auto. }
  destruct pre as [|z pre]; cbn in E; inversion E; subst. { left. exists h. auto. }
  destruct (IH _ _ _ _ H1) as [(q & ->)|(p & -> & ->)]; [left; exists q; auto|right; exists p; auto].
Qed.

Lemma steady_app : forall a b, steady (a ++ b) -> steady a /\ steady b.
Proof. intros a b [A B]. rewrite news_app in A. rewrite gone_app in B. apply app_eq_nil in A, B. unfold steady. tauto. Qed.

Lemma known_prefix : forall c h p x post k a, first_recv (p ++ x :: post) ->
  known_after c (h ++ p ++ x :: post) k a <-> known_after c (h ++ p ++ [x]) k a.
Proof.
  intros c h p x post k a FR. replace (h ++ p ++ x :: post) with ((h ++ p ++ [x]) ++ post) by (rewrite <- !app_assoc; auto).
  apply known_app. intros y Y. left. destruct p as [|z p]; cbn in FR; apply (FR _ _ eq_refl); auto. apply in_or_app; right; right; auto.
Qed.

Lemma trace_runs : forall f v c its w, wf_table (v_tbl v) -> runs f v c its w -> synced c its w /\ trace_ok c its.
Proof.
  intros f v c its w WT. revert its w. apply (runs_ind f v c (fun h w => synced c h w /\ trace_ok c h) WT).
  - intros d pos w0 S. split; [eapply synced_start; eauto|]. intros pre x post m ds E. destruct pre; discriminate.
  - intros h w its w' I [SY TR] A. pose proof (synced_act f v c h w its w' WT A I SY) as SY'. split; auto.
    destruct (act_routes f v w its w' WT A I) as (_ & FR & w2 & AL & I2 & RT).
    intros pre x post m ds E M. apply split_app in E. destruct E as [(q & E)|(p & -> & E)]. { eapply TR; eauto. }
    destruct (RT x m ds) as (ST & WM & RI). { rewrite E. apply in_or_app; right; left; auto. } { auto. } split; auto. rewrite <- app_assoc.
    assert (ST1 : steady (p ++ [x])). { rewrite E in ST. replace (p ++ x :: post) with ((p ++ [x]) ++ post) in ST by (rewrite <- app_assoc; auto). apply steady_app in ST. apply ST. }
    assert (SY2 : synced c (h ++ p ++ [x]) w2).
    { destruct AL as (A1 & A2 & A3 & A4). split.
      - rewrite <- A1, (sy_order _ _ _ SY'), !open_steady; auto.
      - rewrite <- A2. apply SY'.
      - rewrite <- A3. apply SY'.
      - intros i X. rewrite <- A3. apply (sy_gone _ _ _ SY'). rewrite gone_app in *. destruct ST1 as [_ ST1]. rewrite ST1, app_nil_r in X. apply in_or_app; auto.
      - intros i bs mm d dd X. rewrite <- A3. apply (sy_recv _ _ _ SY' i bs mm d dd). rewrite E. apply in_app_or in X. destruct X as [X|X]; apply in_or_app; auto. right. apply in_app_or in X. destruct X as [X|[X|[]]]; apply in_or_app; auto. right; left; auto.
      - intros k e L. specialize (A4 k). rewrite L in A4. destruct (lookup w' k) as [e'|] eqn:L'; [|tauto]. destruct A4 as (B1 & B2 & B3 & B4).
        destruct (sy_ep _ _ _ SY' k e' L') as (S1 & S2 & S3 & S4). split; [congruence|]. split; [rewrite <- B3; auto|]. split; [rewrite <- B4; auto|].
        intros a. rewrite <- B1, S4, E. rewrite E in FR. apply known_prefix. auto. }
    split; [|split].
    + intros B1 B2 k K. unfold routed_in in RI. rewrite RI in K. apply filter_In in K. destruct K as [K1 K2]. split. { rewrite <- (sy_order _ _ _ SY2). auto. }
      intros X. unfold accepts, verdict_of in K2. destruct (lookup w2 k) as [e|] eqn:L; [|discriminate]. apply (sy_ep _ _ _ SY2 k e L) in X. destruct X as (_ & _ & X).
      apply has_sys_comp_id_known in X; auto. unfold accept_msg in K2. rewrite X in K2. discriminate.
    + unfold routed_in in RI. rewrite RI. apply NoDup_filter. apply I2.
    + intros W SN. exists (accepts w2 m). rewrite <- (sy_order _ _ _ SY2). split; auto. intros k K. apply synced_accepts; auto.
Qed.

(* ---- received messages ----------------------------------------------------------------------------------------------- *)

Lemma act_recv_alive : forall f v w its w', wf_table (v_tbl v) -> act f v w its w' -> Inv w ->
  forall i bs m d ds, In (IRecv i bs m d ds) its -> lookup w' i <> None.
Proof.
  intros f v w its w' WT A I i bs m d ds X. destruct (act_cases f v w its w' WT A I) as [[N FO]|(w0 & j & e & p & K0 & _ & L & F & RL & WP & AC & SL & H)].
  { apply N in X. discriminate. }
  assert (I0 : Inv w0) by (eapply kept_inv; eauto).
  destruct (handle_cases f v w0 j e p w' its H I0 L F WP SL) as (d' & ds' & its' & EQ & NR & C). rewrite EQ in X. destruct X as [X|X]; [|apply NR in X; discriminate].
  inversion X; subst. destruct C as [(_ & _ & K)|[(_ & _ & _ & K)|(_ & _ & ? & ? & ? & ? & ? & _ & _ & _ & _ & _ & _ & _ & _ & _ & _ & _ & (e3 & e' & _ & L' & _) & _)]].
  - destruct (kept_lookup _ _ _ _ K L) as (e' & L' & _). congruence.
  - destruct (kept_lookup _ _ _ _ K L) as (e' & L' & _). congruence.
  - congruence.
Qed.

Definition filtered_ok (v : env) (c : config) (x : item) : Prop :=
  match x with
  | IRecv i bs m d ds =>
    (exists p, wf_packet p /\ acceptable (v_tbl v) p /\ bs = encode p /\ m = info_of (v_tbl v) p) /\
    (d <> Routed -> ds = []) /\ (d = Routed -> in_ok (filters_of c i) (letter_of m)) /\ (d = Refused -> ~ in_ok (filters_of c i) (letter_of m))
  | _ => True
  end.

Lemma filtered_runs : forall f v c its w, wf_table (v_tbl v) -> runs f v c its w -> Forall (filtered_ok v c) its.
Proof.
  intros f v c its w WT R. assert (X : synced c its w /\ Forall (filtered_ok v c) its); [|apply X]. revert its w R.
  apply (runs_ind f v c (fun h w => synced c h w /\ Forall (filtered_ok v c) h) WT).
  - intros d pos w0 S. split; [eapply synced_start; eauto|constructor].
  - intros h w its w' I [SY FO] A. pose proof (synced_act f v c h w its w' WT A I SY) as SY'. split; auto. apply Forall_app. split; auto.
    destruct (act_endpoints f v w its w' WT A I) as (_ & RO & _). apply Forall_forall. intros x X. destruct x; try exact Logic.I.
    rewrite Forall_forall in RO. pose proof (act_recv_alive f v w its w' WT A I _ _ _ _ _ X) as AL. destruct (lookup w' i) as [e|] eqn:L; [|congruence].
    destruct (RO _ X) as (_ & (p & P1 & P2 & P3 & P4) & _ & _ & DS & FI). cbn [filtered_ok]. split; [exists p; auto|]. split; auto.
    destruct (FI e L) as (F1 & F2 & _). destruct (sy_ep _ _ _ SY' i e L) as (S1 & _). rewrite <- S1.
    assert (WM : wf_meta m) by (subst m; apply wf_meta_info; auto). split; intros D; rewrite <- (allowed_in_spec _ _ WM); [auto|]. rewrite F2; auto; discriminate.
Qed.
