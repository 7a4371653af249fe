(* The counter of messages nobody took, over whole histories. *)
From Verif Require Import Base Mav SpecCrc SpecFrame Frame FrameProofs FrameRefine FrameLink Dedup SpecAccept Accept AcceptProofs Names Sys LogFile LogFileProofs ULog Loggers LogInv LogStep RouterCtl Router
  RouterRoute RouterRoute2 RouterSetup RouterActs RouterInv RouterLearn RouterStep RouterStart RouterHist SpecRouter RouterTrace.

Definition item_lost (w : world) (x : item) : bool :=
  match x with IRecv _ _ m Routed _ => unroutable w m | ICtl _ _ m _ => unroutable w m | _ => false end.
Definition all_lost (w : world) (its : list item) : Z := Z.of_nat (length (filter (item_lost w) its)).

Lemma verdict_alike : forall w w' m k, alike w w' -> verdict_of w' m k = verdict_of w m k.
Proof.
  intros w w' m k (A & B & _ & C). unfold verdict_of. specialize (C k). rewrite B. destruct (lookup w k), (lookup w' k); auto; try tauto.
  destruct C as (X & Y & _). congruence.
Qed.
Lemma unroutable_alike : forall w w' m, alike w w' -> unroutable w' m = unroutable w m.
Proof.
  intros w w' m A. unfold unroutable. rewrite (proj1 A). induction (w_order w) as [|k r IH]; auto. cbn [forallb]. rewrite IH. unfold rejects. rewrite (verdict_alike w w' m k A). auto.
Qed.
Lemma lost_alike : forall w w' its, alike w w' -> all_lost w' its = all_lost w its.
Proof.
  intros w w' its A. unfold all_lost. do 2 f_equal. apply filter_ext. intros x. destruct x; cbn; auto; [destruct d; auto|]; apply unroutable_alike; auto.
Qed.
Lemma all_lost_nil : forall w its, (forall x, In x its -> item_lost w x = false) -> all_lost w its = 0.
Proof.
  intros w its H. unfold all_lost. replace (filter (item_lost w) its) with (@nil item); auto. symmetry. induction its as [|x r IH]; auto. cbn [filter]. rewrite (H x) by (left; auto).
  apply IH. intros; apply H; right; auto.
Qed.
Lemma lost_ctls : forall w its, (forall x, In x its -> exists i bs m ds, x = ICtl i bs m ds) -> all_lost w its = lost_count w its.
Proof.
  intros w its H. unfold all_lost, lost_count. do 2 f_equal. apply filter_ext_in. intros x X. destruct (H x X) as (i & bs & m & ds & ->). auto.
Qed.

Lemma check_dup_unknown : forall v w pkt w' b, check_dup v w pkt = Ok (w', b) -> w_unknown w' = w_unknown w.
Proof.
  intros v w pkt w' b H. unfold check_dup in H. destruct (_ =? 0). { inversion H; auto. } destruct (ask _ _). inv_bind H. inversion H; auto.
Qed.

Lemma handle_unknown : forall f v w i e p w' its, handle_msg f v w i (info_of (v_tbl v) p) = Ok (w', its) -> Inv w -> lookup w i = Some e -> ep_fd e = true ->
  wf_packet p -> w_unknown w' = u32 (w_unknown w + all_lost w' its).
Proof.
  intros f v w i e p w' its H I L F WP. destruct (handle_inv _ _ _ _ _ _ _ H) as (e0 & pkt & w1 & fresh & L0 & SL0 & CD & C).
  rewrite L in L0. inversion L0; subst e0; clear L0. destruct (check_dup_eps _ _ _ _ _ CD) as [EE KD]. pose proof (check_dup_unknown _ _ _ _ _ CD) as U.
  destruct C as [(_ & -> & ->)|[(_ & AL & -> & ->)|(_ & AL & w2 & e2 & w3 & mem & ds & its' & e3 & LE & L2 & RT & L3 & -> & ->)]].
  - unfold all_lost. cbn. rewrite Z.add_0_r, U. symmetry. apply I.
  - unfold all_lost. cbn. rewrite Z.add_0_r, U. symmetry. apply I.
  - assert (I1 : Inv w1) by (eapply kept_inv; eauto).
    assert (L1 : lookup w1 i = Some e) by (unfold lookup in *; rewrite EE; auto).
    assert (NL : is_log e = false). { destruct (is_log e) eqn:G; auto. destruct (i_logs w I i e L G) as (_ & _ & X & _). congruence. }
    destruct (wf_meta_info (v_tbl v) p WP) as (B1 & B2 & _).
    assert (I2 : Inv w2) by (eapply learn_inv_world; eauto; unfold is_byte in *; lia).
    destruct (learn_exact _ _ _ _ _ _ LE I1 L1) as [T _].
    assert (U2 : w_unknown w2 = w_unknown w1) by (rewrite (ta_w _ _ _ T); auto).
    pose proof (kept_route _ _ _ _ _ _ _ _ _ RT) as K3.
    set (w' := put w3 i (set_rx e3 (mkRx mem (rx_len (ep_rx e3)) (rx_last (ep_rx e3))) (ep_rstat e3))).
    assert (A : alike w2 w').
    { eapply alike_trans; [apply kept_alike; eauto|]. split; [reflexivity|]. split; [reflexivity|]. split; [apply set_nth_length|]. intros k. destruct (Nat.eq_dec k i) as [->|NE].
      - unfold w'. rewrite L3, (lookup_put_eq _ _ _ _ L3). unfold like, is_log. auto.
      - unfold w'. rewrite lookup_put_neq by auto. destruct (lookup w3 k); auto. unfold like. auto. }
    pose proof (route_unknown _ _ _ _ _ _ _ _ _ _ (inv_logs _ I2) (i_unknown _ I2) RT) as RU. change (w_unknown w') with (w_unknown w3). rewrite RU, U2, U.
    rewrite (lost_alike _ _ _ A). f_equal. rewrite <- Z.add_assoc. f_equal.
    assert (IT : forall x, In x its' -> exists i bs m ds, x = ICtl i bs m ds).
    { intros x X. pose proof (route_items 0 _ _ _ _ _ _ _ _ _ (inv_logs _ I2) RT) as R. rewrite Forall_forall in R. destruct (R x X) as (j & cc & _ & _ & OK & dd & -> & Q). eauto. }
    rewrite <- (lost_ctls _ _ IT). unfold all_lost. cbn [filter item_lost]. destruct (unroutable w2 _); cbn [b2z length]; lia.
Qed.

Lemma log_cb_unknown : forall w i k f v w' its again, Inv w -> log_cb w i k f v = Ok (w', its, again) ->
  (forall g b y g' b' cs ag, k g b = Ok (y, g', b', cs, ag) -> Forall ctl_ok cs /\ is_ulog b' = is_ulog b) ->
  w_unknown w' = u32 (w_unknown w + lost_count w its).
Proof.
  intros w i k f v w' its again I H C. unfold log_cb in H. inv_bind H. apply get_lookup in E. rename a into e.
  assert (RP : forall y l l0, ep_kind e = KLog l0 -> same_logger l0 l -> routed w (put (set_sys w y) i (set_kind e (KLog l)))).
  { intros y l l0 K SL. eapply routed_put; eauto. eapply same_log_kind; eauto. }
  assert (GO : forall y l l0 cs w2 its, ep_kind e = KLog l0 -> same_logger l0 l -> Forall ctl_ok cs -> route_ctls (route_sub f v) (put (set_sys w y) i (set_kind e (KLog l))) i cs = Ok (w2, its) ->
     w_unknown w2 = u32 (w_unknown w + lost_count w its)).
  { intros y l l0 cs w2 it K SL CC R. rewrite <- (routed_lost _ _ _ (RP y l l0 K SL)).
    change (route_sub f v) with (nested 2 f v) in R. refine (ctls_unknown 1 f v cs _ _ _ _ (logs_routed _ _ (RP y l l0 K SL) (inv_logs _ I)) CC _ R). apply I. }
  destruct (ep_kind e) as [| | |[g b|a]] eqn:K; try discriminate.
  - inv_bind H. inv_bind H. inversion H; subst. apply C in E0. destruct E0 as [E0 EU]. refine (GO _ _ _ _ _ _ eq_refl _ E0 ltac:(eassumption)); first [exact EU|exact Logic.I].
  - destruct (a_inner a) as [[g b]|]; [|discriminate]. inv_bind H. inv_bind H. inversion H; subst. apply C in E0. destruct E0 as [E0 EU]. refine (GO _ _ _ _ _ _ eq_refl _ E0 ltac:(eassumption)); first [exact EU|exact Logic.I].
Qed.
Lemma aggregate_unknown : forall w w', cb_aggregate w = Ok w' -> w_unknown w' = 0.
Proof.
  intros w w' H. unfold cb_aggregate in H.
  assert (K : forall l u u', fold_left (fun rw i => let* w := rw in let* e := get w i in Ok (put w i (set_wstat e (ep_wtotal e) (ep_wbytes e) 0))) l (Ok u) = Ok u' -> w_unknown u' = w_unknown u).
  { assert (NU : forall l (s : res world), (forall u, s <> Ok u) -> forall u', fold_left (fun rw i => let* w := rw in let* e := get w i in Ok (put w i (set_wstat e (ep_wtotal e) (ep_wbytes e) 0))) l s <> Ok u').
    { induction l; intros s N u'; cbn [fold_left]; [apply N|]. apply IHl. intros u. destruct s; cbn; congruence || (exfalso; eapply N; eauto; fail). }
    induction l; intros u u' X; cbn [fold_left] in X. { inversion X; auto. }
    cbn [bind] in X. destruct (get u a) as [e| |] eqn:G; cbn [bind] in X; try (exfalso; eapply NU; [|exact X]; discriminate).
    rewrite (IHl _ _ X). auto. }
  rewrite (K _ _ _ H). auto.
Qed.
Lemma run_cb_unknown : forall f v w cb w' its again, Inv w -> run_cb f v w cb = Ok (w', its, again) ->
  (cb = CbAggregate /\ its = [] /\ w_unknown w' = 0) \/ (cb <> CbAggregate /\ w_unknown w' = u32 (w_unknown w + lost_count w its)).
Proof.
  intros f v w cb w' its again I H.
  assert (NIL : lost_count w [] = 0) by reflexivity.
  assert (EQ : forall w', w_unknown w' = w_unknown w -> w_unknown w' = u32 (w_unknown w + lost_count w [])).
  { intros q Q. rewrite NIL, Z.add_0_r, Q. symmetry. apply I. }
  destruct cb; cbn [run_cb] in H.
  - left. inv_bind H. inversion H; subst. split; auto. split; auto. eapply aggregate_unknown; eauto.
  - right. split; [discriminate|]. inversion H; subst. auto.
  - right. split; [discriminate|]. inv_bind H. inversion H; subst. apply EQ. unfold cb_baud in E. inv_bind E. match type of E with context [ep_kind ?q] => destruct (ep_kind q) as [[|]| | |]; try discriminate end.
    destruct (ask _ _). inversion E; auto.
  - right. split; [discriminate|]. inv_bind H. inversion H; subst. apply EQ. unfold cb_nomsg in E. inv_bind E. match type of E with context [ep_kind ?q] => destruct (ep_kind q) as [|? ? [|]| |]; try discriminate end.
    inv_bind E. inversion E; auto.
  - right. split; [discriminate|]. inv_bind H. inversion H; subst. apply EQ. unfold cb_retry in E. inv_bind E. match type of E with context [ep_kind ?q] => destruct (ep_kind q) as [| | |]; try discriminate end.
    destruct (ask _ _). destruct (_ <? 0); [inversion E; auto|]. unfold add_fd in E. destruct (ask _ _). inversion E; auto.
  - right. split; [discriminate|]. eapply log_cb_unknown; eauto. intros g b y g' b' cs ag Y. cbn in Y. destruct (lcb_start (w_sys w) g b) as [[y1 g1] cs1] eqn:E. inversion Y; subst. split; auto. eapply ctl_cb_start; eauto.
  - right. split; [discriminate|]. eapply log_cb_unknown; eauto. intros g b y g' b' cs ag Y. cbn in Y. inversion Y; subst. auto.
  - right. split; [discriminate|]. eapply log_cb_unknown; eauto. intros g b y g' b' cs ag Y. cbn in Y. inv_bind Y. inversion Y; subst. split; [eapply ctl_cb_alive; eauto|eapply alive_kind; eauto].
Qed.

Lemma conn_unknown : forall v w, w_unknown (fst (tcp_connection v w)) = w_unknown w /\ (forall x, In x (snd (tcp_connection v w)) -> exists i, x = INew i).
Proof.
  intros v w. unfold tcp_connection. destruct (ask v (w_sys w)) as [r y]. destruct (r <? 0). { split; [reflexivity|intros ? []]. }
  destruct (ask_bytes RXMAX v y) as [junk y1]. destruct (add_fd v _ _) as [y2 e2]. split; [reflexivity|]. intros x [<-|[]]. eauto.
Qed.

Definition resets (x : item) : Prop := exists t, x = IFire t CbAggregate.

Lemma act_unknown : forall f v w its w', wf_table (v_tbl v) -> act f v w its w' -> Inv w ->
  (exists t, its = [IFire t CbAggregate] /\ w_unknown w' = 0) \/
  ((forall x, In x its -> ~ resets x) /\ w_unknown w' = u32 (w_unknown w + all_lost w' its)).
Proof.
  intros f v w its w' WT A I.
  assert (PLAIN : (forall x, In x its -> (exists i o, x = IRead i o) \/ (exists i, x = INew i) \/ (exists i, x = IGone i)) -> w_unknown w' = w_unknown w ->
    (forall x, In x its -> ~ resets x) /\ w_unknown w' = u32 (w_unknown w + all_lost w' its)).
  { intros N U. split. { intros x X [t ->]. destruct (N _ X) as [(? & ? & ?)|[(? & ?)|(? & ?)]]; discriminate. }
    rewrite all_lost_nil. { rewrite Z.add_0_r, U. symmetry. apply I. } intros x X. destruct (N x X) as [(? & ? & ->)|[(? & ->)|(? & ->)]]; auto. }
  inversion A; subst; try (right; apply PLAIN; [intros ? []|reflexivity]; fail).
  - right. apply PLAIN. { intros x [<-|[]]. eauto. } destruct o as [bs from| |n]; cbn [os_read] in H3; try (inversion H3; auto; fail).
    destruct (ep_kind e); try (inversion H3; auto; fail). { inv_bind H3. inversion H3; auto. }
    destruct bs; [|inversion H3; auto]. destruct (_ =? 0)%nat; [inversion H3; auto|]. destruct (tcp_lost _ _ _ _ _). inversion H3; auto.
  - right. clear PLAIN. destruct (recv_before f v w i e rr x st known m w1 WT I H H0 H1 H2 H3 _ _ H4) as (K & DD & e1 & p & L1 & F1 & KE & RX & RL & P1 & P2 & P3 & P4 & P5).
    subst m. assert (I1 : Inv w1) by (eapply kept_inv; eauto). rewrite <- RX in P5.
    assert (U : w_unknown w1 = w_unknown w).
    { destruct known; [|inversion H3; auto]. unfold keep_baud in H3. destruct (ep_kind _) as [? ? [|]| | |]; try (inversion H3; auto; fail). inv_bind H3. inversion H3; auto. }
    rewrite <- U. split; [|eapply handle_unknown; eauto].
    destruct (act_routes f v w its w' WT A I) as (_ & FR & _). destruct (handle_cases f v w1 i e1 p w' its H4 I1 L1 F1 P1 P5) as (d & ds & its' & EQ & NR & C).
    rewrite EQ. intros y [<-|Y] [t Z]; [discriminate|]. subst y.
    destruct C as [(-> & DS & KK)|[(-> & DS & AL & KK)|(-> & AL & wa & w2 & w3 & e2 & mem & EE & K1 & LE & L2 & Ia & I2 & RT & _)]].
    1,2: destruct (handle_inv _ _ _ _ _ _ _ H4) as (e0 & pkt & w2 & fresh & _ & _ & _ & CC); rewrite EQ in CC;
      destruct CC as [(_ & _ & X)|[(_ & _ & _ & X)|(_ & _ & ? & ? & ? & ? & ? & ? & ? & _ & _ & _ & _ & _ & X)]]; inversion X; subst; destruct Y.
    pose proof (route_items 0 _ _ _ _ _ _ _ _ _ (inv_logs _ I2) RT) as R. rewrite Forall_forall in R. destruct (R _ Y) as (j & cc & _ & _ & OK & dd & Z & Q). discriminate.
  - right. destruct (conn_unknown v w) as [U N]. apply PLAIN; auto.
  - clear PLAIN. unfold timer_read in H. destruct (find_timer (w_sys w) t) as [tm|]; [|discriminate]. destruct (negb fired || tm_dead tm).
    { inversion H; subst. right. split; [intros ? []|]. unfold all_lost. cbn. rewrite Z.add_0_r. symmetry. apply I. }
    inv_bind H. inv_bind H. inversion H; subst. clear H.
    match goal with E : run_cb _ _ _ _ = Ok (?wa, ?la, _) |- _ => rename wa into w3, la into its; pose proof (run_cb_ctls _ _ _ _ _ _ _ (inv_logs _ I) E) as CT; pose proof (kept_run_cb _ _ _ _ _ _ _ E) as KR;
      destruct (run_cb_unknown _ _ _ _ _ _ _ I E) as [(Q & -> & U)|(Q & U)] end.
    + left. exists t. rewrite Q. split; auto.
    + right. split. { intros x [<-|X] [t' Z]. { inversion Z; subst. congruence. } subst x. destruct (CT _ X) as (? & ? & ? & (? & ? & _) & _). discriminate. }
      match goal with |- context [set_sys w3 ?q] => rename q into ys end.
      assert (AL : alike w (set_sys w3 ys)) by (apply kept_alike; eapply kept_trans; [exact KR|apply kept_sys]). rewrite (lost_alike _ _ _ AL). unfold all_lost. cbn [filter item_lost].
      fold (all_lost w its). rewrite lost_ctls. { exact U. } intros x X. destruct (CT x X) as (j & mm & dd & (bs & -> & _) & _). eauto.
  - right. apply PLAIN.
    + intros x X. unfold process_hangups in H. destruct (w_hang w); [|inversion H; subst; destruct X].
      inv_bind H. inversion H; subst; clear H. destruct (hangups_spec _ _ _ _ _ E (inv_sym _ I)) as (_ & _ & _ & D & _). subst its. apply in_map_iff in X. destruct X as (? & <- & _). eauto.
    + unfold process_hangups in H. destruct (w_hang w); [|inversion H; auto]. inv_bind H. inversion H; subst; clear H. cbn.
      assert (HU : forall l u u' o it, hangups u l = Ok (u', o, it) -> w_unknown u' = w_unknown u).
      { clear. induction l as [|j r IH]; intros u u' o it X; cbn [hangups] in X. { inversion X; auto. } inv_bind X. destruct (is_valid _).
        - inv_bind X. inversion X; subst. eauto.
        - inv_bind X. inversion X; subst. apply IH in E0. rewrite E0. destruct (held u j); auto. }
      eauto.
Qed.

(* ---- against the specification --------------------------------------------------------------------------------------- *)

Lemma synced_rejects : forall c h w m k, synced c h w -> Inv w -> wf_meta m -> 0 <= cf_sniffer c < 256 -> In k (w_order w) ->
  (rejects w m k = true <-> ~ wanted c h m k /\ ~ filtered_out c h m k).
Proof.
  intros c h w m k SY I WM SN IN. apply (i_alive w I) in IN. unfold rejects, verdict_of. destruct (lookup w k) as [e|] eqn:L; [|congruence].
  destruct (sy_ep _ _ _ SY k e L) as (S1 & _ & _ & S4). destruct (i_ids w I k e L) as [_ W]. rewrite (sy_sniffer _ _ _ SY).
  replace (u16 (cf_sniffer c)) with (cf_sniffer c) by (unfold u16; rewrite Z.mod_small; lia).
  pose proof (accept_spec (cf_sniffer c) (ep_ids e) (ep_filters e) m WM W SN) as AS. cbv zeta in AS. unfold wanted, filtered_out. rewrite <- S1.
  rewrite <- (S4 (lt_from (letter_of m))), <- (addressed_ext _ _ _ S4), <- (sniffs_ext _ _ _ S4).
  destruct (accept_msg _ _ _ _); split; try discriminate; tauto.
Qed.
Lemma synced_untaken : forall c h w m, synced c h w -> Inv w -> wf_meta m -> 0 <= cf_sniffer c < 256 ->
  (unroutable w m = true <-> untaken c h m).
Proof.
  intros c h w m SY I WM SN. unfold unroutable, untaken. rewrite forallb_forall, <- (sy_order _ _ _ SY). split; intros H k K; specialize (H k K);
    apply (synced_rejects c h w m k SY I WM SN K); auto.
Qed.

Lemma untaken_ext : forall c h h' m, open_after c h = open_after c h' -> (forall k a, known_after c h k a <-> known_after c h' k a) ->
  (untaken c h m <-> untaken c h' m).
Proof.
  intros c h h' m O K. unfold untaken, wanted, filtered_out. rewrite O.
  split; intros H k IN; specialize (H k IN); cbv zeta in *.
  - rewrite <- (K k (lt_from (letter_of m))), <- (addressed_ext _ _ _ (K k)), <- (sniffs_ext _ _ _ (K k)). auto.
  - rewrite (K k (lt_from (letter_of m))), (addressed_ext _ _ _ (K k)), (sniffs_ext _ _ _ (K k)). auto.
Qed.

Definition ctl_known (its : list item) : Prop := forall i bs m ds, In (ICtl i bs m ds) its -> wf_meta m.

Lemma lost_snoc : forall c w h its p n, synced c (h ++ its) w -> Inv w -> 0 <= cf_sniffer c < 256 -> ctl_known its ->
  (forall x m ds, In x its -> message x m ds -> steady its) -> first_recv its -> (forall x, In x its -> ~ resets x) ->
  (forall i bs m d ds, In (IRecv i bs m d ds) its -> wf_meta m) ->
  lost_since c h n -> forall q, its = p ++ q -> lost_since c (h ++ p) (n + all_lost w p).
Proof.
  intros c w h its p n SY I SN CK ST FR NR WM L. revert p. induction p as [|x p IH] using rev_ind; intros q E.
  - unfold all_lost. cbn. rewrite app_nil_r, Z.add_0_r. auto.
  - assert (IP : lost_since c (h ++ p) (n + all_lost w p)). { apply (IH ([x] ++ q)). rewrite E, <- app_assoc. auto. }
    assert (IN : In x its) by (rewrite E; apply in_or_app; left; apply in_or_app; right; left; auto).
    assert (LA : all_lost w (p ++ [x]) = all_lost w p + (if item_lost w x then 1 else 0)).
    { unfold all_lost. rewrite filter_app, app_length. cbn [filter]. destruct (item_lost w x); cbn [length]; lia. }
    rewrite LA, app_assoc.
    assert (UT : forall m ds, message x m ds -> wf_meta m /\ item_lost w x = unroutable w m /\ (unroutable w m = true <-> untaken c ((h ++ p) ++ [x]) m)).
    { intros m ds M. assert (W : wf_meta m). { destruct M as [(? & ? & ->)|(? & ? & ->)]; [eapply WM|eapply CK]; eauto. }
      split; auto. split. { destruct M as [(? & ? & ->)|(? & ? & ->)]; auto. }
      rewrite (synced_untaken _ _ _ _ SY I W SN). pose proof (ST _ _ _ IN M) as S. rewrite <- app_assoc. apply untaken_ext.
      - assert (ST1 : steady (p ++ [x])) by (rewrite E in S; apply steady_app in S; apply S). rewrite !open_steady; auto.
      - intros k a. replace its with (p ++ x :: q) in * by (rewrite E, <- app_assoc; auto). apply known_prefix. auto. }
    destruct (item_lost w x) eqn:IL.
    + assert (M : exists m ds, message x m ds). { destruct x; try discriminate; cbn in IL; [destruct d; try discriminate|]; unfold message; eauto 7. }
      destruct M as (m & ds & M). destruct (UT m ds M) as (W & U & V). rewrite Z.add_assoc. eapply ls_lost; eauto. apply V. auto.
    + rewrite Z.add_0_r. apply ls_other; auto.
      * intros m ds M. destruct (UT m ds M) as (W & U & V). rewrite <- V, <- U. discriminate.
      * intros t ->. apply (NR _ IN). exists t. auto.
Qed.

Theorem lost_runs : forall f v c its w, wf_table (v_tbl v) -> 0 <= cf_sniffer c < 256 -> runs f v c its w -> ctl_known its ->
  exists n, lost_since c its n /\ w_unknown w = u32 n.
Proof.
  intros f v c its w WT SN R. assert (X : synced c its w /\ (ctl_known its -> exists n, lost_since c its n /\ w_unknown w = u32 n)); [|apply X]. revert its w R.
  apply (runs_ind f v c (fun h w => synced c h w /\ (ctl_known h -> exists n, lost_since c h n /\ w_unknown w = u32 n)) WT).
  - intros d pos w0 S. split; [eapply synced_start; eauto|]. intros _. exists 0. split; [constructor|]. 
    destruct (start_shape _ _ _ _ S) as (es & ls & _ & _ & _ & _ & X & _). rewrite X. reflexivity.
  - intros h w its w' I [SY IH] A. pose proof (synced_act f v c h w its w' WT A I SY) as SY'. split; auto. intros CK.
    destruct IH as (n & L & U). { intros i bs m ds X. apply (CK i bs m ds). apply in_or_app; auto. }
    assert (I' : Inv w') by (eapply inv_act; eauto).
    destruct (act_unknown f v w its w' WT A I) as [(t & -> & U')|(NR & U')].
    + exists 0. split; [apply ls_report|auto].
    + destruct (act_routes f v w its w' WT A I) as (_ & FR & w2 & AL & I2 & RT).
      exists (n + all_lost w' its). split.
      * apply (lost_snoc c w' h its its n SY' I' SN) with (q := []); auto using app_nil_r.
        { intros i bs m ds X. apply (CK i bs m ds). apply in_or_app; auto. }
        { intros x m ds X M. apply (RT x m ds X M). }
        { intros i bs m d ds X. apply (sy_recv _ _ _ SY' i bs m d ds). apply in_or_app; auto. }
      * rewrite U', U. apply (u32_add 0 n (all_lost w' its)).
Qed.

(* the specification determines the number *)
Lemma snoc_inj : forall A (a b : list A) x y, a ++ [x] = b ++ [y] -> a = b /\ x = y.
Proof. intros. apply app_inj_tail in H. auto. Qed.
Lemma lost_unique : forall c h n, lost_since c h n -> forall n', lost_since c h n' -> n = n'.
Proof.
  intros c h n H. induction H; intros n' H'; inversion H'; subst; auto;
    repeat match goal with
    | E : [] = _ ++ [_] |- _ => symmetry in E; apply app_eq_nil in E; destruct E; discriminate
    | E : _ ++ [_] = [] |- _ => apply app_eq_nil in E; destruct E; discriminate
    | E : _ ++ [_] = _ ++ [_] |- _ => apply snoc_inj in E; destruct E; subst
    end; auto; try congruence;
    try match goal with
    | M : message (IFire _ _) _ _ |- _ => destruct M as [(? & ? & ?)|(? & ? & ?)]; discriminate
    | N : forall t, IFire ?a CbAggregate <> IFire t CbAggregate |- _ => exfalso; apply (N a); reflexivity
    | A : message ?x ?m ?d, U : untaken c (?h ++ [?x]) ?m, N : forall m ds, message ?x m ds -> ~ _ |- _ => exfalso; exact (N m d A U)
    end.
  f_equal. auto.
Qed.
