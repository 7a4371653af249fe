(* What a history says about the state: received messages and known systems. *)
From Verif Require Import Base Mav SpecFrame Frame FrameProofs FrameRefine FrameLink Dedup SpecAccept Accept AcceptProofs Names Sys LogFile LogFileProofs ULog Loggers LogInv LogStep RouterCtl Router RouterRoute RouterRoute2 RouterSetup RouterActs RouterInv RouterLearn RouterStep RouterStart.

Definition is_recv (x : item) : bool := match x with IRecv _ _ _ _ _ => true | _ => false end.
Definition no_recv (its : list item) : Prop := forall x, In x its -> is_recv x = false.

Lemma ctls_no_recv : forall f v w i cs w' its, logs_ok w -> Forall ctl_ok cs -> route_ctls (route_sub f v) w i cs = Ok (w', its) -> no_recv its.
Proof.
  intros f v w i cs w' its L C H. destruct (ctls_items 1 f v cs w i w' its L C H) as [F _]. intros x X. clear - F X.
  induction F; [destruct X|]. destruct X as [<-|X]; auto. destruct H as (ds & -> & _). reflexivity.
Qed.
Lemma route_no_recv : forall f v w mem m w' mem' ds its, logs_ok w -> route NEST f v w mem m = Ok (w', mem', ds, its) -> no_recv its.
Proof.
  intros f v w mem m w' mem' ds its L H x X. apply (route_items 0) in H; auto. rewrite Forall_forall in H. destruct (H x X) as (i & c & _ & _ & _ & ds' & -> & _). reflexivity.
Qed.

Lemma log_cb_no_recv : forall w i k f v w' its again, logs_ok w -> log_cb w i k f v = Ok (w', its, again) ->
  (forall g b y g' b' cs ag, k g b = Ok (y, g', b', cs, ag) -> Forall ctl_ok cs /\ is_ulog b' = is_ulog b) -> no_recv its.
Proof.
  intros w i k f v w' its again L H C. unfold log_cb in H. inv_bind H. apply get_lookup in E. rename a into e.
  assert (LP : forall y l l0, ep_kind e = KLog l0 -> same_logger l0 l -> logs_ok (put (set_sys w y) i (set_kind e (KLog l)))).
  { intros y l l0 K SL. eapply logs_routed; [|exact L]. eapply routed_put; eauto. eapply same_log_kind; eauto. }
  destruct (ep_kind e) as [| | |[g b|a]] eqn:K; try discriminate.
  - inv_bind H. inv_bind H. inversion H; subst. apply C in E0. destruct E0 as [E0 EU]. eapply ctls_no_recv; [|exact E0|eassumption]; eapply LP; [reflexivity|first [exact EU|exact Logic.I]].
  - destruct (a_inner a) as [[g b]|]; [|discriminate]. inv_bind H. inv_bind H. inversion H; subst. apply C in E0. destruct E0 as [E0 EU]. eapply ctls_no_recv; [|exact E0|eassumption]; eapply LP; [reflexivity|first [exact EU|exact Logic.I]].
Qed.
Lemma run_cb_no_recv : forall f v w cb w' its again, logs_ok w -> run_cb f v w cb = Ok (w', its, again) -> no_recv its.
Proof.
  intros f v w cb w' its again L H. destruct cb; cbn [run_cb] in H; try (inv_bind H; inversion H; subst; intros ? []; fail).
  - inversion H; subst; intros ? [].
  - eapply log_cb_no_recv; eauto. intros g b y g' b' cs ag X. cbn in X. destruct (lcb_start (w_sys w) g b) as [[y1 g1] cs1] eqn:E. inversion X; subst. split; auto. eapply ctl_cb_start; eauto.
  - eapply log_cb_no_recv; eauto. intros g b y g' b' cs ag X. cbn in X. inversion X; subst. auto.
  - eapply log_cb_no_recv; eauto. intros g b y g' b' cs ag X. cbn in X. inv_bind X. inversion X; subst. split; [eapply ctl_cb_alive; eauto|eapply alive_kind; eauto].
Qed.
Lemma timer_no_recv : forall f v w t fired w' its, logs_ok w -> timer_read f v w t fired = Ok (w', its) -> no_recv its.
Proof.
  intros f v w t fired w' its L H. unfold timer_read in H. destruct (find_timer _ _); [|discriminate].
  destruct (_ || _). { inversion H; subst. intros ? []. }
  inv_bind H. inv_bind H. inversion H; subst. intros x [<-|X]; auto. eapply run_cb_no_recv; eauto.
Qed.

(* ---- two kinds of acts ------------------------------------------------------------------------------------ *)

Definition new_client (e : ep) : Prop :=
  ep_ids e = [] /\ ep_members e = [] /\ is_log e = false /\ ep_group e = [] /\ ep_filters e = no_filters.

(* endpoints of w' come from those of w or are new clients *)
Definition from_old (w w' : world) : Prop :=
  (length (w_eps w) <= length (w_eps w'))%nat /\
  forall k e', lookup w' k = Some e' -> (exists e, lookup w k = Some e /\ kept_ep e e') \/ ((length (w_eps w) <= k)%nat /\ new_client e').

Lemma kept_from_old : forall w w', kept w w' -> from_old w w'.
Proof.
  intros w w' K. split. { rewrite (kp_len _ _ K). auto. } intros k e' L. left. destruct (kept_lookup_rev _ _ _ _ K L) as (e & L0 & KE). eauto.
Qed.

Lemma hangups_from_old : forall w w' its, process_hangups w = Ok (w', its) -> Inv w -> from_old w w' /\ no_recv its.
Proof.
  intros w w' its H I. unfold process_hangups in H. destruct (w_hang w).
  - inv_bind H. inversion H; subst; clear H. destruct (hangups_spec _ _ _ _ _ E (inv_sym _ I)) as (A & B & C & D & F). split.
    + split. { cbn. rewrite B. auto. } intros k e' L. left. change (lookup w0 k = Some e') in L. rewrite F in L. destruct (_ && _); [discriminate|]. exists e'. split; auto. apply kept_ep_refl.
    + intros x X. rewrite D in X. apply in_map_iff in X. destruct X as (i & <- & _). reflexivity.
  - inversion H; subst. split; [apply kept_from_old, kept_refl|intros ? []].
Qed.

Lemma conn_from_old : forall v w, from_old w (fst (tcp_connection v w)) /\ no_recv (snd (tcp_connection v w)).
Proof.
  intros v w. unfold tcp_connection. destruct (ask v (w_sys w)) as [r y]. destruct (r <? 0). { split; [apply kept_from_old, kept_sys|intros ? []]. }
  destruct (ask_bytes RXMAX v y) as [junk y1]. unfold add_fd. destruct (ask v y1) as [q y2]. cbn [fst snd]. split; [|intros ? [<-|[]]; auto].
  set (e := set_fd _ _ _). set (w' := set_order _ _). split. { unfold w'. cbn. rewrite app_length. lia. }
  intros k e' L. pose proof (lookup_len _ _ _ L) as LL. unfold w' in LL. cbn in LL. rewrite app_length in LL. cbn in LL.
  destruct (Nat.eq_dec k (length (w_eps w))) as [->|N].
  - right. split; auto. unfold lookup, w' in L. cbn in L. rewrite nth_error_app2, Nat.sub_diag in L by lia. cbn in L. inversion L; subst. repeat split.
  - left. exists e'. split; [|apply kept_ep_refl]. rewrite <- L. symmetry. apply (lookup_app w [Some e]); auto. lia.
Qed.

Lemma act_cases : forall f v w its w', wf_table (v_tbl v) -> act f v w its w' -> Inv w ->
  (no_recv its /\ from_old w w') \/
  (exists w1 i e p, kept w w1 /\ w_dedup w1 = w_dedup w /\ lookup w1 i = Some e /\ ep_fd e = true /\ rx_last (ep_rx e) <> 0%nat /\ wf_packet p /\ acceptable (v_tbl v) p /\
     slice (rx_data (ep_rx e)) 0 (m_len (info_of (v_tbl v) p)) = Ok (encode p) /\ handle_msg f v w1 i (info_of (v_tbl v) p) = Ok (w', its)).
Proof.
  intros f v w its w' WT A I. inversion A; subst.
  - left. split. { intros ? [<-|[]]; auto. } apply kept_from_old. eapply kept_os_read; eauto.
  - left. split. { intros ? []. } apply kept_from_old. eapply kept_put0; eauto. apply kept_set_rx. intros X. eapply read_msg_ok; eauto.
  - right. destruct (recv_before f v w i e rr x st known m w1 WT I H H0 H1 H2 H3 _ _ H4) as (K & DD & e1 & p & L1 & F1 & KE & RX & RL & P1 & P2 & P3 & P4 & P5).
    exists w1, i, e1, p. subst m. rewrite RX. do 7 (split; [auto|]). split; auto.
  - left. destruct (conn_from_old v w). auto.
  - left. split. { intros ? []. } apply kept_from_old. eapply kept_put; eauto. eapply kept_mod_fd; eauto.
  - left. split. { eapply timer_no_recv; eauto using inv_logs. } apply kept_from_old. eapply kept_timer; eauto.
  - left. split. { intros ? []. } apply kept_from_old. apply kept_exit.
  - left. split. { intros ? []. } apply kept_from_old. apply kept_hang.
  - left. destruct (hangups_from_old _ _ _ H I). auto.
  - left. split. { intros ? []. } apply kept_from_old. apply kept_sys.
Qed.

(* a received message: what becomes of it *)
Lemma handle_cases : forall f v w i e p w' its, handle_msg f v w i (info_of (v_tbl v) p) = Ok (w', its) -> Inv w -> lookup w i = Some e -> ep_fd e = true ->
  wf_packet p -> slice (rx_data (ep_rx e)) 0 (m_len (info_of (v_tbl v) p)) = Ok (encode p) ->
  let m := info_of (v_tbl v) p in
  exists d ds its', its = IRecv i (encode p) m d ds :: its' /\ no_recv its' /\
  ((d = Duplicate /\ ds = [] /\ kept w w') \/
   (d = Refused /\ ds = [] /\ allowed_in (ep_filters e) m = false /\ kept w w') \/
   (d = Routed /\ allowed_in (ep_filters e) m = true /\ exists w1 w2 w3 e2 mem, w_eps w1 = w_eps w /\ kept w w1 /\
      learn (Datatypes.S (length (w_eps w1))) w1 i (sender m) = Ok w2 /\ lookup w2 i = Some e2 /\ Inv w1 /\ Inv w2 /\
      route NEST f v w2 (rx_data (ep_rx e2)) m = Ok (w3, mem, ds, its') /\
      w_order w' = w_order w3 /\ w_sniffer w' = w_sniffer w3 /\ w_dedup w' = w_dedup w3 /\ (forall k, k <> i -> lookup w' k = lookup w3 k) /\
      (exists e3 e', lookup w3 i = Some e3 /\ lookup w' i = Some e' /\ ep_ids e' = ep_ids e3 /\ ep_filters e' = ep_filters e3 /\ ep_group e' = ep_group e3 /\
                   ep_members e' = ep_members e3 /\ ep_kind e' = ep_kind e3) /\ length (w_eps w') = length (w_eps w3))).
Proof.
  intros f v w i e p w' its H I L F WP SL m. destruct (handle_inv _ _ _ _ _ _ _ H) as (e0 & pkt & w1 & fresh & L0 & SL0 & CD & C).
  rewrite L in L0. inversion L0; subst e0; clear L0. rewrite SL in SL0. inversion SL0; subst pkt; clear SL0.
  destruct (check_dup_eps _ _ _ _ _ CD) as [EE KD].
  destruct C as [(_ & -> & ->)|[(_ & AL & -> & ->)|(_ & AL & w2 & e2 & w3 & mem & ds & its' & e3 & LE & L2 & RT & L3 & -> & ->)]].
  - exists Duplicate, [], []. split; auto. split; [intros ? []|]. left. auto.
  - exists Refused, [], []. split; auto. split; [intros ? []|]. right; left. auto.
  - assert (I1 : Inv w1) by (eapply kept_inv; eauto).
    assert (L1 : lookup w1 i = Some e) by (unfold lookup in *; rewrite EE; auto).
    assert (NL : is_log e = false). { destruct (is_log e) eqn:G; auto. destruct (i_logs w I i e L G) as (_ & _ & X & _). congruence. }
    destruct (wf_meta_info (v_tbl v) p WP) as (B1 & B2 & _).
    assert (I2 : Inv w2) by (eapply learn_inv_world; eauto; unfold is_byte in *; lia).
    exists Routed, ds, its'. split; auto. split. { eapply route_no_recv; [|exact RT]. apply inv_logs; auto. }
    right; right. split; auto. split; auto. exists w1, w2, w3, e2, mem. do 7 (split; [auto|]).
    do 3 (split; [reflexivity|]). split. { intros k N. rewrite lookup_put_neq; auto. }
    split. { eexists e3, _. split; [exact L3|]. split; [exact (lookup_put_eq _ _ _ _ L3)|]. auto 10. }
    cbn. apply set_nth_length.
Qed.

(* ---- received messages: C12, C14, C16 ------------------------------------------------------------------------ *)

Definition recv_ok (v : env) (w : world) (x : item) : Prop :=
  match x with
  | IRecv i bs m d ds =>
    (i < length (w_eps w))%nat /\
    (exists p, wf_packet p /\ acceptable (v_tbl v) p /\ bs = encode p /\ m = info_of (v_tbl v) p) /\
    ~ In i (map dl_to ds) /\ NoDup (map dl_to ds) /\ (d <> Routed -> ds = []) /\
    (forall e, lookup w i = Some e ->
       (d = Routed -> allowed_in (ep_filters e) m = true) /\ (d = Refused -> allowed_in (ep_filters e) m = false) /\
       (forall j, In j (ep_members e) -> ~ In j (map dl_to ds)))
  | _ => True
  end.

Lemma recv_old : forall v w w' x, from_old w w' -> recv_ok v w x -> recv_ok v w' x.
Proof.
  intros v w w' x [LL FO] R. destruct x; auto. destruct R as (A & B & C & D & E & F). cbn [recv_ok]. split; [lia|]. do 4 (split; [auto|]).
  intros e' L. destruct (FO _ _ L) as [(e & L0 & KE)|(N & _)]; [|lia]. rewrite (ke_filters _ _ KE), (ke_members _ _ KE). auto.
Qed.
Lemma no_recv_ok : forall v w its, no_recv its -> Forall (recv_ok v w) its.
Proof. intros v w its N. apply Forall_forall. intros x X. apply N in X. destruct x; try exact I. discriminate. Qed.

(* a message from i is accepted neither by i nor by its group, once learned *)
Lemma knows_rejects : forall w m i e, lookup w i = Some e -> wf_meta m -> In (sender m) (ep_ids e) -> accepts w m i = false.
Proof.
  intros w m i e L (B1 & B2 & _) K. unfold accepts, verdict_of. rewrite L. unfold accept_msg.
  replace (has_sys_comp_id (ep_ids e) (m_ssys m) (m_scomp m)) with true; auto. symmetry. apply has_sys_comp_id_known; auto.
Qed.

Lemma lookup_same_eps : forall w w' k, w_eps w' = w_eps w -> lookup w' k = lookup w k.
Proof. intros w w' k E. unfold lookup. rewrite E. auto. Qed.

Lemma kept_from_handle : forall f v w2 mem m w3 mem' ds its' w' i, route NEST f v w2 mem m = Ok (w3, mem', ds, its') ->
  (forall k, k <> i -> lookup w' k = lookup w3 k) ->
  (forall e', lookup w' i = Some e' -> exists e3, lookup w3 i = Some e3 /\ ep_ids e' = ep_ids e3 /\ ep_filters e' = ep_filters e3 /\ ep_group e' = ep_group e3 /\
                   ep_members e' = ep_members e3 /\ ep_kind e' = ep_kind e3) -> 
  forall k e', lookup w' k = Some e' -> exists e2, lookup w2 k = Some e2 /\ ep_ids e' = ep_ids e2 /\ ep_filters e' = ep_filters e2 /\ ep_group e' = ep_group e2 /\
                   ep_members e' = ep_members e2 /\ is_log e' = is_log e2.
Proof.
  intros f v w2 mem m w3 mem' ds its' w' i RT N S k e' L. pose proof (kept_route _ _ _ _ _ _ _ _ _ RT) as K.
  assert (X : exists e3, lookup w3 k = Some e3 /\ ep_ids e' = ep_ids e3 /\ ep_filters e' = ep_filters e3 /\ ep_group e' = ep_group e3 /\ ep_members e' = ep_members e3 /\ is_log e' = is_log e3).
  { destruct (Nat.eq_dec k i) as [->|NE]. { destruct (S _ L) as (e3 & L3 & A & B & C & D & E). exists e3. unfold is_log. rewrite E. auto 10. }
    rewrite N in L by auto. exists e'. auto 10. }
  destruct X as (e3 & L3 & A & B & C & D & E). destruct (kept_lookup_rev _ _ _ _ K L3) as (e2 & L2 & KE). exists e2.
  rewrite A, B, C, D, E, (ke_ids _ _ KE), (ke_filters _ _ KE), (ke_group _ _ KE), (ke_members _ _ KE), (class_log _ _ (ke_kind _ _ KE)). auto 10.
Qed.


(* how an act that receives a message changes what the endpoints know *)
Lemma act_endpoints : forall f v w its w', wf_table (v_tbl v) -> act f v w its w' -> Inv w ->
  (length (w_eps w) <= length (w_eps w'))%nat /\ Forall (recv_ok v w') its /\
  (forall k e', lookup w' k = Some e' ->
     (exists e, lookup w k = Some e /\ ep_filters e' = ep_filters e /\ ep_members e' = ep_members e /\ ep_group e' = ep_group e /\ is_log e' = is_log e /\
        (exists l, ep_ids e' = ep_ids e ++ l) /\
        (forall x, In x (ep_ids e') <-> In x (ep_ids e) \/ exists i bs m ds, In (IRecv i bs m Routed ds) its /\ x = sender m /\ (i = k \/ In i (ep_members e)))) \/
     ((length (w_eps w) <= k)%nat /\ new_client e' /\ no_recv its)).
Proof.
  intros f v w its w' WT A I. destruct (act_cases f v w its w' WT A I) as [[N FO]|(w0 & i & e & p & K0 & _ & L & F & RL & WP & AC & SL & H)].
  - split; [apply FO|]. split; [apply no_recv_ok; auto|]. intros k e' L'. destruct FO as [LL FO]. destruct (FO _ _ L') as [(e & L0 & KE)|(Q & R)].
    + left. exists e. pose proof (class_log _ _ (ke_kind _ _ KE)). pose proof (ke_ids _ _ KE) as EI. pose proof (ke_filters _ _ KE). pose proof (ke_members _ _ KE). pose proof (ke_group _ _ KE). do 5 (split; [auto|]). split. { exists []. rewrite app_nil_r. auto. }
      intros x. rewrite EI. split; auto. intros [X|(i & bs & m & ds & X & _)]; auto. apply N in X. discriminate.
    + right. auto.
  - assert (I0 : Inv w0) by (eapply kept_inv; eauto).
    destruct (handle_cases f v w0 i e p w' its H I0 L F WP SL) as (d & ds & its' & EQ & NR & C). set (m := info_of (v_tbl v) p) in *.
    assert (WM : wf_meta m) by (apply wf_meta_info; auto).
    assert (LI : (i < length (w_eps w0))%nat) by (eapply lookup_len; eauto).
    assert (EASY : d <> Routed -> ds = [] -> kept w0 w' -> (d = Refused -> allowed_in (ep_filters e) m = false) ->
      (length (w_eps w) <= length (w_eps w'))%nat /\ Forall (recv_ok v w') its /\
      (forall k e', lookup w' k = Some e' ->
         (exists e, lookup w k = Some e /\ ep_filters e' = ep_filters e /\ ep_members e' = ep_members e /\ ep_group e' = ep_group e /\ is_log e' = is_log e /\
            (exists l, ep_ids e' = ep_ids e ++ l) /\
            (forall x, In x (ep_ids e') <-> In x (ep_ids e) \/ exists i bs m ds, In (IRecv i bs m Routed ds) its /\ x = sender m /\ (i = k \/ In i (ep_members e)))) \/
         ((length (w_eps w) <= k)%nat /\ new_client e' /\ no_recv its))).
    { intros D DS K AL. assert (KW : kept w w') by (eapply kept_trans; eauto). rewrite EQ. subst ds.
      split. { rewrite (kp_len _ _ KW). auto. } split.
      - constructor; [|apply no_recv_ok; auto]. cbn [recv_ok map]. split. { rewrite (kp_len _ _ K). auto. } split. { exists p. auto. }
        split; [intros []|]. split; [constructor|]. split; auto. intros e' L'. destruct (kept_lookup _ _ _ _ K L) as (e2 & L2 & KE). rewrite L' in L2. inversion L2; subst e2.
        rewrite (ke_filters _ _ KE). split; [congruence|]. split; auto.
      - intros k e' L'. left. destruct (kept_lookup_rev _ _ _ _ KW L') as (e2 & L2 & KE). exists e2. pose proof (class_log _ _ (ke_kind _ _ KE)). pose proof (ke_ids _ _ KE) as EI. pose proof (ke_filters _ _ KE). pose proof (ke_members _ _ KE). pose proof (ke_group _ _ KE).
        do 5 (split; [auto|]). split. { exists []. rewrite app_nil_r. auto. }
        intros x. rewrite EI. split; auto. intros [X|(q & bs & mm & dd & X & _)]; auto. destruct X as [X|X]; [congruence|apply NR in X; discriminate]. }
    destruct C as [(-> & DS & K)|[(-> & DS & AL & K)|(-> & AL & w1 & w2 & w3 & e2 & mem & EE & K1 & LE & L2 & I1 & I2 & RT & _ & _ & _ & O1 & O2' & O3)]].
    + apply EASY; auto; congruence.
    + apply EASY; auto; congruence.
    + clear EASY. assert (L1 : lookup w1 i = Some e) by (rewrite <- L; apply lookup_same_eps; auto).
      destruct (learn_exact _ _ _ _ _ _ LE I1 L1) as [T EX].
      assert (O2 : forall e', lookup w' i = Some e' -> exists e3, lookup w3 i = Some e3 /\ ep_ids e' = ep_ids e3 /\ ep_filters e' = ep_filters e3 /\ ep_group e' = ep_group e3 /\
                   ep_members e' = ep_members e3 /\ ep_kind e' = ep_kind e3).
      { intros e' L'. destruct O2' as (e3 & e4 & X1 & X2 & X3). exists e3. split; auto. rewrite X2 in L'. inversion L'; subst; auto. }
      pose proof (kept_from_handle _ _ _ _ _ _ _ _ _ _ _ RT O1 O2) as BACK.
      pose proof (route_spec _ _ _ _ _ _ _ _ _ _ RT) as (RO & _ & DT & _). pose proof (kept_route _ _ _ _ _ _ _ _ _ RT) as K3.
      assert (LEN : length (w_eps w') = length (w_eps w)).
      { rewrite O3, (kp_len _ _ K3), (ta_len _ _ _ T), EE, (kp_len _ _ K0). auto. }
      split; [lia|]. split.
      * rewrite EQ. constructor; [|apply no_recv_ok; auto]. cbn [recv_ok]. split. { rewrite LEN, <- (kp_len _ _ K0). auto. } split. { exists p; auto. }
        assert (NOGRP : forall j ej, lookup w1 j = Some ej -> (j = i \/ grouped e ej) -> ~ In j (map dl_to ds)).
        { intros j ej LJ G X. rewrite DT in X. apply filter_In in X. destruct X as [_ X]. destruct (EX j ej LJ) as (ej2 & LJ2 & Q & _).
          rewrite (knows_rejects w2 m j ej2 LJ2 WM (Q G)) in X. discriminate. }
        split. { apply (NOGRP i e L1). auto. }
        split. { rewrite DT. apply NoDup_filter. apply I2. } split; [congruence|].
        intros e' L'. destruct (BACK _ _ L') as (e2' & L2' & B1 & B2 & B3 & B4 & B5). rewrite L2 in L2'. inversion L2'; subst e2'.
        destruct (taught_lookup _ _ _ _ _ T L1) as (x & LX & TX). rewrite L2 in LX. inversion LX; subst x. apply taught_ep_fields in TX. destruct TX as (T1 & T2 & T3 & _).
        rewrite B2, T3. split; auto. split; [congruence|]. intros j J. rewrite B4, T2 in J. destruct (i_mem w1 I1 i e j L1 J) as (_ & ej & LJ & GJ). apply (NOGRP j ej LJ). auto.
      * intros k e' L'. left. destruct (BACK _ _ L') as (ek2 & LK2 & B1 & B2 & B3 & B4 & B5).
        destruct (taught_lookup_rev _ _ _ _ _ T LK2) as (ek1 & LK1 & TK). rewrite (lookup_same_eps w0 w1 k EE) in LK1.
        destruct (kept_lookup_rev _ _ _ _ K0 LK1) as (ek & LK & KE). exists ek. split; auto.
        pose proof (taught_ep_fields _ _ _ TK) as (T1 & T2 & T3 & T4 & _). pose proof (class_log _ _ (ke_kind _ _ KE)) as CL.
        assert (LG : is_log ek2 = is_log ek1) by (unfold is_log; rewrite T4; auto).
        split. { rewrite B2, T3. apply KE. } split. { rewrite B4, T2. apply KE. } split. { rewrite B3, T1. apply KE. } split. { congruence. }
        rewrite <- (lookup_same_eps w0 w1 k EE) in LK1.
        destruct (EX k ek1 LK1) as (ek2' & LK2' & Q1 & Q2 & Q3). rewrite LK2 in LK2'. inversion LK2'; subst ek2'.
        split. { rewrite B1. destruct TK as [->|[-> _]]. - exists []. rewrite app_nil_r. apply KE. - exists [sender m]. cbn. rewrite (ke_ids _ _ KE). auto. }
        assert (GM : grouped e ek1 <-> (k <> i /\ In i (ep_members ek)) \/ (k = i /\ grouped e ek1)).
        { rewrite <- (ke_members _ _ KE). split.
          - intros G. destruct (Nat.eq_dec k i); auto. left. split; auto. eapply (i_clique w1 I1); eauto using grouped_sym.
          - intros [[N X]|[_ X]]; auto. destruct (i_mem w1 I1 k ek1 i LK1 X) as (_ & ei & LI2 & G). rewrite L1 in LI2. inversion LI2; subst ei. apply grouped_sym; auto. }
        assert (TO : (i = k \/ In i (ep_members ek)) <-> (k = i \/ grouped e ek1)).
        { rewrite GM. split.
          - intros [->|X]; auto. destruct (Nat.eq_dec k i); auto.
          - intros [->|[[_ X]|[-> X]]]; auto. }
        intros x. rewrite B1, EQ. split.
        -- intros X. destruct TK as [->|[-> NX]]. { left. rewrite <- (ke_ids _ _ KE). auto. }
           cbn in X. apply in_app_or in X. destruct X as [X|[<-|[]]]. { left. rewrite <- (ke_ids _ _ KE). auto. }
           right. exists i, (encode p), m, ds. split; [left; auto|]. split; auto. apply TO.
           destruct (Nat.eq_dec k i); auto. destruct (list_eq_dec Z.eq_dec (ep_group ek1) (ep_group e)) as [GE|GE].
           ++ destruct (list_eq_dec Z.eq_dec (ep_group e) []) as [G0|G0]; [|right; split; auto]. exfalso. assert (Y : with_id ek1 (sender m) = ek1) by (apply Q2; unfold grouped; tauto).
              apply NX. rewrite <- Y. cbn. apply in_or_app; right; left; auto.
           ++ exfalso. assert (Y : with_id ek1 (sender m) = ek1) by (apply Q2; unfold grouped; tauto). apply NX. rewrite <- Y. cbn. apply in_or_app; right; left; auto.
        -- intros [X|(q & bs & mm & dd & X & Ex & TT)].
           ++ rewrite <- (ke_ids _ _ KE) in X. destruct TK as [->|[-> _]]; auto. cbn. apply in_or_app; auto.
           ++ destruct X as [X|X]; [|apply NR in X; discriminate]. inversion X; subst q bs mm dd x. apply Q1. apply TO. auto.
Qed.

Lemma recv_same : forall v w w' x, recv_ok v w x -> (length (w_eps w) <= length (w_eps w'))%nat ->
  (forall k e', lookup w' k = Some e' -> (k < length (w_eps w))%nat -> exists e, lookup w k = Some e /\ ep_filters e' = ep_filters e /\ ep_members e' = ep_members e) ->
  recv_ok v w' x.
Proof.
  intros v w w' x R LL S. destruct x; auto. destruct R as (A & B & C & D & E & F). cbn [recv_ok]. split; [lia|]. do 4 (split; [auto|]).
  intros e' L. destruct (S _ _ L A) as (e & L0 & -> & ->). auto.
Qed.

Lemma runs_recv : forall f v c its w, wf_table (v_tbl v) -> runs f v c its w -> Forall (recv_ok v w) its.
Proof.
  intros f v c its w WT. apply (runs_ind f v c (fun h w => Forall (recv_ok v w) h) WT).
  - intros; constructor.
  - intros h u it u' I H A. destruct (act_endpoints f v u it u' WT A I) as (LL & R & EP). apply Forall_app. split; auto.
    eapply Forall_impl; [|exact H]. intros x X. eapply recv_same; eauto. intros k e' L K. destruct (EP _ _ L) as [(e & L0 & A1 & A2 & _)|(Q & _)]; [|lia]. eauto.
Qed.

(* ---- known systems: C15 --------------------------------------------------------------------------------------- *)

Definition ids_exact (h : list item) (w : world) : Prop :=
  forall k e, lookup w k = Some e -> forall x, In x (ep_ids e) <->
    (is_log e = true /\ x = 512) \/ exists i bs m ds, In (IRecv i bs m Routed ds) h /\ x = sender m /\ (i = k \/ In i (ep_members e)).

Lemma runs_ids : forall f v c its w, wf_table (v_tbl v) -> runs f v c its w -> ids_exact its w.
Proof.
  intros f v c its w WT R0. revert its w R0. 
  assert (X : forall its w, runs f v c its w -> ids_exact its w /\ Forall (recv_ok v w) its); [|intros; apply X; auto].
  apply (runs_ind f v c (fun h w => ids_exact h w /\ Forall (recv_ok v w) h) WT).
  - intros d pos w0 S. split; [|constructor]. intros k e L x. pose proof (inv_start _ _ _ _ S) as I.
    destruct (start_shape _ _ _ _ S) as (es & ls & F & LF & EP & _).
    assert (C : (is_log e = true /\ ep_ids e = [512]) \/ (is_log e = false /\ ep_ids e = [])).
    { destruct (is_log e) eqn:G. { left. split; auto. apply (i_logs w0 I k e L G). } right. split; auto.
      unfold lookup in L. rewrite EP in L. destruct (Nat.lt_ge_cases k (length (link_groups (map Some es)))) as [A|A].
      - rewrite nth_error_app1 in L by lia. assert (A2 : (k < length es)%nat) by (unfold link_groups in A; rewrite link_len, map_length in A; auto).
        destruct (nth_error es k) as [e0|] eqn:N; [|apply nth_error_None in N; lia]. destruct (nth_Forall2 _ _ _ _ _ _ _ F N) as (cc & _ & FE & _).
        assert (N2 : nth_error (map Some es) k = Some (Some e0)) by (rewrite nth_error_map, N; auto).
        assert (M0 : ep_members e0 = []) by apply FE.
        destruct (link_groups_spec es k e0 N2 M0) as (e' & L' & SE & ME). rewrite L' in L. inversion L; subst e'. rewrite SE. apply FE.
      - rewrite nth_error_app2, nth_error_map in L by lia. destruct (nth_error ls _) as [q|] eqn:N; [|discriminate]. cbn in L. inversion L; subst q.
        apply nth_error_In in N. rewrite Forall_forall in LF. apply LF in N. destruct N as (_ & _ & _ & _ & _ & _ & N). congruence. }
    destruct C as [[G ->]|[G ->]]; cbn [In]; split.
    + intros [<-|[]]. auto.
    + intros [[_ ->]|(i & bs & m & ds & [] & _)]. auto.
    + intros [].
    + intros [[X _]|(i & bs & m & ds & [] & _)]. congruence.
  - intros h u it u' I [H HR] A. destruct (act_endpoints f v u it u' WT A I) as (LL & R & EP). split.
    + intros k e' L x. destruct (EP _ _ L) as [(e & L0 & A1 & A2 & A3 & A4 & _ & A5)|(Q & (N1 & N2 & N3 & _) & N4)].
      * rewrite A5, (H k e L0 x), A2, A4. split.
        -- intros [[X|(i & bs & m & ds & X & Y)]|(i & bs & m & ds & X & Y)]; auto; right; exists i, bs, m, ds; split; auto; apply in_or_app; auto.
        -- intros [X|(i & bs & m & ds & X & Y)]; auto. apply in_app_or in X. destruct X as [X|X].
           ++ left. right. exists i, bs, m, ds. auto.
           ++ right. exists i, bs, m, ds. auto.
      * rewrite N1, N2, N3. split; [intros []|]. intros [[X _]|(i & bs & m & ds & X & _ & [->|[]])]; [discriminate|]. exfalso.
        apply in_app_or in X. destruct X as [X|X]; [|apply N4 in X; discriminate]. rewrite Forall_forall in HR. apply HR in X. destruct X as (X & _). lia.
    + apply Forall_app. split; auto.
      eapply Forall_impl; [|exact HR]. intros x X. eapply recv_same; eauto. intros k e' L K. destruct (EP _ _ L) as [(e & L0 & A1 & A2 & _)|(Q & _)]; [|lia]. eauto.
Qed.

(* the lists only grow *)
Lemma acts_grow : forall f v w its w', wf_table (v_tbl v) -> acts f v w its w' -> Inv w ->
  forall k e', (k < length (w_eps w))%nat -> lookup w' k = Some e' -> exists e l, lookup w k = Some e /\ ep_ids e' = ep_ids e ++ l.
Proof.
  intros f v w its w' WT A. induction A; intros I k e' K L. { exists e', []. rewrite app_nil_r. auto. }
  destruct (act_endpoints f v w its w1 WT H I) as (LL & _ & EP). assert (K1 : (k < length (w_eps w1))%nat) by lia.
  destruct (IHA (inv_act _ _ _ _ _ WT H I) k e' K1 L) as (e1 & l & L1 & E1). destruct (EP _ _ L1) as [(e & L0 & _ & _ & _ & _ & (l0 & E0) & _)|(Q & _)]; [|lia].
  exists e, (l0 ++ l). split; auto. rewrite E1, E0, app_assoc. auto.
Qed.
