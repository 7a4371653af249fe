(* The messages the loggers send, as the endpoints are handed them. *)
From Verif Require Import Base Mav SpecFrame Frame FrameProofs FrameRefine FrameLink Dedup SpecAccept Accept AcceptProofs Names Sys LogFile LogFileProofs ULog Loggers LogInv LogStep RouterCtl Router RouterRoute RouterRoute2 RouterSetup RouterActs RouterInv RouterLearn RouterStep RouterStart RouterHist SpecRouter RouterTrace.

Definition own_item (x : item) : Prop :=
  match x with
  | ICtl i bs m ds => ctl_ok (bs, m) /\ Forall (fun d => dl_bytes d = bs) ds
  | _ => True
  end.

Lemma own_ctl_item : forall w i c x, ctl_item w i c x -> ctl_ok c -> own_item x.
Proof. intros w i [bs m] x (ds & -> & _ & B) C. split; auto. Qed.

Lemma own_ctls : forall f v w i cs w' its, logs_ok w -> Forall ctl_ok cs -> route_ctls (route_sub f v) w i cs = Ok (w', its) -> Forall own_item its.
Proof.
  intros f v w i cs w' its L C H. destruct (ctls_items 1 f v cs w i w' its L C H) as [F _]. clear - F C.
  induction F; constructor; inversion C; subst; auto. eapply own_ctl_item; eauto.
Qed.
Lemma own_route : forall f v w mem m w' mem' ds its, logs_ok w -> route NEST f v w mem m = Ok (w', mem', ds, its) -> Forall own_item its.
Proof.
  intros f v w mem m w' mem' ds its L H. pose proof (route_items 0 _ _ _ _ _ _ _ _ _ L H) as R. eapply Forall_impl; [|exact R].
  intros x (i & c & _ & _ & C & X). eapply own_ctl_item; eauto.
Qed.
Lemma own_log_cb : forall w i k f v w' its again, logs_ok w -> log_cb w i k f v = Ok (w', its, again) ->
  (forall g b y g' b' cs ag, k g b = Ok (y, g', b', cs, ag) -> Forall ctl_ok cs /\ is_ulog b' = is_ulog b) -> Forall own_item its.
Proof.
  intros w i k f v w' its again L H C. unfold log_cb in H. inv_bind H. apply get_lookup in E. rename a into e.
  assert (RP : forall y l l0, ep_kind e = KLog l0 -> same_logger l0 l -> routed w (put (set_sys w y) i (set_kind e (KLog l)))).
  { intros y l l0 K SL. eapply routed_put; eauto. eapply same_log_kind; eauto. }
  assert (GO : forall y l l0 cs w2 its, ep_kind e = KLog l0 -> same_logger l0 l -> Forall ctl_ok cs -> route_ctls (route_sub f v) (put (set_sys w y) i (set_kind e (KLog l))) i cs = Ok (w2, its) -> Forall own_item its).
  { intros y l l0 cs w2 it K SL CC R. eapply own_ctls; [|exact CC|exact R]. eapply logs_routed; [eapply RP; eauto|auto]. }
  destruct (ep_kind e) as [| | |[g b|a]] eqn:K; try discriminate.
  - inv_bind H. inv_bind H. inversion H; subst. apply C in E0. destruct E0 as [E0 EU]. refine (GO _ _ _ _ _ _ eq_refl _ E0 ltac:(eassumption)); first [exact EU|exact Logic.I].
  - destruct (a_inner a) as [[g b]|]; [|discriminate]. inv_bind H. inv_bind H. inversion H; subst. apply C in E0. destruct E0 as [E0 EU]. refine (GO _ _ _ _ _ _ eq_refl _ E0 ltac:(eassumption)); first [exact EU|exact Logic.I].
Qed.
Lemma own_run_cb : forall f v w cb w' its again, logs_ok w -> run_cb f v w cb = Ok (w', its, again) -> Forall own_item its.
Proof.
  intros f v w cb w' its again L H. destruct cb; cbn [run_cb] in H; try (inv_bind H; inversion H; subst; constructor; fail).
  - inversion H; subst; constructor.
  - eapply own_log_cb; eauto. intros g b y g' b' cs ag Y. cbn in Y. destruct (lcb_start (w_sys w) g b) as [[y1 g1] cs1] eqn:E. inversion Y; subst. split; auto. eapply ctl_cb_start; eauto.
  - eapply own_log_cb; eauto. intros g b y g' b' cs ag Y. cbn in Y. inversion Y; subst. auto.
  - eapply own_log_cb; eauto. intros g b y g' b' cs ag Y. cbn in Y. inv_bind Y. inversion Y; subst. split; [eapply ctl_cb_alive; eauto|eapply alive_kind; eauto].
Qed.

Lemma own_act : forall f v w its w', wf_table (v_tbl v) -> act f v w its w' -> Inv w -> Forall own_item its.
Proof.
  intros f v w its w' WT A I. inversion A; subst; try (constructor; fail); try (repeat constructor; fail).
  - destruct (recv_before f v w i e rr x st known m w1 WT I H H0 H1 H2 H3 _ _ H4) as (K & DD & e1 & p & L1 & F1 & KE & RX & RL & P1 & P2 & P3 & P4 & P5).
    subst m. assert (I1 : Inv w1) by (eapply kept_inv; eauto). rewrite <- RX in P5.
    destruct (handle_inv _ _ _ _ _ _ _ H4) as (e0 & pkt & w2 & fresh & _ & _ & _ & CC).
    destruct (handle_cases f v w1 i e1 p w' its H4 I1 L1 F1 P1 P5) as (d & ds & its' & EQ & NR & C).
    destruct CC as [(_ & _ & X)|[(_ & _ & _ & X)|X]]; try (rewrite EQ in *; inversion X; subst; repeat constructor; fail).
    destruct C as [(-> & DS & KK)|[(-> & DS & AL & KK)|(-> & AL & wa & w2' & w3 & e2 & mem & EE & K1 & LE & L2 & Ia & I2 & RT & _)]].
    + destruct X as (_ & _ & ? & ? & ? & ? & ? & ? & ? & _ & _ & _ & _ & _ & X). rewrite EQ in X. inversion X.
    + destruct X as (_ & _ & ? & ? & ? & ? & ? & ? & ? & _ & _ & _ & _ & _ & X). rewrite EQ in X. inversion X.
    + rewrite EQ. constructor; [exact Logic.I|]. eapply own_route; [apply inv_logs; exact I2|exact RT].
  - unfold tcp_connection. destruct (ask v (w_sys w)) as [r y]. destruct (r <? 0); [constructor|].
    destruct (ask_bytes RXMAX v y), (add_fd v _ _). cbn [snd]. repeat constructor.
  - unfold timer_read in H. destruct (find_timer (w_sys w) t) as [tm|]; [|discriminate]. destruct (negb fired || tm_dead tm). { inversion H; subst; constructor. }
    inv_bind H. inv_bind H. inversion H; subst. clear H. constructor; [exact Logic.I|].
    match goal with E : run_cb _ _ _ _ = Ok _ |- _ => apply own_run_cb in E; auto end. apply inv_logs; auto.
  - unfold process_hangups in H. destruct (w_hang w); [|inversion H; subst; constructor].
    inv_bind H. inversion H; subst; clear H. destruct (hangups_spec _ _ _ _ _ E (inv_sym _ I)) as (_ & _ & _ & D & _). subst its.
    apply Forall_forall. intros x X. apply in_map_iff in X. destruct X as (? & <- & _). exact Logic.I.
Qed.

Lemma own_runs : forall f v c its w, wf_table (v_tbl v) -> runs f v c its w -> Forall own_item its.
Proof.
  intros f v c its w WT R. revert its w R. apply (runs_ind f v c (fun h w => Forall own_item h) WT).
  - intros. constructor.
  - intros h w its w' I B A. apply Forall_app. split; auto. eapply own_act; eauto.
Qed.
