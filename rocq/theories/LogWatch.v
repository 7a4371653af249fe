(* An open log is either being asked for or checked for silence, when timers can be created. *)
From Verif Require Import Base Mav SpecFrame Frame FrameProofs Names Sys LogFile LogFileProofs ULog Loggers LogInv LogStep SpecLog LogRun LogModes LogModes2
  BinProofs Prop_LogModes Prop_BinLog SpecAsk LogAsk LogAsk2 LogAsk3.

Definition watched (g : lg) : Prop := l_open g = true -> l_tstart g = None -> l_talive g <> None.

Lemma watched_kept : forall g g', kept g g' -> watched g -> watched g'.
Proof. unfold watched. intros g g' (A & B & C & _) W. rewrite A, B, C. auto. Qed.
Lemma watched_fresh : forall k g cs g', fresh k g cs g' -> watched g'.
Proof. intros k g cs g' (F & _) O T. destruct (F O T). Qed.
Lemma watched_new : forall ep ext mf ml mode fcu, watched (lg_new ep ext mf ml mode fcu).
Proof. intros ep ext mf ml mode fcu O. discriminate O. Qed.
Lemma watched_alive : forall v y g y' g', (forall p, v_tmr v p = true) -> start_alive v y g = (y', g') -> watched g'.
Proof.
  intros v y g y' g' TW H. unfold start_alive, add_timer in H. rewrite TW in H. cbn [negb] in H. inversion H; subst. intros _ _. cbn [set_timeouts l_talive]. discriminate.
Qed.

Lemma rest_watch : forall f v y g b p tail y' g' b' mem' cs, (forall p, v_tmr v p = true) ->
  lwrite_rest f v y g b (encode p ++ tail) (info_of (v_tbl v) p) = Ok (y', g', b', mem', cs) -> sys_ok y -> linv y g ->
  ask_dialect v (proto b) [p] -> watched g -> watched g'.
Proof.
  intros f v y g b p tail y' g' b' mem' cs TW H S L D W0. destruct (rest_ask _ _ _ _ _ _ _ _ _ _ _ _ H S L D) as ([_ _ _ _ _ AC _] & _).
  destruct AC as [K|[F|(AN & TS & O' & T' & _)]]; [eapply watched_kept; eauto|eapply watched_fresh; eauto|].
  destruct b as [a|u|]; cbn [lwrite_rest proto] in *; [| |discriminate AN].
  - inv_bind H. inversion H; subst. unfold bin_write in E. cbn [m_id info_of] in E. cbn [answer] in AN. apply andb_true_iff in AN. destruct AN as [ID Z0]. rewrite ID in E. cbn [negb] in E.
    apply Z.eqb_eq in ID. destruct D as ((e & T & ML) & WV). destruct (WV p (or_introl eq_refl) ID) as (W & V). assert (B : block_ok p) by (split; auto).
    rewrite ID, T in E. destruct (bin_read v e p tail B T ML) as (pl & tz & mm & bb & PD & LC & R32 & SL).
    assert (BR : 0 <= block_number p < 4294967296) by (apply block_number_range; apply W).
    rewrite PD in E. cbn [bind] in E. rewrite LC in E. cbn [bind] in E. rewrite R32 in E. cbn [bind] in E. rewrite Z0 in E.
    destruct (remove_start_ok y g S L TS) as (y1 & g1 & RS). destruct (l_tstart g); [|congruence]. rewrite RS in E. cbn [bind] in E.
    destruct (start_alive v y1 g1) as [y2 g2] eqn:SA. cbn [bind] in E. rewrite SL in E. cbn [bind] in E.
    match type of E with bind ?q _ = _ => destruct q as [[[[y3 g3] a3] c3]| |] eqn:E0; cbn [bind] in E; try discriminate end. inversion E; subst.
    destruct (bin_process_ask _ _ _ _ _ _ _ _ _ _ E0 BR) as (_ & KF & _). pose proof (watched_alive _ _ _ _ _ TW SA) as W2.
    assert (W3 : watched g3) by (destruct KF as [K|F]; [eapply watched_kept; eauto|eapply watched_fresh; eauto]). exact W3.
  - inv_bind H. inversion H; subst. unfold ul_write in E. cbn [m_id info_of] in E. cbn [answer] in AN. apply andb_true_iff in AN. destruct AN as [AN R0]. apply andb_true_iff in AN. destruct AN as [I1 C0].
    rewrite I1 in E. cbn [orb negb] in E. apply Z.eqb_eq in I1. destruct D as ((e & T & ML) & _ & _ & WV). rewrite I1, T in E. inv_bind E. inv_bind E.
    destruct (ask_bytes (3 - length a) v y) as [junk y1]. destruct (ack_read v e p tail _ _ _ (WV p (or_introl eq_refl) I1) ML E0 E1) as (LL & RR).
    inv_bind E. inv_bind E. inv_bind E. apply rd_inv in E2, E3, E4. destruct E2 as [_ E2], E3 as [_ E3], E4 as [_ E4]. rewrite app_nth1, RR in E2, E3, E4 by lia.
    unfold field16 in C0. cbn [Nat.add] in C0. rewrite <- E2, <- E3 in C0. rewrite <- E4 in R0. change CMD_LOGGING_START with 2510 in E. rewrite C0, R0 in E.
    destruct (l_tstart g); [|congruence]. inv_bind E. destruct (start_alive v s l) as [y2 g2] eqn:SA. inversion E; subst.
    exact (watched_alive _ _ _ _ _ TW SA).
Qed.

Lemma event_watch : forall f v y g b e y' g' b' cs, (forall p, v_tmr v p = true) -> levent f v y g b e = Ok (y', g', b', cs) -> sys_ok y -> linv y g ->
  ask_dialect v (proto b) (offered [e]) -> watched g -> watched g'.
Proof.
  intros f v y g b e y' g' b' cs TW H S L D W. destruct e as [p tail| |].
  - cbn [levent] in H. inv_bind H. inversion H; subst; clear H. pose proof (learn_inv _ _ (info_of (v_tbl v) p) L) as L0.
    destruct (lwrite_split _ _ _ _ _ _ _ _ _ _ _ _ E) as (y1 & g1 & b1 & c1 & c2 & A & R & ->). clear E.
    pose proof (step_auto _ _ _ _ _ _ _ _ _ _ _ A) as [B1 B2 _ _]. specialize (B1 S L0). specialize (B2 S L0).
    destruct (auto_ask _ _ _ _ _ _ _ _ _ _ _ A) as (_ & KF & _ & P1 & _). cbn [offered] in D. rewrite <- P1 in D.
    assert (W0 : watched (learn_target g (info_of (v_tbl v) p))) by (unfold learn_target; destruct (_ && _); exact W).
    eapply rest_watch; [exact TW|exact R|auto|auto|exact D|]. destruct KF as [K|F]; [eapply watched_kept; eauto|eapply watched_fresh; eauto].
  - destruct (start_ask _ _ _ _ _ _ _ _ _ H) as (_ & _ & K & _). eapply watched_kept; eauto.
  - destruct (alive_ask _ _ _ _ _ _ _ _ _ H) as (_ & _ & N & _ & _ & F & K). destruct (l_talive g) eqn:TA.
    2:{ destruct (N eq_refl) as [-> _]. auto. }
    destruct (Z.eq_dec (l_mark g) (l_wtotal g)) as [E|E].
    + eapply watched_fresh. apply F; auto. discriminate.
    + destruct K as (_ & _ & _ & K & _); auto. eapply watched_kept; eauto.
Qed.
