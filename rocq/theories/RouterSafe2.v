(* Every batch of events can be handled to the end: timers, events, iterations and the end of the program. *)
From Verif Require Import Base Mav SpecFrame Frame FrameRefine Dedup DedupProofs Accept Names NamesProofs Sys LogFile LogFileProofs ULog Loggers LogInv LogStep LogMono
  LogSafe RouterCtl Router RouterRoute RouterRoute2 RouterSetup RouterActs RouterInv RouterLearn RouterStep RouterStart RouterHist SpecRouter SpecLife RouterTrace
  RouterFrame RouterBytes RouterTimers RouterTimers2 RouterDedup RouterLife2 RouterLife3 RouterStays RouterFinish RouterSafe.

Lemma safe_acts : forall f v c w its w', wf_table (v_tbl v) -> ~ ulog_configured c -> acts f v w its w' -> safe c v w -> safe c v w'.
Proof. intros f v c w its w' WT NU A. induction A; auto. intros S. apply IHA. eapply safe_act; eauto. Qed.

(* ---- reading ------------------------------------------------------------------------------------------------------ *)

Lemma os_read_fine : forall v w i e o, (exists arm, T v arm w) -> lookup w i = Some e -> fine (os_read v w i e o).
Proof.
  intros v w i e o [arm TT] L. pose proof (t_ep _ _ _ TT _ _ L) as [_ B]. destruct o as [bs from| |n]; cbn [os_read]; auto.
  destruct (ep_kind e) as [bd cu tm|conf peer [t|]|retry vl|l]; auto.
  - apply fine_bind; auto. eapply ptr_mod. apply B.
  - cbn [bind]. auto.
  - destruct bs; auto. destruct (_ =? _)%nat; auto. destruct (tcp_lost _ _ _ _ _). auto.
Qed.

Lemma os_read_rx : forall v w i e o w' rr, os_read v w i e o = Ok (w', rr) -> lookup w i = Some e -> exists e', lookup w' i = Some e' /\ ep_rx e' = ep_rx e.
Proof.
  intros v w i e o w' rr H L. destruct o as [bs from| |n]; cbn [os_read] in H; try (inversion H; subst; eauto; fail).
  destruct (ep_kind e) as [bd cu tm|conf peer tm|retry vl|l]; try (inversion H; subst; eauto; fail).
  - inv_bind H. inversion H; subst. eexists. split; [eapply lookup_put_eq; rewrite lookup_sys; eauto|reflexivity].
  - destruct bs. 2:{ inversion H; subst; eauto. } destruct (_ =? _)%nat. { inversion H; subst; eauto. }
    destruct (tcp_lost v (w_sys w) i e retry) as [y1 e1] eqn:TL. inversion H; subst. exists e1. split; [eapply lookup_put_eq; rewrite lookup_sys; eauto|].
    unfold tcp_lost, schedule_reconnect in TL. destruct (0 <? retry). 2:{ inversion TL; auto. } destruct (retry <=? 0). { inversion TL; auto. } destruct (add_timer _ _ _ _). inversion TL; auto.
Qed.

Lemma handle_read_fine : forall f v c w i o, wf_table (v_tbl v) -> block_table (v_tbl v) -> ~ ulog_configured c -> safe c v w -> lookup w i <> None -> wf_read o ->
  fine (handle_read f v w i o).
Proof.
  intros f v c w i o WT BT NU SF AL WR. destruct (lookup w i) as [e|] eqn:L; [|congruence]. clear AL. unfold handle_read. rewrite (lookup_get _ _ _ L). cbn [bind].
  destruct (ep_fd e) eqn:F; cbn [negb]; auto.
  assert (B : forall x s rr, FrameRefine.good x s -> (length (rest_of x s ++ taken x s rr) < RXMAX + 2)%nat).
  { intros x s rr ((tail & D & N & LE) & _). unfold rest_of, taken. rewrite app_length, skipn_length.
    assert (S : (length s <= RXMAX)%nat). { rewrite <- N, app_length. lia. }
    destruct rr as [a|]; cbn [length]; [|lia]. destruct (needs_read x); cbn [length]; [|lia]. rewrite firstn_length. lia. }
  destruct (needs_read (ep_rx e)) eqn:NR.
  - apply fine_bind. { apply os_read_fine; auto. apply SF. } intros [w1 rr] OR. pose proof (os_read_wf _ _ _ _ _ _ _ OR WR) as W2.
    assert (S1 : safe c v w1) by (eapply (safe_act f); [exact WT|exact NU|eapply a_read; eauto|exact SF]).
    destruct (os_read_rx _ _ _ _ _ _ _ OR L) as (e1 & L1 & X1). destruct (i_rx _ (sf_inv _ _ _ S1) _ _ L1) as [_ (s & G)].
    destruct rr as [a|r]; auto. apply fine_bind; [|intros [[? ?] ?] _; auto]. eapply read_loop_fine; eauto.
  - destruct (i_rx _ (sf_inv _ _ _ SF) _ _ L) as [_ (s & G)]. eapply read_loop_fine; eauto. exact Logic.I.
Qed.

(* ---- timers ------------------------------------------------------------------------------------------------------- *)

Lemma aggregate_fine : forall w, (forall i, In i (w_order w) -> lookup w i <> None) -> fine (cb_aggregate w).
Proof.
  intros w. unfold cb_aggregate. assert (A : forall order u, (forall i, In i order -> lookup u i <> None) ->
    fine (fold_left (fun rw i => let* w := rw in let* e := get w i in Ok (put w i (set_wstat e (ep_wtotal e) (ep_wbytes e) 0))) order (Ok u))).
  { induction order as [|i r IH]; intros u AL; cbn [fold_left]; auto. destruct (lookup u i) as [e|] eqn:L. 2:{ destruct (AL i); [left; auto|auto]. }
    cbn [bind]. rewrite (lookup_get _ _ _ L). cbn [bind]. apply IH. intros j J. destruct (Nat.eq_dec j i) as [->|N].
    - erewrite lookup_put_eq by eauto. discriminate.
    - rewrite lookup_put_neq by auto. apply AL. right; auto. }
  intros AL. apply A. exact AL.
Qed.

Lemma has_of : forall y x, In x (y_timers y) -> has_timer y (tm_id x) = true.
Proof. intros y x I. unfold has_timer. apply existsb_exists. exists x. split; auto. apply Nat.eqb_refl. Qed.
Lemma has_in : forall y t, has_timer y t = true -> exists x, In x (y_timers y) /\ tm_id x = t.
Proof. intros y t H. unfold has_timer in H. apply existsb_exists in H. destruct H as (x & I & E). apply Nat.eqb_eq in E. eauto. Qed.
Lemma has_mono : forall y y' t, mono y y' -> has_timer y t = true -> has_timer y' t = true.
Proof. intros y y' t [_ M] H. apply has_in in H. destruct H as (x & I & <-). destruct (M x I) as (x' & I' & <-). apply has_of; auto. Qed.

(* a logger's callback: the logger is a file logger without ULog *)
Lemma log_cb_fine : forall f v c w i k x, wf_table (v_tbl v) -> block_table (v_tbl v) -> safe c v w -> alive (w_sys w) x -> owner (tm_cb x) = Some i ->
  (forall e, fits (tm_cb x) (ep_kind e) -> is_log e = true) ->
  (forall g b, is_ulog b = false -> linv (w_sys w) g -> fine (k g b)) ->
  (forall g b y g' b' cs ag, is_ulog b = false -> k g b = Ok (y, g', b', cs, ag) -> Forall ctl_ok cs /\ mono (w_sys w) y /\ step_ok (w_sys w) g y g' /\ is_ulog b' = false) ->
  fine (Router.log_cb w i k f v).
Proof.
  intros f v c w i k x WT BT SF AX OW FI KF KO. unfold Router.log_cb. destruct (sf_T _ _ _ SF) as [arm TT]. destruct (t_owner _ _ _ TT _ _ AX OW) as (e & L).
  rewrite (lookup_get _ _ _ L). cbn [bind]. pose proof (t_ep _ _ _ TT _ _ L) as HT. pose proof HT as [FT B]. specialize (FI e (FT _ AX OW)). pose proof (sf_no _ _ _ SF _ _ L) as NV.
  unfold is_log in FI. destruct (ep_kind e) as [| | |[g b|a]] eqn:K; try discriminate. 2:{ destruct NV. }
  cbn [never_ulog] in NV. destruct B as [B1 B2]. apply fine_bind; [apply KF; auto|]. intros [[[[y g1] b1] cs] ag] KE. destruct (KO _ _ _ _ _ _ _ NV KE) as (CO & M & ST & NV').
  apply fine_bind; [|intros [? ?] _; auto]. pose proof (safe_ready _ _ _ SF) as R.
  assert (K1 : kept w (put (set_sys w y) i (set_kind e (KLog (LFile g1 b1))))). { eapply kept_put; eauto. apply kept_set_kind. rewrite K. cbn. congruence. }
  assert (G1 : RouterTimers.good v w (put (set_sys w y) i (set_kind e (KLog (LFile g1 b1))))).
  { apply (T_put1 _ _ _ e); auto. intros arm' S Hd. pose proof Hd as [_ B']. rewrite K in B'. destruct B' as [B1' B2'].
    pose proof (so_own _ _ _ _ ST S B2') as O. pose proof (so_sys _ _ _ _ ST S B2') as S'. rewrite B1' in O. split; [apply frame_own; auto|].
    eapply log_held; eauto. split; [|apply (so_inv _ _ _ _ ST); auto]. destruct (so_cfg _ _ _ _ ST S B2') as (Q & _). congruence. }
  eapply ctls_fine; eauto. { apply sub_routed2. } { apply sub_is_good. } { apply sub_fine2; auto. } eapply ready_kept; eauto.
Qed.

Lemma run_cb_fine : forall f v c w x, wf_table (v_tbl v) -> block_table (v_tbl v) -> safe c v w -> alive (w_sys w) x -> fine (run_cb f v w (tm_cb x)).
Proof.
  intros f v c w x WT BT SF AX. destruct (sf_T _ _ _ SF) as [arm TT].
  assert (OW : forall i, owner (tm_cb x) = Some i -> exists e, lookup w i = Some e /\ fits (tm_cb x) (ep_kind e) /\ held_timers v (arm i) (w_sys w) i e).
  { intros i O. destruct (t_owner _ _ _ TT _ _ AX O) as (e & L). exists e. split; auto. pose proof (t_ep _ _ _ TT _ _ L) as HT. split; auto. apply HT; auto. }
  destruct (tm_cb x) as [| |i|i|i|i|i|i] eqn:C; cbn [run_cb]; cbn [owner] in OW; auto; try specialize (OW i eq_refl).
  - apply fine_bind; [|intros ? _; auto]. apply aggregate_fine. apply SF.
  - destruct OW as (e & L & FT & HT). apply fine_bind; [|intros ? _; auto]. unfold cb_baud. rewrite (lookup_get _ _ _ L). cbn [bind].
    destruct (sf_life _ _ _ SF) as [h LF]. pose proof (lf_kind _ _ _ LF _ _ L) as KL. unfold kind_life in KL.
    destruct (ep_kind e) as [b cu p| | |]; try destruct FT. destruct KL as (_ & _ & NB & _). destruct b; [congruence|]. destruct (ask v (w_sys w)). auto.
  - destruct OW as (e & L & FT & [_ HT]). apply fine_bind; [|intros ? _; auto]. unfold cb_nomsg. rewrite (lookup_get _ _ _ L). cbn [bind].
    destruct (ep_kind e) as [|cf pe p| |]; try destruct FT. destruct HT as [HP HO]. destruct (HO x AX C) as [-> _]. apply fine_bind; [|intros ? _; auto]. eapply ptr_mod; eauto.
  - destruct OW as (e & L & FT & HT). apply fine_bind; [|intros [? ?] _; auto]. unfold cb_retry. rewrite (lookup_get _ _ _ L). cbn [bind].
    destruct (ep_kind e) as [| |r vl|]; try destruct FT. destruct (ask v (w_sys w)). destruct (_ <? 0); auto. destruct (add_fd _ _ _). auto.
  - eapply log_cb_fine; eauto.
    + rewrite C. reflexivity.
    + rewrite C. intros e0 F. unfold is_log. cbn [fits] in F. destruct (ep_kind e0); auto; destruct F.
    + intros g b _ _. destruct (lcb_start (w_sys w) g b) as [[? ?] ?]. auto.
    + intros g b y g' b' cs ag U H. destruct (lcb_start (w_sys w) g b) as [[y1 g1] cs1] eqn:LC. inversion H; subst.
      split; [eapply ctl_cb_start; eauto|]. split; [eapply mono_cb_start; eauto|]. split; auto. eapply step_cb_start; eauto.
  - eapply log_cb_fine; eauto.
    + rewrite C. reflexivity.
    + rewrite C. intros e0 F. unfold is_log. cbn [fits] in F. destruct (ep_kind e0); auto; destruct F.
    + intros g b y g' b' cs ag U H. inversion H; subst. split; [constructor|]. split; [apply mono_refl|]. split; auto. apply step_refl.
  - eapply log_cb_fine; eauto.
    + rewrite C. reflexivity.
    + rewrite C. intros e0 F. unfold is_log. cbn [fits] in F. destruct (ep_kind e0); auto; destruct F.
    + intros g b U LI. apply fine_bind; [|intros [[[? ?] ?] ?] _; auto]. apply lcb_alive_fine; auto. apply TT.
    + intros g b y g' b' cs ag U H. inv_bind H. inversion H; subst. split; [eapply ctl_cb_alive; eauto|]. split; [eapply mono_cb_alive; eauto|].
      split; [eapply step_cb_alive; eauto|]. rewrite <- U. eapply alive_kind; eauto.
Qed.

Lemma run_cb_mono : forall f v w cb w' its ag, run_cb f v w cb = Ok (w', its, ag) -> mono (w_sys w) (w_sys w').
Proof.
  intros f v w cb w' its ag R. destruct cb as [| |i|i|i|i|i|i]; cbn [run_cb] in R.
  - inv_bind R. inversion R; subst. apply aggregate_alike in E. apply (good_alike v _ _ E).
  - inversion R; subst. apply mono_refl.
  - inv_bind R. inversion R; subst. apply (cb_baud_good v) in E. apply E.
  - inv_bind R. inversion R; subst. apply (nomsg_T v) in E. apply E.
  - inv_bind R. inversion R; subst. apply retry_T in E. apply E.
  - apply (log_cb_good v) in R; [apply R|]. intros g b y g' b' cs a Hk. destruct (lcb_start (w_sys w) g b) as [[y1 g1] cs1] eqn:L. inversion Hk; subst.
    split; [eapply mono_cb_start; eauto|eapply step_cb_start; eauto].
  - apply (log_cb_good v) in R; [apply R|]. intros g b y g' b' cs a Hk. inversion Hk; subst. split; [apply mono_refl|apply step_refl].
  - apply (log_cb_good v) in R; [apply R|]. intros g b y g' b' cs a Hk. inv_bind Hk. inversion Hk; subst. split; [eapply mono_cb_alive; eauto|eapply step_cb_alive; eauto].
Qed.

Lemma timer_read_fine : forall f v c w t fired, wf_table (v_tbl v) -> block_table (v_tbl v) -> safe c v w -> has_timer (w_sys w) t = true -> fine (timer_read f v w t fired).
Proof.
  intros f v c w t fired WT BT SF HT. unfold timer_read. destruct (find_timer (w_sys w) t) as [x|] eqn:F.
  2:{ apply has_in in HT. destruct HT as (x & I & E). unfold find_timer in F. pose proof (find_none _ _ F x I) as X. cbn in X. apply Nat.eqb_neq in X. congruence. }
  destruct (negb fired || tm_dead x) eqn:D; auto. apply orb_false_iff in D. destruct D as [_ D]. unfold find_timer in F. apply find_some in F. destruct F as [Ix Ex].
  apply fine_bind. { eapply run_cb_fine; eauto. split; auto. } intros [[w1 its] ag] R. apply fine_bind; auto. destruct ag; auto.
  apply run_cb_mono in R. pose proof (has_mono _ _ _ R HT) as H1. unfold del_timer. rewrite H1. auto.
Qed.

(* ---- events --------------------------------------------------------------------------------------------------------- *)

(* the pointer epoll returned is still valid *)
Definition there (w : world) (ev : event) : Prop :=
  match ev with
  | EEp i _ _ _ => lookup w i <> None
  | ETimer t _ _ => has_timer (w_sys w) t = true
  | _ => True
  end.
Lemma there_still : forall w w' ev, still_there w w' -> there w ev -> there w' ev.
Proof.
  intros w w' ev [M L] H. destruct ev as [|i rd out err|t fired err|]; cbn [there] in *; auto.
  - destruct (lookup w i) as [e|] eqn:E; [|congruence]. destruct (L _ _ E) as (e' & -> & _). discriminate.
  - eapply has_mono; eauto.
Qed.
Lemma there_registered : forall w ev, registered w ev = true -> there w ev.
Proof. intros w [|i rd out err|t fired err|] H; cbn [registered there] in *; auto. destruct (lookup w i); [discriminate|discriminate H]. Qed.

Lemma get_fine : forall w i, lookup w i <> None -> fine (get w i).
Proof. intros w i H. unfold get. destruct (lookup w i); [auto|congruence]. Qed.
Lemma stay_there : forall w w' i, stays w w' -> lookup w i <> None -> lookup w' i <> None.
Proof. intros w w' i [[_ S] _] H. destruct (lookup w i) as [e|] eqn:E; [|congruence]. destruct (S _ _ E) as (e' & -> & _). discriminate. Qed.

Lemma handle_event_fine : forall f v c w ev, wf_table (v_tbl v) -> block_table (v_tbl v) -> ~ ulog_configured c -> safe c v w -> there w ev -> wf_ev ev ->
  fine (handle_event f v w ev).
Proof.
  intros f v c w ev WT BT NU SF TH WE. destruct ev as [|i rd out err|t fired err|]; cbn [handle_event there wf_ev] in *; auto.
  - apply fine_bind. { apply get_fine; auto. } intros _ _. apply fine_bind.
    { destruct rd as [o|]; auto. apply fine_bind. { eapply handle_read_fine; eauto. } intros [[w1 its] r] HR. apply stays_read in HR. apply fine_bind; [|intros ? _; auto].
      apply get_fine. eapply stay_there; eauto. }
    intros [w1 its] H1.
    assert (A1 : lookup w1 i <> None).
    { destruct rd as [o|]; [|inversion H1; subst; auto]. inv_bind H1. inv_bind H1. inversion H1; subst; clear H1.
      match goal with X : get ?u i = _ |- _ => apply get_lookup in X; assert (lookup u i <> None) by congruence end. destruct (_ && _); auto. }
    apply fine_bind. { apply get_fine; auto. } intros e1 G1. apply get_lookup in G1. apply fine_bind; [|intros ? _; auto]. apply get_fine. destruct out; auto.
    destruct (mod_fd v (w_sys w1) e1 false) as [[y2 e2] q]. erewrite lookup_put_eq; [|rewrite lookup_sys; exact G1]. discriminate.
  - apply fine_bind; [|intros [? ?] _; auto]. eapply timer_read_fine; eauto.
Qed.

Lemma handle_events_fine : forall f v c evs w, wf_table (v_tbl v) -> block_table (v_tbl v) -> ~ ulog_configured c -> safe c v w -> Forall (there w) evs -> Forall wf_ev evs ->
  fine (handle_events f v w evs).
Proof.
  intros f v c. induction evs as [|ev r IH]; intros w WT BT NU SF TH WE; cbn [handle_events]; auto. inversion TH; subst. inversion WE; subst.
  apply fine_bind. { eapply handle_event_fine; eauto. } intros [w1 its] HE. apply fine_bind; [|intros [? ?] _; auto]. apply IH; auto.
  - eapply safe_acts; eauto. eapply handle_event_acts; eauto.
  - destruct (event_there _ _ _ _ _ _ HE (inv_logs _ (sf_inv _ _ _ SF))) as [ST _]. eapply Forall_impl; [|exact H2]. intros a. apply there_still; auto.
Qed.

Lemma hangups_fine : forall order w, NoDup order -> (forall i, In i order -> lookup w i <> None) -> fine (hangups w order).
Proof.
  induction order as [|i r IH]; intros w ND AL; cbn [hangups]; auto. inversion ND; subst. apply fine_bind. { apply get_fine. apply AL. left; auto. }
  intros e _. destruct (is_valid e).
  - apply fine_bind; [|intros [[? ?] ?] _; auto]. apply IH; auto. intros j J. apply AL. right; auto.
  - apply fine_bind; [|intros [[? ?] ?] _; auto]. apply IH; auto. intros j J. assert (A : lookup w j <> None) by (apply AL; right; auto). destruct (held w i); auto.
    rewrite lookup_drop_neq by congruence. exact A.
Qed.

Theorem step_fine : forall f v c its w evs, wf_table (v_tbl v) -> block_table (v_tbl v) -> ~ ulog_configured c -> runs f v c its w -> Forall (wf_event w) evs ->
  fine (step f v w evs).
Proof.
  intros f v c its w evs WT BT NU R WE. pose proof (safe_runs _ _ _ _ _ WT NU R) as SF. unfold step.
  assert (WV : Forall wf_ev evs). { eapply Forall_impl; [|exact WE]. intros e [_ X]. destruct e as [|? [?|] ? ?| |]; exact X || exact Logic.I. }
  apply fine_bind. { eapply handle_events_fine; eauto. eapply Forall_impl; [|exact WE]. intros e [X _]. apply there_registered; auto. }
  intros [w1 its1] HE. apply fine_bind; [|intros [? ?] _; auto]. unfold process_hangups. destruct (w_hang w1); auto.
  assert (S1 : safe c v w1) by (eapply safe_acts; eauto; eapply handle_events_acts; eauto).
  apply fine_bind; [|intros [[? ?] ?] _; auto]. apply hangups_fine; apply S1.
Qed.

(* ---- the end of the program -------------------------------------------------------------------------------------------- *)

(* the logger that is stopped at the end is there *)
Definition logger_there (w : world) : Prop := forall k, w_log w = Some k -> exists e, lookup w k = Some e /\ is_log e = true.

Lemma logger_still : forall w w', still_there w w' -> w_log w' = w_log w -> logger_there w -> logger_there w'.
Proof. intros w w' [_ S] E L k K. rewrite E in K. destruct (L k K) as (e & A & B). destruct (S _ _ A) as (e' & A' & C). exists e'. split; auto. rewrite (class_log _ _ C). auto. Qed.

Lemma logger_act : forall f v w its w', wf_table (v_tbl v) -> act f v w its w' -> Inv w -> logger_there w -> logger_there w'.
Proof.
  intros f v w its w' WT A I L. pose proof (act_log f v w its w' WT A I) as WL. destruct A.
  - eapply logger_still; eauto. eapply stays_os; eauto.
  - eapply logger_still; eauto. eapply stays_rx; eauto.
  - eapply logger_still; eauto. eapply there_trans; [eapply stays_rx; eauto|]. eapply there_trans; [|eapply stays_msg; eauto].
    destruct known. { eapply stays_baud; eauto. eapply lookup_put_eq; eauto. } match goal with X : Ok _ = Ok _ |- _ => injection X as <- end. apply there_refl.
  - eapply logger_still; eauto. apply there_conn.
  - eapply logger_still; eauto. match goal with X : mod_fd _ _ _ _ = _ |- _ => destruct (mod_fd_same2 _ _ _ _ _ _ _ X) as (Q1 & Q2 & Q3 & Q4) end. apply there_alike. eapply alike_ask; eauto.
  - eapply logger_still; eauto. eapply stays_timer; eauto. apply inv_logs; auto.
  - eapply logger_still; eauto. apply there_eps; reflexivity.
  - eapply logger_still; eauto. apply there_eps; reflexivity.
  - unfold process_hangups in H. destruct (w_hang w); [|inversion H; subst; auto]. inv_bind H. inversion H; subst; clear H.
    destruct (hangups_spec _ _ _ _ _ E (inv_sym _ I)) as (_ & _ & _ & _ & LK). intros k K. rewrite WL in K. destruct (L k K) as (e & A & B). exists e. split; auto.
    change (lookup w0 k = Some e). rewrite LK. assert (V : valid_at w k = true). { unfold valid_at. rewrite A. unfold is_log in B. unfold is_valid. destruct (ep_kind e); auto; discriminate. }
    rewrite V. cbn [negb]. rewrite andb_false_r. cbn [andb]. auto.
  - exact L.
Qed.

Lemma logger_runs : forall f v c its w, wf_table (v_tbl v) -> runs f v c its w -> logger_there w.
Proof.
  intros f v c its w WT. apply (runs_ind f v c (fun _ w => logger_there w) WT).
  - intros d pos w0 S k K. pose proof (start_log _ _ _ _ S) as SL. pose proof (synced_start _ _ _ _ S) as SY. pose proof (inv_start _ _ _ _ S) as I.
    assert (Q : is_logger c k). { rewrite SL in K. unfold is_logger, loggers. destruct (cf_log c); [|discriminate]. injection K as <-. destruct (lc_tlog _); lia. }
    assert (A : lookup w0 k <> None).
    { apply (i_alive _ I). rewrite (sy_order _ _ _ SY). unfold open_after. apply filter_In. split; [|reflexivity]. apply in_or_app. left. apply in_seq. unfold is_logger in Q. lia. }
    destruct (lookup w0 k) as [e|] eqn:L; [|congruence]. exists e. split; auto. destruct (start_born _ _ _ _ _ _ S L) as [(cc & NC & _)|[_ X]]; auto.
    unfold is_logger in Q. assert (k < length (confs c))%nat by (apply nth_error_Some; congruence). lia.
  - intros h w1 its1 w2 I S A. eapply logger_act; eauto.
Qed.

Theorem finish_fine : forall f v c its w, wf_table (v_tbl v) -> block_table (v_tbl v) -> ~ ulog_configured c -> runs f v c its w -> fine (finish f v w).
Proof.
  intros f v c its w WT BT NU R. pose proof (safe_runs _ _ _ _ _ WT NU R) as SF. pose proof (logger_runs _ _ _ _ _ WT R) as LT. unfold finish.
  destruct (w_log w) as [i|] eqn:WL; auto. destruct (LT i WL) as (e & L & IL). rewrite (lookup_get _ _ _ L). cbn [bind].
  destruct (sf_T _ _ _ SF) as [arm TT]. pose proof (t_ep _ _ _ TT _ _ L) as [_ B]. pose proof (sf_no _ _ _ SF _ _ L) as NV. unfold is_log in IL.
  destruct (ep_kind e) as [| | |[g b|a]] eqn:K; try discriminate. 2:{ destruct NV. } cbn [never_ulog] in NV. destruct B as [B1 B2].
  apply fine_bind. { apply lstop_fine; auto. apply TT. } intros [[[y g1] b1] cs] LS. pose proof (ctl_lstop _ _ _ _ _ _ _ _ _ LS) as CO. pose proof (mono_lstop _ _ _ _ _ _ _ _ _ LS) as M.
  pose proof (lstop_kind _ _ _ _ _ _ _ _ _ LS) as NV'. apply step_lstop in LS as ST.
  assert (K1 : kept w (put (set_sys w y) i (set_kind e (KLog (LFile g1 b1))))). { eapply kept_put; eauto. apply kept_set_kind. rewrite K. cbn. congruence. }
  assert (G1 : RouterTimers.good v w (put (set_sys w y) i (set_kind e (KLog (LFile g1 b1))))).
  { apply (T_put1 _ _ _ e); auto. intros arm' S Hd. pose proof Hd as [_ B']. rewrite K in B'. destruct B' as [B1' B2'].
    pose proof (so_own _ _ _ _ ST S B2') as O. pose proof (so_sys _ _ _ _ ST S B2') as S'. rewrite B1' in O. split; [apply frame_own; auto|].
    eapply log_held; eauto. split; [|apply (so_inv _ _ _ _ ST); auto]. destruct (so_cfg _ _ _ _ ST S B2') as (Q & _). congruence. }
  eapply ctls_fine; eauto. { apply sub_routed2. } { apply sub_is_good. } { apply sub_fine2; auto. } eapply ready_kept; eauto. eapply safe_ready; eauto.
Qed.
