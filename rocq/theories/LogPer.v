(* The periods of the loggers' timers. *)
From Verif Require Import Base Mav Frame Names NamesProofs Sys LogFile LogFileProofs ULog Loggers LogInv LogStep LogRun.

(* start requests and writing to disk every second, alive check every five seconds *)
Definition log_period (t : timer) : Prop :=
  match tm_cb t with CbLogStart _ | CbFsync _ => tm_ms t = 1000 | CbAlive _ => tm_ms t = 5000 | _ => True end.
Definition per (y y' : sys) : Prop := (forall t, In t (y_timers y) -> log_period t) -> forall t, In t (y_timers y') -> log_period t.

Lemma per_refl : forall y, per y y. Proof. intros y H. exact H. Qed.
Lemma per_trans : forall a b c, per a b -> per b c -> per a c. Proof. unfold per; auto. Qed.
Lemma per_same : forall y y', y_timers y' = y_timers y -> y_next y' = y_next y -> per y y'.
Proof. intros y y' A _. unfold per. rewrite A. auto. Qed.
Lemma per_add : forall v y ms cb r y', add_timer v y ms cb = (r, y') ->
  match cb with CbLogStart _ | CbFsync _ => u32 ms = 1000 | CbAlive _ => u32 ms = 5000 | _ => True end -> per y y'.
Proof.
  intros v y ms cb r y' H P. unfold add_timer in H. destruct (negb _); inversion H; subst.
  - apply per_same; reflexivity.
  - intros A t [<-|I]; [exact P|auto].
Qed.
Lemma per_del : forall y id y', del_timer y id = Ok y' -> per y y'.
Proof.
  intros y id y' H. unfold del_timer in H. destruct (has_timer y id); inversion H; subst. intros A t I. cbn [y_timers set_timers] in I.
  apply in_map_iff in I. destruct I as (s & <- & I). specialize (A s I). destruct (Nat.eqb _ _); auto.
Qed.
Lemma per_fs : forall y y', fs_step y y' -> per y y'.
Proof. intros y y' (A & B & _). apply per_same; auto. Qed.
Lemma per_calm : forall y g y' g', calm y g y' g' -> per y y'.
Proof. intros y g y' g' []. apply per_same; auto. Qed.
Lemma per_ask : forall v y r y', ask v y = (r, y') -> per y y'.
Proof. intros v y r y' H. unfold ask in H. inversion H; subst. apply per_same; reflexivity. Qed.
Lemma per_drop : forall y p y', drop_timer y p = Ok y' -> per y y'.
Proof. intros y [id|] y' H; cbn [drop_timer] in H. { eapply per_del; eauto. } inversion H; subst. apply per_refl. Qed.

Lemma per_log_start : forall v y g y' g' ok, log_start v y g = Ok (y', g', ok) -> per y y'.
Proof.
  intros v y g y' g' ok H. unfold log_start in H. destruct (l_open g). { inversion H; subst. apply per_refl. }
  destruct (delete_old_safe v y g) as (S1 & _). apply per_fs in S1.
  destruct (get_file v (delete_old_logs v y g) g) as [r y2] eqn:GF. destruct (get_file_spec _ _ _ _ _ GF) as (S2 & _).
  apply per_fs in S2. assert (M : per y y2) by (eapply per_trans; eauto). clear S1 S2 GF.
  destruct r. 2:{ inversion H; subst; auto. }
  destruct (add_timer v y2 1000 (CbLogStart (l_ep g))) as [[ts|] y3] eqn:A1; apply per_add in A1; try reflexivity;
  (assert (M2 : per y y3) by (eapply per_trans; eauto)).
  - destruct (add_timer v y3 1000 (CbFsync (l_ep g))) as [[tf|] y4] eqn:A2; apply per_add in A2; try reflexivity;
    (assert (M3 : per y y4) by (eapply per_trans; eauto)).
    + inversion H; subst; auto.
    + inv_bind H. inversion H; subst. apply per_del in E. eapply per_trans; eauto.
  - inversion H; subst; auto.
Qed.
Lemma per_log_stop : forall v y g y' g', log_stop v y g = Ok (y', g') -> per y y'.
Proof.
  intros v y g y' g' H. unfold log_stop in H. inv_bind H. inv_bind H. inv_bind H.
  destruct (ask v a1) as [ch y4] eqn:A. apply per_ask in A. apply per_drop in E. apply per_drop in E0. apply per_drop in E1.
  inversion H; subst; clear H. eapply per_trans; [exact E|]. eapply per_trans; [exact E0|]. eapply per_trans; [exact E1|].
  eapply per_trans; [exact A|]. destruct (0 <=? ch); [|apply per_refl]. destruct (y_fs y4); [|apply per_refl]. apply per_same; reflexivity.
Qed.

Lemma per_started : forall v y g y1 g1 y2 g2, remove_start_timeout y g = Ok (y1, g1) -> start_alive v y1 g1 = (y2, g2) -> per y y2.
Proof.
  intros v y g y1 g1 y2 g2 R A. unfold remove_start_timeout in R. destruct (l_tstart g); [|discriminate]. inv_bind R.
  inversion R; subst; clear R. apply per_del in E. unfold start_alive in A.
  match type of A with context [add_timer v y1 5000 ?c] => destruct (add_timer v y1 5000 c) as [t y3] eqn:AT end.
  apply per_add in AT; [|reflexivity]. inversion A; subst. eapply per_trans; eauto.
Qed.

Lemma per_bin_start : forall v y g a y' g' a' ok, bin_start v y g a = Ok (y', g', a', ok) -> per y y'.
Proof. intros v y g a y' g' a' ok H. unfold bin_start in H. inv_bind H. inversion H; subst. eapply per_log_start; eauto. Qed.
Lemma per_bin_stop : forall v y g y' g' cs, bin_stop v y g = Ok (y', g', cs) -> per y y'.
Proof.
  intros v y g y' g' cs H. unfold bin_stop in H. destruct (negb _). { inversion H; subst. apply per_refl. }
  destruct (send_block_status y g BLOCK_STOP 1) as [[y1 g1] c] eqn:C. inv_bind H. inversion H; subst.
  eapply per_trans; [eapply per_calm; eapply calm_block_status; eauto|eapply per_log_stop; eauto].
Qed.
Lemma per_bin_restart : forall v y g a y' g' a' cs, bin_restart v y g a = Ok (y', g', a', cs) -> per y y'.
Proof.
  intros v y g a y' g' a' cs H. unfold bin_restart in H. inv_bind H. inv_bind H. inversion H; subst.
  eapply per_trans; [eapply per_bin_stop; eauto|eapply per_bin_start; eauto].
Qed.
Lemma per_bin_process : forall v y g a s d y' g' a' cs, bin_process v y g a s d = Ok (y', g', a', cs) -> per y y'.
Proof.
  intros v y g a s d y' g' a' cs H. unfold bin_process in H. destruct (negb _). { eapply per_bin_restart; eauto. }
  destruct (ask v y) as [r y1] eqn:A. assert (C : per y y1) by (eapply per_ask; eauto).
  destruct (r <? 0). { eapply per_trans; [exact C|]. eapply per_bin_restart; eauto. }
  destruct (file_write _ _ _ _ _) as [[r2 y2] g2] eqn:W. apply calm_file_write in W. apply per_calm in W.
  assert (C2 : per y y2) by (eapply per_trans; eauto).
  destruct (_ && _). { eapply per_trans; [exact C2|]. eapply per_bin_restart; eauto. }
  destruct (negb _). { inversion H; subst; auto. }
  destruct (send_ack y2 g2 a s) as [[[y3 g3] a3] c3] eqn:K. inversion H; subst. eapply per_trans; [exact C2|].
  eapply per_calm. eapply calm_send_ack; eauto.
Qed.
Lemma per_ul_start : forall v y g u y' g' u' ok, ul_start v y g u = Ok (y', g', u', ok) -> per y y'.
Proof. intros v y g u y' g' u' ok H. unfold ul_start in H. inv_bind H. inversion H; subst. eapply per_log_start; eauto. Qed.
Lemma per_ul_stop : forall f v y g u y' g' u' cs, ul_stop f v y g u = Ok (y', g', u', cs) -> per y y'.
Proof.
  intros f v y g u y' g' u' cs H. unfold ul_stop in H. destruct (negb _). { inversion H; subst. apply per_refl. }
  destruct (send_command y g CMD_LOGGING_STOP) as [[y1 g1] c] eqn:C. inv_bind H. inv_bind H. inversion H; subst.
  eapply per_trans; [eapply per_calm; eapply calm_send_ctl; eauto|].
  eapply per_trans; [eapply per_calm; eapply calm_stop_flush; eauto|eapply per_log_stop; eauto].
Qed.
Lemma per_ul_restart : forall f v y g u y' g' u' cs, ul_restart f v y g u = Ok (y', g', u', cs) -> per y y'.
Proof.
  intros f v y g u y' g' u' cs H. unfold ul_restart in H. inv_bind H. inv_bind H. inversion H; subst.
  eapply per_trans; [eapply per_ul_stop; eauto|eapply per_ul_start; eauto].
Qed.
Lemma per_ul_process : forall f v y g u mm b y' g' u' mm' cs, ul_process f v y g u mm b = Ok (y', g', u', mm', cs) -> per y y'.
Proof.
  intros f v y g u mm b y' g' u' mm' cs H. unfold ul_process in H. inv_bind H. inv_bind H.
  destruct (logging_seq _ _) as [[u1 d]|]. 2:{ inversion H; subst. apply per_refl. }
  destruct (u_hdr u1).
  - inv_bind H. destruct (_ <? _). { inv_bind H. inversion H; subst. eapply per_ul_restart; eauto. }
    inv_bind H. destruct (negb _). { inv_bind H. inversion H; subst. eapply per_ul_restart; eauto. }
    inv_bind H. inv_bind H. inv_bind H. inv_bind H. inv_bind H. inversion H; subst. eapply per_calm. eapply calm_ul_data; eauto.
  - inv_bind H. inversion H; subst. eapply per_calm. eapply calm_ul_data; eauto.
Qed.
Lemma per_lstart : forall v y g b y' g' b' ok, lstart v y g b = Ok (y', g', b', ok) -> per y y'.
Proof.
  intros v y g b y' g' b' ok H. destruct b; cbn [lstart] in H; inv_bind H; inversion H; subst.
  - eapply per_bin_start; eauto.
  - eapply per_ul_start; eauto.
  - eapply per_log_start; eauto.
Qed.
Lemma per_lstop : forall f v y g b y' g' b' cs, lstop f v y g b = Ok (y', g', b', cs) -> per y y'.
Proof.
  intros f v y g b y' g' b' ok H. destruct b; cbn [lstop] in H.
  - inv_bind H; inversion H; subst. eapply per_bin_stop; eauto.
  - inv_bind H; inversion H; subst. eapply per_ul_stop; eauto.
  - destruct (negb _). { inversion H; subst. apply per_refl. } inv_bind H; inversion H; subst. eapply per_log_stop; eauto.
Qed.
Lemma per_auto : forall f v y g b mem m y' g' b' cs, auto_start_stop f v y g b mem m = Ok (y', g', b', cs) -> per y y'.
Proof.
  intros f v y g b mem m y' g' b' cs H. unfold auto_start_stop in H.
  destruct (l_target g =? -1). { inversion H; subst. apply per_refl. }
  destruct (l_mode g).
  - destruct (l_open g). { inversion H; subst. apply per_refl. }
    inv_bind H. inversion H; subst. apply per_lstart in E. destruct b0; auto.
  - destruct (_ && _). 2:{ inversion H; subst. apply per_refl. }
    inv_bind H. destruct (_ && _).
    + inv_bind H. inversion H; subst. apply per_lstart in E0. destruct b0; auto.
    + destruct (_ && _). { eapply per_lstop; eauto. } inversion H; subst. apply per_refl.
  - inversion H; subst. apply per_refl.
Qed.
Lemma per_bin_write : forall v y g a mem m y' g' a' cs, bin_write v y g a mem m = Ok (y', g', a', cs) -> per y y'.
Proof.
  intros v y g a mem m y' g' a' cs H. unfold bin_write in H. destruct (negb _). { inversion H; subst. apply per_refl. }
  destruct (v_tbl v (m_id m)) as [e|]. 2:{ inversion H; subst. apply per_refl. }
  inv_bind H. inv_bind H. inv_bind H. inv_bind H.
  match goal with E : match l_tstart g with _ => _ end = Ok (?s, ?l, _, _) |- _ => assert (C : per y s); [|clear E] end.
  { destruct (l_tstart g) as [ts|] eqn:TS.
    - destruct (a0 =? 0).
      + inv_bind E2. destruct (start_alive v s0 l2) as [y2 g2] eqn:A. inversion E2; subst. eapply per_started; eauto.
      + destruct (send_block_status y g BLOCK_STOP 1) as [[y2 g2] c] eqn:S. inversion E2; subst. eapply per_calm. eapply calm_block_status; eauto.
    - inversion E2; subst. apply per_refl. }
  destruct b.
  - inv_bind H. inv_bind H. inversion H; subst. eapply per_trans; [exact C|]. eapply per_trans; [eapply per_bin_process; eauto|].
    apply per_refl.
  - inversion H; subst; auto.
Qed.
Lemma per_ul_write : forall f v y g u mem m y' g' u' mem' cs, ul_write f v y g u mem m = Ok (y', g', u', mem', cs) -> per y y'.
Proof.
  intros f v y g u mem m y' g' u' mem' cs H. unfold ul_write in H. destruct (negb _). { inversion H; subst. apply per_refl. }
  destruct (v_tbl v (m_id m)) as [e|]. 2:{ inversion H; subst. apply per_refl. }
  inv_bind H. destruct (m_id m =? 77).
  - inv_bind H. destruct (ask_bytes (3 - length a) v y) as [junk y1] eqn:J. apply (calm_ask_bytes _ _ _ g) in J. apply per_calm in J.
    inv_bind H. inv_bind H. inv_bind H. destruct (l_tstart g) eqn:TS. 2:{ inversion H; subst; auto. }
    destruct (_ =? _). 2:{ inversion H; subst; auto. }
    destruct (_ =? _).
    + inv_bind H. destruct (start_alive v s l) as [y2 g2] eqn:A. inversion H; subst. eapply per_trans; [exact J|].
      eapply per_trans; [eapply per_started; eauto|]. apply per_refl.
    + inversion H; subst. eapply per_trans; [exact J|]. apply per_refl.
  - inv_bind H. assert (C : per y s).
    { destruct (m_id m =? 267).
      - inv_bind E0. inv_bind E0. destruct (send_ctl _ _ _ _ _) as [[y2 g2] c] eqn:S. inversion E0; subst. eapply per_calm. eapply calm_send_ctl; eauto.
      - inversion E0; subst. apply per_refl. }
    destruct (_ =? 0).
    + inv_bind H. inversion H; subst. eapply per_trans; [exact C|]. eapply per_trans; [eapply per_ul_process; eauto|].
      apply per_refl.
    + inv_bind H. inv_bind H. inversion H; subst. eapply per_trans; [exact C|]. eapply per_trans; [eapply per_ul_process; eauto|].
      apply per_refl.
Qed.
Lemma per_lwrite : forall f v y g b mem m y' g' b' mem' cs, lwrite f v y g b mem m = Ok (y', g', b', mem', cs) ->
  per y y'.
Proof.
  intros f v y g b mem m y' g' b' mem' cs H. unfold lwrite in H. inv_bind H. apply per_auto in E.
  destruct b0; inv_bind H; inversion H; subst; (eapply per_trans; [exact E|]).
  - eapply per_bin_write; eauto.
  - eapply per_ul_write; eauto.
  - eapply per_calm. eapply calm_tele_write; eauto.
Qed.
Lemma per_cb_start : forall y g b y' g' cs, lcb_start y g b = (y', g', cs) -> per y y'.
Proof.
  intros y g b y' g' cs H. destruct b; cbn [lcb_start] in H.
  - destruct (send_block_status y g BLOCK_START 1) as [[y2 g2] c] eqn:S. inversion H; subst. eapply per_calm. eapply calm_block_status; eauto.
  - destruct (send_command y g CMD_LOGGING_START) as [[y2 g2] c] eqn:S. inversion H; subst. eapply per_calm. eapply calm_send_ctl; eauto.
  - inversion H; subst. apply per_refl.
Qed.
Lemma per_cb_alive : forall f v y g b y' g' b' cs, lcb_alive f v y g b = Ok (y', g', b', cs) -> per y y'.
Proof.
  intros f v y g b y' g' b' cs H. unfold lcb_alive in H. inv_bind H. inversion H; subst; clear H.
  eapply per_trans; [|apply per_refl]. destruct (_ =? _).
  - inv_bind E. inv_bind E. inversion E; subst. eapply per_trans; [eapply per_lstop; eauto|eapply per_lstart; eauto].
  - inversion E; subst. apply per_refl.
Qed.
Lemma per_event : forall f v y g b e y' g' b' cs, levent f v y g b e = Ok (y', g', b', cs) -> per y y'.
Proof.
  intros f v y g b e y' g' b' cs H. destruct e as [p t| |]; cbn [levent] in H.
  - inv_bind H. inversion H; subst. eapply per_lwrite; eauto.
  - destruct (l_tstart g). 2:{ inversion H; subst. apply per_refl. } destruct (lcb_start y g b) as [[y1 g1] c] eqn:C. inversion H; subst. eapply per_cb_start; eauto.
  - destruct (l_talive g). { eapply per_cb_alive; eauto. } inversion H; subst. apply per_refl.
Qed.
Lemma per_run : forall f v evs y g b y' g' b' cs, lrun f v y g b evs = Ok (y', g', b', cs) -> per y y'.
Proof.
  induction evs as [|e evs IH]; intros y g b y' g' b' cs H; cbn [lrun] in H. { inversion H; subst. apply per_refl. }
  inv_bind H. inv_bind H. inversion H; subst. eapply per_trans; [eapply per_event; eauto|eauto].
Qed.
