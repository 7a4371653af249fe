(* What the operations of the loggers can do to the list of timers: identities are never reused, a removed timer
   stays removed, nothing leaves the list. *)
From Verif Require Import Base Mav Frame Names NamesProofs Sys LogFile LogFileProofs ULog Loggers LogInv LogStep.

(* nothing comes back to life: a timer of the new list is one of the old list, removed if it was, or it is new *)
Definition fresh_ids (y y' : sys) : Prop :=
  (y_next y <= y_next y')%nat /\
  (forall t', In t' (y_timers y') -> (y_next y <= tm_id t')%nat \/
     exists t, In t (y_timers y) /\ tm_id t = tm_id t' /\ tm_cb t = tm_cb t' /\ (tm_dead t = true -> tm_dead t' = true)).
(* and the objects of the old list are still there *)
Definition mono (y y' : sys) : Prop :=
  fresh_ids y y' /\ (forall t, In t (y_timers y) -> exists t', In t' (y_timers y') /\ tm_id t' = tm_id t).

Lemma fresh_refl : forall y, fresh_ids y y.
Proof. intros. split; auto. intros t I. right. exists t. auto. Qed.
Lemma fresh_trans : forall a b c, fresh_ids a b -> fresh_ids b c -> fresh_ids a c.
Proof.
  intros a b c [A1 A2] [B1 B2]. split; [lia|]. intros t I. destruct (B2 t I) as [L|(s & S1 & S2 & S3 & S4)]; [left; lia|].
  destruct (A2 s S1) as [L|(r & R1 & R2 & R3 & R4)]. { left. lia. }
  right. exists r. repeat split; try congruence. auto.
Qed.
Lemma mono_refl : forall y, mono y y.
Proof. intros. split; [apply fresh_refl|]. eauto. Qed.
Lemma mono_trans : forall a b c, mono a b -> mono b c -> mono a c.
Proof.
  intros a b c [A1 A2] [B1 B2]. split; [eapply fresh_trans; eauto|]. intros t I. destruct (A2 t I) as (s & I2 & E).
  destruct (B2 s I2) as (r & I3 & E2). exists r. split; auto. congruence.
Qed.
Lemma mono_same : forall y y', y_timers y' = y_timers y -> y_next y' = y_next y -> mono y y'.
Proof. intros y y' A B. unfold mono, fresh_ids. rewrite A, B. apply mono_refl. Qed.
Lemma mono_fs : forall y y', fs_step y y' -> mono y y'.
Proof. intros y y' (A & B & _). apply mono_same; auto. Qed.
Lemma mono_calm : forall y g y' g', calm y g y' g' -> mono y y'.
Proof. intros y g y' g' []. apply mono_same; auto. Qed.
Lemma mono_ask : forall v y r y', ask v y = (r, y') -> mono y y'.
Proof. intros v y r y' H. unfold ask in H. inversion H; subst. apply mono_same; reflexivity. Qed.
Lemma mono_add : forall v y ms cb r y', add_timer v y ms cb = (r, y') -> mono y y'.
Proof.
  intros v y ms cb r y' H. unfold add_timer in H. destruct (negb _); inversion H; subst.
  - apply mono_same; reflexivity.
  - split; [split|].
    + cbn. lia.
    + cbn [y_timers]. intros t' [<-|I]; [left; cbn; lia|]. right. exists t'. auto.
    + cbn [y_timers]. intros t I. exists t. cbn. auto.
Qed.
Lemma mono_map : forall y fn, (forall t, tm_id (fn t) = tm_id t /\ tm_cb (fn t) = tm_cb t /\ (tm_dead t = true -> tm_dead (fn t) = true)) ->
  mono y (set_timers y (map fn (y_timers y))).
Proof.
  intros y fn F. split; [split|]; cbn; auto.
  - intros t' I. apply in_map_iff in I. destruct I as (t & <- & I). destruct (F t) as (A & B & C). right. exists t. auto.
  - intros t I. exists (fn t). split; [apply in_map; auto|apply F].
Qed.
Lemma mono_del : forall y id y', del_timer y id = Ok y' -> mono y y'.
Proof.
  intros y id y' H. unfold del_timer in H. destruct (has_timer y id); inversion H; subst. apply mono_map.
  intros t. destruct (Nat.eqb _ _); cbn; auto.
Qed.
Lemma mono_mod : forall y id ms y', mod_timer y id ms = Ok y' -> mono y y'.
Proof.
  intros y id ms y' H. unfold mod_timer in H. destruct (has_timer y id); inversion H; subst. apply mono_map.
  intros t. destruct (Nat.eqb _ _); cbn; auto.
Qed.
Lemma mono_drop : forall y p y', drop_timer y p = Ok y' -> mono y y'.
Proof. intros y [id|] y' H; cbn [drop_timer] in H. { eapply mono_del; eauto. } inversion H; subst. apply mono_refl. Qed.
Lemma fresh_sweep : forall y, fresh_ids y (sweep_timers y).
Proof.
  intros. split; cbn; auto. intros t I. apply filter_In in I. destruct I as [I _]. right. exists t. auto.
Qed.

Lemma mono_log_start : forall v y g y' g' ok, log_start v y g = Ok (y', g', ok) -> mono y y'.
Proof.
  intros v y g y' g' ok H. unfold log_start in H. destruct (l_open g). { inversion H; subst. apply mono_refl. }
  destruct (delete_old_safe v y g) as (S1 & _). apply mono_fs in S1.
  destruct (get_file v (delete_old_logs v y g) g) as [r y2] eqn:GF. destruct (get_file_spec _ _ _ _ _ GF) as (S2 & _).
  apply mono_fs in S2. assert (M : mono y y2) by (eapply mono_trans; eauto). clear S1 S2 GF.
  destruct r. 2:{ inversion H; subst; auto. }
  destruct (add_timer v y2 1000 (CbLogStart (l_ep g))) as [[ts|] y3] eqn:A1; apply mono_add in A1;
  (assert (M2 : mono y y3) by (eapply mono_trans; eauto)).
  - destruct (add_timer v y3 1000 (CbFsync (l_ep g))) as [[tf|] y4] eqn:A2; apply mono_add in A2;
    (assert (M3 : mono y y4) by (eapply mono_trans; eauto)).
    + inversion H; subst; auto.
    + inv_bind H. inversion H; subst. apply mono_del in E. eapply mono_trans; eauto.
  - inversion H; subst; auto.
Qed.
Lemma mono_log_stop : forall v y g y' g', log_stop v y g = Ok (y', g') -> mono y y'.
Proof.
  intros v y g y' g' H. unfold log_stop in H. inv_bind H. inv_bind H. inv_bind H.
  destruct (ask v a1) as [ch y4] eqn:A. apply mono_ask in A. apply mono_drop in E. apply mono_drop in E0. apply mono_drop in E1.
  inversion H; subst; clear H. eapply mono_trans; [exact E|]. eapply mono_trans; [exact E0|]. eapply mono_trans; [exact E1|].
  eapply mono_trans; [exact A|]. destruct (0 <=? ch); [|apply mono_refl]. destruct (y_fs y4); [|apply mono_refl]. apply mono_same; reflexivity.
Qed.

Lemma mono_started : forall v y g y1 g1 y2 g2, remove_start_timeout y g = Ok (y1, g1) -> start_alive v y1 g1 = (y2, g2) -> mono y y2.
Proof.
  intros v y g y1 g1 y2 g2 R A. unfold remove_start_timeout in R. destruct (l_tstart g); [|discriminate]. inv_bind R.
  inversion R; subst; clear R. apply mono_del in E. unfold start_alive in A.
  match type of A with context [add_timer v y1 5000 ?c] => destruct (add_timer v y1 5000 c) as [t y3] eqn:AT end.
  apply mono_add in AT. inversion A; subst. eapply mono_trans; eauto.
Qed.

Lemma mono_bin_start : forall v y g a y' g' a' ok, bin_start v y g a = Ok (y', g', a', ok) -> mono y y'.
Proof. intros v y g a y' g' a' ok H. unfold bin_start in H. inv_bind H. inversion H; subst. eapply mono_log_start; eauto. Qed.
Lemma mono_bin_stop : forall v y g y' g' cs, bin_stop v y g = Ok (y', g', cs) -> mono y y'.
Proof.
  intros v y g y' g' cs H. unfold bin_stop in H. destruct (negb _). { inversion H; subst. apply mono_refl. }
  destruct (send_block_status y g BLOCK_STOP 1) as [[y1 g1] c] eqn:C. inv_bind H. inversion H; subst.
  eapply mono_trans; [eapply mono_calm; eapply calm_block_status; eauto|eapply mono_log_stop; eauto].
Qed.
Lemma mono_bin_restart : forall v y g a y' g' a' cs, bin_restart v y g a = Ok (y', g', a', cs) -> mono y y'.
Proof.
  intros v y g a y' g' a' cs H. unfold bin_restart in H. inv_bind H. inv_bind H. inversion H; subst.
  eapply mono_trans; [eapply mono_bin_stop; eauto|eapply mono_bin_start; eauto].
Qed.
Lemma mono_bin_process : forall v y g a s d y' g' a' cs, bin_process v y g a s d = Ok (y', g', a', cs) -> mono y y'.
Proof.
  intros v y g a s d y' g' a' cs H. unfold bin_process in H. destruct (negb _). { eapply mono_bin_restart; eauto. }
  destruct (ask v y) as [r y1] eqn:A. assert (C : mono y y1) by (eapply mono_ask; eauto).
  destruct (r <? 0). { eapply mono_trans; [exact C|]. eapply mono_bin_restart; eauto. }
  destruct (file_write _ _ _ _ _) as [[r2 y2] g2] eqn:W. apply calm_file_write in W. apply mono_calm in W.
  assert (C2 : mono y y2) by (eapply mono_trans; eauto).
  destruct (_ && _). { eapply mono_trans; [exact C2|]. eapply mono_bin_restart; eauto. }
  destruct (negb _). { inversion H; subst; auto. }
  destruct (send_ack y2 g2 a s) as [[[y3 g3] a3] c3] eqn:K. inversion H; subst. eapply mono_trans; [exact C2|].
  eapply mono_calm. eapply calm_send_ack; eauto.
Qed.
Lemma mono_ul_start : forall v y g u y' g' u' ok, ul_start v y g u = Ok (y', g', u', ok) -> mono y y'.
Proof. intros v y g u y' g' u' ok H. unfold ul_start in H. inv_bind H. inversion H; subst. eapply mono_log_start; eauto. Qed.
Lemma mono_ul_stop : forall f v y g u y' g' u' cs, ul_stop f v y g u = Ok (y', g', u', cs) -> mono y y'.
Proof.
  intros f v y g u y' g' u' cs H. unfold ul_stop in H. destruct (negb _). { inversion H; subst. apply mono_refl. }
  destruct (send_command y g CMD_LOGGING_STOP) as [[y1 g1] c] eqn:C. inv_bind H. inv_bind H. inversion H; subst.
  eapply mono_trans; [eapply mono_calm; eapply calm_send_ctl; eauto|].
  eapply mono_trans; [eapply mono_calm; eapply calm_stop_flush; eauto|eapply mono_log_stop; eauto].
Qed.
Lemma mono_ul_restart : forall f v y g u y' g' u' cs, ul_restart f v y g u = Ok (y', g', u', cs) -> mono y y'.
Proof.
  intros f v y g u y' g' u' cs H. unfold ul_restart in H. inv_bind H. inv_bind H. inversion H; subst.
  eapply mono_trans; [eapply mono_ul_stop; eauto|eapply mono_ul_start; eauto].
Qed.
Lemma mono_ul_process : forall f v y g u mm b y' g' u' mm' cs, ul_process f v y g u mm b = Ok (y', g', u', mm', cs) -> mono y y'.
Proof.
  intros f v y g u mm b y' g' u' mm' cs H. unfold ul_process in H. inv_bind H. inv_bind H.
  destruct (logging_seq _ _) as [[u1 d]|]. 2:{ inversion H; subst. apply mono_refl. }
  destruct (u_hdr u1).
  - inv_bind H. destruct (_ <? _). { inv_bind H. inversion H; subst. eapply mono_ul_restart; eauto. }
    inv_bind H. destruct (negb _). { inv_bind H. inversion H; subst. eapply mono_ul_restart; eauto. }
    inv_bind H. inv_bind H. inv_bind H. inv_bind H. inv_bind H. inversion H; subst. eapply mono_calm. eapply calm_ul_data; eauto.
  - inv_bind H. inversion H; subst. eapply mono_calm. eapply calm_ul_data; eauto.
Qed.
Lemma mono_lstart : forall v y g b y' g' b' ok, lstart v y g b = Ok (y', g', b', ok) -> mono y y'.
Proof.
  intros v y g b y' g' b' ok H. destruct b; cbn [lstart] in H; inv_bind H; inversion H; subst.
  - eapply mono_bin_start; eauto.
  - eapply mono_ul_start; eauto.
  - eapply mono_log_start; eauto.
Qed.
Lemma mono_lstop : forall f v y g b y' g' b' cs, lstop f v y g b = Ok (y', g', b', cs) -> mono y y'.
Proof.
  intros f v y g b y' g' b' ok H. destruct b; cbn [lstop] in H.
  - inv_bind H; inversion H; subst. eapply mono_bin_stop; eauto.
  - inv_bind H; inversion H; subst. eapply mono_ul_stop; eauto.
  - destruct (negb _). { inversion H; subst. apply mono_refl. } inv_bind H; inversion H; subst. eapply mono_log_stop; eauto.
Qed.
Lemma mono_auto : forall f v y g b mem m y' g' b' cs, auto_start_stop f v y g b mem m = Ok (y', g', b', cs) -> mono y y'.
Proof.
  intros f v y g b mem m y' g' b' cs H. unfold auto_start_stop in H.
  destruct (l_target g =? -1). { inversion H; subst. apply mono_refl. }
  destruct (l_mode g).
  - destruct (l_open g). { inversion H; subst. apply mono_refl. }
    inv_bind H. inversion H; subst. apply mono_lstart in E. destruct b0; auto.
  - destruct (_ && _). 2:{ inversion H; subst. apply mono_refl. }
    inv_bind H. destruct (_ && _).
    + inv_bind H. inversion H; subst. apply mono_lstart in E0. destruct b0; auto.
    + destruct (_ && _). { eapply mono_lstop; eauto. } inversion H; subst. apply mono_refl.
  - inversion H; subst. apply mono_refl.
Qed.
Lemma mono_bin_write : forall v y g a mem m y' g' a' cs, bin_write v y g a mem m = Ok (y', g', a', cs) -> mono y y'.
Proof.
  intros v y g a mem m y' g' a' cs H. unfold bin_write in H. destruct (negb _). { inversion H; subst. apply mono_refl. }
  destruct (v_tbl v (m_id m)) as [e|]. 2:{ inversion H; subst. apply mono_refl. }
  inv_bind H. inv_bind H. inv_bind H. inv_bind H.
  match goal with E : match l_tstart g with _ => _ end = Ok (?s, ?l, _, _) |- _ => assert (C : mono y s); [|clear E] end.
  { destruct (l_tstart g) as [ts|] eqn:TS.
    - destruct (a0 =? 0).
      + inv_bind E2. destruct (start_alive v s0 l2) as [y2 g2] eqn:A. inversion E2; subst. eapply mono_started; eauto.
      + destruct (send_block_status y g BLOCK_STOP 1) as [[y2 g2] c] eqn:S. inversion E2; subst. eapply mono_calm. eapply calm_block_status; eauto.
    - inversion E2; subst. apply mono_refl. }
  destruct b.
  - inv_bind H. inv_bind H. inversion H; subst. eapply mono_trans; [exact C|]. eapply mono_trans; [eapply mono_bin_process; eauto|].
    apply mono_refl.
  - inversion H; subst; auto.
Qed.
Lemma mono_ul_write : forall f v y g u mem m y' g' u' mem' cs, ul_write f v y g u mem m = Ok (y', g', u', mem', cs) -> mono y y'.
Proof.
  intros f v y g u mem m y' g' u' mem' cs H. unfold ul_write in H. destruct (negb _). { inversion H; subst. apply mono_refl. }
  destruct (v_tbl v (m_id m)) as [e|]. 2:{ inversion H; subst. apply mono_refl. }
  inv_bind H. destruct (m_id m =? 77).
  - inv_bind H. destruct (ask_bytes (3 - length a) v y) as [junk y1] eqn:J. apply (calm_ask_bytes _ _ _ g) in J. apply mono_calm in J.
    inv_bind H. inv_bind H. inv_bind H. destruct (l_tstart g) eqn:TS. 2:{ inversion H; subst; auto. }
    destruct (_ =? _). 2:{ inversion H; subst; auto. }
    destruct (_ =? _).
    + inv_bind H. destruct (start_alive v s l) as [y2 g2] eqn:A. inversion H; subst. eapply mono_trans; [exact J|].
      eapply mono_trans; [eapply mono_started; eauto|]. apply mono_refl.
    + inversion H; subst. eapply mono_trans; [exact J|]. apply mono_refl.
  - inv_bind H. assert (C : mono y s).
    { destruct (m_id m =? 267).
      - inv_bind E0. inv_bind E0. destruct (send_ctl _ _ _ _ _) as [[y2 g2] c] eqn:S. inversion E0; subst. eapply mono_calm. eapply calm_send_ctl; eauto.
      - inversion E0; subst. apply mono_refl. }
    destruct (_ =? 0).
    + inv_bind H. inversion H; subst. eapply mono_trans; [exact C|]. eapply mono_trans; [eapply mono_ul_process; eauto|].
      apply mono_refl.
    + inv_bind H. inv_bind H. inversion H; subst. eapply mono_trans; [exact C|]. eapply mono_trans; [eapply mono_ul_process; eauto|].
      apply mono_refl.
Qed.
Lemma mono_lwrite : forall f v y g b mem m y' g' b' mem' cs, lwrite f v y g b mem m = Ok (y', g', b', mem', cs) ->
  mono y y'.
Proof.
  intros f v y g b mem m y' g' b' mem' cs H. unfold lwrite in H. inv_bind H. apply mono_auto in E.
  destruct b0; inv_bind H; inversion H; subst; (eapply mono_trans; [exact E|]).
  - eapply mono_bin_write; eauto.
  - eapply mono_ul_write; eauto.
  - eapply mono_calm. eapply calm_tele_write; eauto.
Qed.
Lemma mono_cb_start : forall y g b y' g' cs, lcb_start y g b = (y', g', cs) -> mono y y'.
Proof.
  intros y g b y' g' cs H. destruct b; cbn [lcb_start] in H.
  - destruct (send_block_status y g BLOCK_START 1) as [[y2 g2] c] eqn:S. inversion H; subst. eapply mono_calm. eapply calm_block_status; eauto.
  - destruct (send_command y g CMD_LOGGING_START) as [[y2 g2] c] eqn:S. inversion H; subst. eapply mono_calm. eapply calm_send_ctl; eauto.
  - inversion H; subst. apply mono_refl.
Qed.
Lemma mono_cb_alive : forall f v y g b y' g' b' cs, lcb_alive f v y g b = Ok (y', g', b', cs) -> mono y y'.
Proof.
  intros f v y g b y' g' b' cs H. unfold lcb_alive in H. inv_bind H. inversion H; subst; clear H.
  eapply mono_trans; [|apply mono_refl]. destruct (_ =? _).
  - inv_bind E. inv_bind E. inversion E; subst. eapply mono_trans; [eapply mono_lstop; eauto|eapply mono_lstart; eauto].
  - inversion E; subst. apply mono_refl.
Qed.
