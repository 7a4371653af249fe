(* An iteration of the main loop as a sequence of elementary acts. *)
From Verif Require Import Base Mav Frame Dedup Accept Names Sys LogFile ULog Loggers LogInv LogStep RouterCtl Router RouterRoute RouterSetup.

Definition wf_rd (rr : rdres) : Prop := match rr with RdBytes a => bytes a | RdFail _ => True end.

Inductive act (f : nat) (v : env) : world -> list item -> world -> Prop :=
| a_read : forall w i e o w' rr, lookup w i = Some e -> ep_fd e = true -> needs_read (ep_rx e) = true -> wf_read o ->
    os_read v w i e o = Ok (w', rr) -> act f v w [IRead i o] w'
| a_idle : forall w i e rr x st r, lookup w i = Some e -> ep_fd e = true -> wf_rd rr ->
    read_msg (v_tbl v) (ep_rx e) (ep_rstat e) rr = Ok (x, st, RetNone r) -> act f v w [] (put w i (set_rx e x st))
| a_recv : forall w i e rr x st known m w1 w2 its, lookup w i = Some e -> ep_fd e = true -> wf_rd rr ->
    read_msg (v_tbl v) (ep_rx e) (ep_rstat e) rr = Ok (x, st, RetMsg known m) ->
    (if known then keep_baud (put w i (set_rx e x st)) i (set_rx e x st) else Ok (put w i (set_rx e x st))) = Ok w1 ->
    handle_msg f v w1 i m = Ok (w2, its) -> act f v w its w2
| a_conn : forall w, act f v w (snd (tcp_connection v w)) (fst (tcp_connection v w))
| a_out : forall w i e y e' r, lookup w i = Some e -> mod_fd v (w_sys w) e false = (y, e', r) -> act f v w [] (put (set_sys w y) i e')
| a_timer : forall w t fired w' its, timer_read f v w t fired = Ok (w', its) -> act f v w its w'
| a_exit : forall w c, act f v w [] (set_exit w (Some c))
| a_hang : forall w, act f v w [] (set_hang w true)
| a_hangups : forall w w' its, process_hangups w = Ok (w', its) -> act f v w its w'
| a_sweep : forall w, act f v w [] (set_sys w (sweep_timers (w_sys w))).

Inductive acts (f : nat) (v : env) : world -> list item -> world -> Prop :=
| acts_nil : forall w, acts f v w [] w
| acts_cons : forall w its w1 its' w2, act f v w its w1 -> acts f v w1 its' w2 -> acts f v w (its ++ its') w2.

Lemma acts_one : forall f v w its w', act f v w its w' -> acts f v w its w'.
Proof. intros. rewrite <- (app_nil_r its). econstructor; eauto. constructor. Qed.
Lemma acts_app : forall f v w a w1 b w2, acts f v w a w1 -> acts f v w1 b w2 -> acts f v w (a ++ b) w2.
Proof. intros f v w a w1 b w2 H. induction H; intros K; cbn; auto. rewrite <- app_assoc. econstructor; eauto. Qed.
Lemma acts_app_nil : forall f v w a w1 w2, acts f v w a w1 -> acts f v w1 [] w2 -> acts f v w a w2.
Proof. intros. rewrite <- (app_nil_r a). eapply acts_app; eauto. Qed.

Lemma read_loop_acts : forall f v n w i rr w' its r, read_loop n f v w i rr = Ok (w', its, r) -> wf_rd rr -> acts f v w its w'.
Proof.
  intros f v. induction n; intros w i rr w' its r H W; [discriminate|]. cbn [read_loop] in H. inv_bind H. apply get_lookup in E. rename a into e.
  destruct (ep_fd e) eqn:F; cbn [negb] in H. 2:{ inversion H; subst. constructor. }
  inv_bind H. match type of H with context [match ?q with RetNone _ => _ | RetMsg _ _ => _ end] => destruct q as [rq|known mq] end.
  - inversion H; subst. apply acts_one. eapply a_idle; eauto.
  - inv_bind H. inv_bind H. inv_bind H. inversion H; subst. eapply acts_app.
    + apply acts_one. eapply a_recv; eauto.
    + eapply IHn; eauto. exact I.
Qed.

Lemma os_read_wf : forall v w i e o w' rr, os_read v w i e o = Ok (w', rr) -> wf_read o -> wf_rd rr.
Proof.
  intros v w i e o w' rr H W. destruct o as [bs from| |n]; cbn [os_read] in H; try (inversion H; subst; exact I).
  destruct (ep_kind e).
  - inversion H; subst. exact W.
  - inv_bind H. inversion H; subst. exact W.
  - destruct bs. { destruct (_ =? 0)%nat. { inversion H; subst. exact I. } destruct (tcp_lost _ _ _ _ _). inversion H; subst. exact I. }
    inversion H; subst. exact W.
  - inversion H; subst. exact W.
Qed.

Lemma handle_read_acts : forall f v w i o w' its r, handle_read f v w i o = Ok (w', its, r) -> wf_read o -> acts f v w its w'.
Proof.
  intros f v w i o w' its r H W. unfold handle_read in H. inv_bind H. apply get_lookup in E. rename a into e.
  destruct (ep_fd e) eqn:F; cbn [negb] in H. 2:{ inversion H; subst. constructor. }
  destruct (needs_read (ep_rx e)) eqn:NR.
  - inv_bind H. pose proof (os_read_wf _ _ _ _ _ _ _ E0 W) as W2.
    assert (A : act f v w [IRead i o] w0) by (eapply a_read; eauto).
    match type of H with context [match ?q with RdBytes _ => _ | RdFail _ => _ end] => destruct q end.
    + inv_bind H. inversion H; subst. change (IRead i o :: l) with ([IRead i o] ++ l). eapply acts_app; [apply acts_one; eauto|].
      eapply read_loop_acts; eauto.
    + inversion H; subst. apply acts_one; auto.
  - eapply read_loop_acts; eauto. exact I.
Qed.

Definition wf_ev (ev : event) : Prop := match ev with EEp _ (Some o) _ _ => wf_read o | _ => True end.

Lemma handle_event_acts : forall f v w ev w' its, handle_event f v w ev = Ok (w', its) -> wf_ev ev -> acts f v w its w'.
Proof.
  intros f v w ev w' its H W. destruct ev as [|i rd out err|t fired err|]; cbn [handle_event] in H.
  - inversion H; subst. apply acts_one. replace its with (snd (tcp_connection v w)) by (rewrite H1; auto).
    replace w' with (fst (tcp_connection v w)) by (rewrite H1; auto). apply a_conn.
  - inv_bind H. inv_bind H. inv_bind H. inv_bind H. inversion H; subst; clear H.
    assert (A1 : acts f v w its w0).
    { destruct rd as [o|].
      - inv_bind E0. inv_bind E0. inversion E0; subst; clear E0. cbn in W. eapply acts_app_nil; [eapply handle_read_acts; eauto|].
        destruct (_ && _); [apply acts_one, a_hang|constructor].
      - inversion E0; subst. constructor. }
    apply get_lookup in E1. eapply acts_app_nil; [exact A1|].
    destruct out.
    + destruct (mod_fd v (w_sys w0) a0 false) as [[y2 e2] q] eqn:M. rewrite <- (app_nil_r []). eapply acts_app; [apply acts_one; eapply a_out; eauto|].
      destruct (_ && _); [apply acts_one, a_exit|constructor].
    + destruct (_ && _); [apply acts_one, a_exit|constructor].
  - inv_bind H. inversion H; subst. eapply acts_app_nil; [apply acts_one; eapply a_timer; eauto|].
    destruct err; [apply acts_one, a_exit|constructor].
  - inversion H; subst. apply acts_one, a_exit.
Qed.

Lemma handle_events_acts : forall f v evs w w' its, handle_events f v w evs = Ok (w', its) -> Forall wf_ev evs -> acts f v w its w'.
Proof.
  intros f v. induction evs as [|e r IH]; intros w w' its H F; cbn [handle_events] in H.
  - inversion H; subst. constructor.
  - inversion F; subst. inv_bind H. inv_bind H. inversion H; subst. eapply acts_app; [eapply handle_event_acts; eauto|eauto].
Qed.

Lemma step_acts : forall f v w evs w' its, step f v w evs = Ok (w', its) -> Forall wf_ev evs -> acts f v w its w'.
Proof.
  intros f v w evs w' its H F. unfold step in H. inv_bind H. inv_bind H. inversion H; subst.
  eapply acts_app; [eapply handle_events_acts; eauto|]. eapply acts_app_nil; [apply acts_one, a_hangups; eauto|]. apply acts_one, a_sweep.
Qed.

Lemma exec_acts : forall f v w0 its w, exec f v w0 its w -> acts f v w0 its w.
Proof.
  intros f v w0 its w H. induction H. { constructor. }
  eapply acts_app; [eauto|]. eapply step_acts; eauto. eapply Forall_impl; [|eauto]. intros e [_ X]. destruct e as [|? [?|] ? ?| |]; exact X || exact I.
Qed.

(* properties of states and histories *)
Lemma acts_ind_inv : forall f v (P : list item -> world -> Prop),
  (forall h w its w', P h w -> act f v w its w' -> P (h ++ its) w') ->
  forall w its w', acts f v w its w' -> forall h, P h w -> P (h ++ its) w'.
Proof.
  intros f v P S w its w' H. induction H; intros h K. { rewrite app_nil_r; auto. }
  rewrite app_assoc. apply IHacts. eapply S; eauto.
Qed.
Lemma exec_inv : forall f v (P : list item -> world -> Prop),
  (forall h w its w', P h w -> act f v w its w' -> P (h ++ its) w') ->
  forall w0 its w, exec f v w0 its w -> P [] w0 -> P its w.
Proof. intros f v P S w0 its w E H. apply exec_acts in E. apply (acts_ind_inv f v P S _ _ _ E [] H). Qed.
