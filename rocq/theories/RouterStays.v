(* While a batch of events is handled nothing is destroyed: endpoints and timers stay, and only errors and signals ask for exit. *)
From Verif Require Import Base Mav SpecFrame Frame Dedup Accept Names NamesProofs Sys LogFile LogFileProofs ULog Loggers LogInv LogStep LogMono
  RouterCtl Router RouterRoute RouterRoute2 RouterSetup RouterActs RouterInv RouterLearn RouterStep RouterStart RouterHist SpecRouter SpecLife
  RouterTimers RouterTimers2.

Definition still_there (w w' : world) : Prop :=
  mono (w_sys w) (w_sys w') /\ forall k e, lookup w k = Some e -> exists e', lookup w' k = Some e' /\ class (ep_kind e) (ep_kind e').
Definition stays (w w' : world) : Prop := still_there w w' /\ w_exit w' = w_exit w.

Lemma there_refl : forall w, still_there w w.
Proof. intros. split; [apply mono_refl|]. intros k e L. exists e. split; auto. apply class_refl. Qed.
Lemma there_trans : forall a b c, still_there a b -> still_there b c -> still_there a c.
Proof.
  intros a b c [A1 A2] [B1 B2]. split; [eapply mono_trans; eauto|]. intros k e L. destruct (A2 _ _ L) as (e1 & L1 & C1). destruct (B2 _ _ L1) as (e2 & L2 & C2).
  exists e2. split; auto. eapply class_trans; eauto.
Qed.
Lemma stays_refl : forall w, stays w w.
Proof. intros. split; auto. apply there_refl. Qed.
Lemma stays_trans : forall a b c, stays a b -> stays b c -> stays a c.
Proof. intros a b c [A1 A2] [B1 B2]. split; [eapply there_trans; eauto|congruence]. Qed.

Lemma there_kept : forall w w', kept w w' -> mono (w_sys w) (w_sys w') -> still_there w w'.
Proof. intros w w' K M. split; auto. intros k e L. destruct (kept_lookup _ _ _ _ K L) as (e' & L' & KE). exists e'. split; auto. apply KE. Qed.
Lemma there_alike : forall w w', alike w w' -> still_there w w'.
Proof.
  intros w w' (A & B & C). split; [apply mono_same; auto|]. intros k e L. specialize (C k). rewrite L in C. destruct (lookup w' k) as [e'|]; [|destruct C].
  exists e'. split; auto. destruct C as [-> _]. apply class_refl.
Qed.
Lemma there_eps : forall w w', w_sys w' = w_sys w -> w_eps w' = w_eps w -> still_there w w'.
Proof. intros w w' A B. apply there_alike. apply alike_eps; auto. Qed.

Lemma exit_learn : forall n w i id w', learn n w i id = Ok w' -> w_exit w' = w_exit w.
Proof.
  induction n; intros w i id w' H; [discriminate|]. cbn [learn] in H. inv_bind H.
  destruct (contains _ _). { inversion H; subst. auto. }
  assert (A : w_exit (put w i (set_ids a (ep_ids a ++ [id]))) = w_exit w) by reflexivity. rewrite <- A. clear A E. revert H.
  generalize (put w i (set_ids a (ep_ids a ++ [id]))). generalize (ep_members a).
  induction l as [|j r IHr]; intros x H. { inversion H; subst. auto. }
  inv_bind H. rewrite <- (IHn _ _ _ _ E). eapply IHr; eauto.
Qed.

Lemma stays_dup : forall v w pkt w' b, check_dup v w pkt = Ok (w', b) -> stays w w'.
Proof.
  intros v w pkt w' b H. split; [apply there_alike; eapply dup_alike; eauto|]. unfold check_dup in H. destruct (_ =? 0). { inversion H; subst. auto. }
  destruct (ask v (w_sys w)). inv_bind H. inversion H; subst. reflexivity.
Qed.

Lemma stays_msg : forall f v w i m w' its, handle_msg f v w i m = Ok (w', its) -> stays w w'.
Proof.
  intros f v w i m w' its H. unfold handle_msg in H. inv_bind H. inv_bind H. inv_bind H.
  match goal with D : check_dup _ _ _ = Ok (?x, _) |- _ => rename x into w1; apply stays_dup in D; rename D into S1 end.
  destruct (negb b). { inversion H; subst; auto. }
  destruct (negb _). { inversion H; subst; auto. }
  inv_bind H. inv_bind H. inv_bind H. inv_bind H. inversion H; subst; clear H.
  eapply stays_trans; [exact S1|].
  match goal with D : learn _ _ _ _ = Ok ?x |- _ => rename x into w2; apply stays_trans with w2; [split; [apply there_alike; eapply learn_alike; eauto|eapply exit_learn; eauto]|] end.
  match goal with R : route _ _ _ _ _ _ = Ok (?x, _, _, _) |- _ => rename x into w3; apply stays_trans with w3; [split; [apply there_kept; [eapply kept_route; eauto|eapply route_good; eauto]|]|] end.
  - match goal with R : route _ _ _ _ _ _ = _ |- _ => apply route_spec in R; apply (proj1 R) end.
  - match goal with G : get w3 i = Ok ?e |- _ => apply get_lookup in G; split; [apply there_alike; eapply alike_put; eauto|reflexivity] end.
Qed.

Lemma stays_baud : forall w i e w', keep_baud w i e = Ok w' -> lookup w i = Some e -> stays w w'.
Proof.
  intros w i e w' H L. split.
  - apply there_kept; [eapply kept_baud; eauto|]. eapply (baud_good (mkEnv (fun _ => None) (fun _ => 0) (fun _ => 0) (fun _ => true))); eauto.
  - unfold keep_baud in H. destruct (ep_kind e) as [b c [t|]|c pe p|r vl|l]; try (inversion H; subst; auto; fail). inv_bind H. inversion H; subst. reflexivity.
Qed.

Lemma there_sys : forall w y y', stays w (set_sys w y) -> mono y y' -> stays w (set_sys w y').
Proof.
  intros w y y' [[A B] C] M. split; [split|]; auto.
  - cbn [w_sys set_sys] in *. eapply mono_trans; eauto.
Qed.

Lemma stays_os : forall v w i e o w' rr, os_read v w i e o = Ok (w', rr) -> lookup w i = Some e -> ep_fd e = true -> stays w w'.
Proof.
  intros v w i e o w' rr H L F. split.
  - apply there_kept; [eapply kept_os_read; eauto|]. eapply (os_read_T v w i e o w' rr (fun _ => 0)); eauto.
  - unfold os_read in H. destruct o as [bs from| |n]; try (inversion H; subst; auto; fail). destruct (ep_kind e); try (inversion H; subst; auto; fail).
    + inv_bind H. inversion H; subst. reflexivity.
    + destruct bs; [|inversion H; subst; auto]. destruct (_ =? 0)%nat; [inversion H; subst; auto|]. destruct (tcp_lost _ _ _ _ _). inversion H; subst. reflexivity.
Qed.

(* rx_ok is only needed to use the lemma about kept endpoints *)
Lemma stays_rx : forall w i e x st, lookup w i = Some e -> stays w (put w i (set_rx e x st)).
Proof. intros w i e x st L. split; [apply there_alike; eapply alike_put; eauto|reflexivity]. Qed.

Lemma stays_loop : forall f v n w i rr w' its r, read_loop n f v w i rr = Ok (w', its, r) -> stays w w'.
Proof.
  intros f v. induction n; intros w i rr w' its r H; [discriminate|]. cbn [read_loop] in H. inv_bind H. apply get_lookup in E. rename a into e.
  destruct (ep_fd e) eqn:F; cbn [negb] in H. 2:{ inversion H; subst. apply stays_refl. }
  inv_bind H. match type of H with context [match ?q with RetNone _ => _ | RetMsg _ _ => _ end] => destruct q as [rq|known mq] end.
  - inversion H; subst. apply stays_rx; auto.
  - inv_bind H. inv_bind H. inv_bind H. inversion H; subst. eapply stays_trans; [apply stays_rx; eauto|].
    match goal with X : (if known then _ else _) = Ok ?q |- _ => apply stays_trans with q; [destruct known; [eapply stays_baud; eauto; eapply lookup_put_eq; eauto|inversion X; subst; apply stays_refl]|] end.
    eapply stays_trans; [eapply stays_msg; eauto|]. eapply IHn; eauto.
Qed.

Lemma stays_read : forall f v w i o w' its r, handle_read f v w i o = Ok (w', its, r) -> stays w w'.
Proof.
  intros f v w i o w' its r H. unfold handle_read in H. inv_bind H. apply get_lookup in E. rename a into e.
  destruct (ep_fd e) eqn:F; cbn [negb] in H. 2:{ inversion H; subst. apply stays_refl. }
  destruct (needs_read (ep_rx e)) eqn:NR; [|eapply stays_loop; eauto].
  inv_bind H. match goal with X : os_read _ _ _ _ _ = _ |- _ => pose proof (stays_os _ _ _ _ _ _ _ X E F) as S end.
  match type of H with context [match ?q with RdBytes _ => _ | RdFail _ => _ end] => destruct q end.
  - inv_bind H. inversion H; subst. eapply stays_trans; [exact S|]. eapply stays_loop; eauto.
  - inversion H; subst. auto.
Qed.

Lemma exit_aggregate : forall w w', cb_aggregate w = Ok w' -> w_exit w' = w_exit w.
Proof.
  intros w w' H. unfold cb_aggregate in H. change (w_exit w) with (w_exit (set_unknown w 0)). generalize dependent (set_unknown w 0). generalize (w_order w).
  assert (NU : forall l (s : res world), (forall u, s <> Ok u) -> forall u', fold_left (fun rw i => let* w := rw in let* e := get w i in Ok (put w i (set_wstat e (ep_wtotal e) (ep_wbytes e) 0))) l s <> Ok u').
  { induction l; intros s N u'; cbn [fold_left]; [apply N|]. apply IHl. intros u. destruct s as [z| |]; cbn; [exfalso; exact (N z eq_refl)|discriminate|discriminate]. }
  induction l as [|i l IH]; intros u H; cbn [fold_left] in H. { inversion H; auto. }
  cbn [bind] in H. destruct (get u i) as [e| |]; cbn [bind] in H; try (exfalso; eapply NU; [|exact H]; intros; discriminate). apply IH in H. exact H.
Qed.
Lemma exit_ctls : forall f v w i cs w' its, route_ctls (route_sub f v) w i cs = Ok (w', its) -> w_exit w' = w_exit w.
Proof. intros f v w i cs w' its H. eapply ctls_routed in H; [|apply (nested_routed NEST)]. apply H. Qed.
Lemma exit_cb : forall f v w cb w' its again, run_cb f v w cb = Ok (w', its, again) -> w_exit w' = w_exit w.
Proof.
  intros f v w cb w' its again H.
  assert (LG : forall i kk, log_cb w i kk f v = Ok (w', its, again) -> w_exit w' = w_exit w).
  { intros i kk X. unfold log_cb in X. inv_bind X.
    destruct (ep_kind a) as [| | |[g b|q]]; try discriminate; [|destruct (a_inner q) as [[g b]|]; try discriminate]; inv_bind X; inv_bind X; inversion X; subst;
      match goal with R : route_ctls _ _ _ _ = _ |- _ => apply exit_ctls in R; exact R end. }
  destruct cb; cbn [run_cb] in H; try (eapply LG; eauto; fail).
  - inv_bind H. inversion H; subst. eapply exit_aggregate; eauto.
  - inversion H; subst. auto.
  - inv_bind H. inversion H; subst. unfold cb_baud in E. inv_bind E. destruct (ep_kind a) as [[|b0 bs] ? ?| | |]; try discriminate. destruct (ask _ _). inversion E; subst. reflexivity.
  - inv_bind H. inversion H; subst. unfold cb_nomsg in E. inv_bind E. destruct (ep_kind a) as [|? ? [?|]| |]; try discriminate. inv_bind E. inversion E; subst. reflexivity.
  - inv_bind H. inversion H; subst. unfold cb_retry in E. inv_bind E. destruct (ep_kind a); try discriminate. destruct (ask _ _). destruct (_ <? 0). { inversion E; subst. reflexivity. }
    destruct (add_fd _ _ _). inversion E; subst. reflexivity.
Qed.

Lemma stays_timer : forall f v w t fired w' its, timer_read f v w t fired = Ok (w', its) -> logs_ok w -> stays w w'.
Proof.
  intros f v w t fired w' its H LO. split.
  - apply there_kept; [eapply kept_timer; eauto|]. eapply timer_T; eauto.
  - unfold timer_read in H. destruct (find_timer (w_sys w) t) as [x|]; [|discriminate]. destruct (_ || _). { inversion H; subst. auto. }
    inv_bind H. inv_bind H. inversion H; subst. cbn. eapply exit_cb; eauto.
Qed.

Lemma there_conn : forall v w, stays w (fst (tcp_connection v w)).
Proof.
  intros v w. destruct (conn_T v w (fun _ => 0)) as [M _]. split; [split; [exact M|]|].
  - intros k e L. exists e. split; [|apply class_refl]. unfold tcp_connection. destruct (ask v (w_sys w)) as [r y1]. destruct (r <? 0). { cbn [fst]. rewrite lookup_sys. auto. }
    destruct (ask_bytes RXMAX v y1) as [j y2]. destruct (add_fd _ _ _) as [y3 e3]. cbn [fst]. unfold lookup in *. cbn [w_eps set_order set_eps]. rewrite nth_error_app1; auto.
    apply nth_error_Some. destruct (nth_error (w_eps w) k); [discriminate|discriminate L].
  - unfold tcp_connection. destruct (ask v (w_sys w)) as [r y1]. destruct (r <? 0); auto.
Qed.

(* what an event asks for: exit with a code, or nothing *)
Definition wants_exit (w : world) (ev : event) : option Z :=
  match ev with
  | EEp i _ _ true => match lookup w i with Some e => if is_critical e then Some 1 else None | None => None end
  | ETimer _ _ true => Some 1
  | ESignal => Some 0
  | _ => None
  end.

Lemma class_critical : forall e e', class (ep_kind e) (ep_kind e') -> is_critical e' = is_critical e.
Proof. intros e e' C. unfold is_critical. destruct (ep_kind e), (ep_kind e'); cbn in C; try destruct C; auto. Qed.

Lemma event_there : forall f v w ev w' its, handle_event f v w ev = Ok (w', its) -> logs_ok w ->
  still_there w w' /\ w_exit w' = match wants_exit w ev with Some c => Some c | None => w_exit w end.
Proof.
  intros f v w ev w' its H LO. destruct ev as [|i rd out err|t fired err|]; cbn [handle_event] in H.
  - assert (Z : tcp_connection v w = (w', its)) by congruence. replace w' with (fst (tcp_connection v w)) by (rewrite Z; auto). destruct (there_conn v w) as [A B]. cbn [wants_exit]. auto.
  - inv_bind H. inv_bind H. inv_bind H. inv_bind H.
    match goal with X : get w i = Ok ?q |- _ => rename X into G0; rename q into e0; apply get_lookup in G0 end.
    match goal with X : (match rd with None => _ | Some _ => _ end) = Ok (?q, _) |- _ => rename X into E0; rename q into w1 end.
    match goal with X : get w1 i = Ok ?q |- _ => rename X into G1; rename q into e1; apply get_lookup in G1 end.
    assert (S1 : stays w w1).
    { destruct rd as [o|]; [|inversion E0; subst; apply stays_refl]. inv_bind E0. inv_bind E0. inversion E0; subst; clear E0.
      match goal with X : handle_read _ _ _ _ _ = _ |- _ => apply stays_read in X; rename X into S end.
      destruct (_ && _); auto. }
    match goal with X : get (if out then ?p else ?q) i = _ |- _ => set (w2 := if out then p else q) in *; assert (S2 : stays w1 w2) end.
    { unfold w2. destruct out; [|apply stays_refl]. destruct (mod_fd v (w_sys w1) e1 false) as [[y2 e2] q] eqn:M. destruct (mod_fd_same2 _ _ _ _ _ _ _ M) as (Q1 & Q2 & Q3 & Q4).
      split; [|reflexivity]. apply there_alike. eapply alike_ask; eauto. }
    match goal with X : get w2 i = Ok ?q |- _ => rename X into G2; rename q into e2; apply get_lookup in G2 end.
    pose proof (stays_trans _ _ _ S1 S2) as [S X]. destruct (proj2 S _ _ G0) as (e2' & L2 & CL). assert (e2' = e2) by congruence. subst e2'.
    cbn [wants_exit]. rewrite G0, <- (class_critical _ _ CL). inversion H; subst w' its. clear H. destruct err; cbn [andb]; auto.
    destruct (is_critical e2); auto.
  - inv_bind H. match goal with X : timer_read _ _ _ _ _ = _ |- _ => apply stays_timer in X; auto; destruct X as [S X] end. inversion H; subst. cbn [wants_exit].
    destruct err; auto.
  - inversion H; subst. split; [apply there_eps; reflexivity|reflexivity].
Qed.

Lemma event_inv : forall f v w ev w' its, wf_table (v_tbl v) -> handle_event f v w ev = Ok (w', its) -> wf_ev ev -> Inv w -> Inv w'.
Proof.
  intros f v w ev w' its WT H W I. apply handle_event_acts in H; auto. clear W. induction H; auto. apply IHacts. eapply inv_act; eauto.
Qed.
Lemma events_there : forall f v evs w w' its, wf_table (v_tbl v) -> handle_events f v w evs = Ok (w', its) -> Forall wf_ev evs -> Inv w -> still_there w w' /\ Inv w'.
Proof.
  intros f v. induction evs as [|ev evs IH]; intros w w' its WT H W I; cbn [handle_events] in H. { inversion H; subst. split; auto. apply there_refl. }
  inversion W; subst. inv_bind H. inv_bind H. inversion H; subst; clear H.
  match goal with X : handle_event _ _ _ _ = _ |- _ => destruct (event_there _ _ _ _ _ _ X (inv_logs _ I)) as [S _]; apply event_inv in X; auto end.
  match goal with X : handle_events _ _ _ _ = _ |- _ => apply IH in X; auto; destruct X as [S2 I2] end. split; auto. eapply there_trans; eauto.
Qed.

(* ---- the TCP server is never closed ----------------------------------------------------------------------------- *)
Lemma server_learn : forall n w i id w', learn n w i id = Ok w' -> w_server w' = w_server w.
Proof.
  induction n; intros w i id w' H; [discriminate|]. cbn [learn] in H. inv_bind H.
  destruct (contains _ _). { inversion H; subst. auto. }
  assert (A : w_server (put w i (set_ids a (ep_ids a ++ [id]))) = w_server w) by reflexivity. rewrite <- A. clear A E. revert H.
  generalize (put w i (set_ids a (ep_ids a ++ [id]))). generalize (ep_members a).
  induction l as [|j r IHr]; intros x H. { inversion H; subst. auto. }
  inv_bind H. rewrite <- (IHn _ _ _ _ E). eapply IHr; eauto.
Qed.
Lemma server_conn : forall v w, w_server (fst (tcp_connection v w)) = w_server w.
Proof.
  intros v w. unfold tcp_connection. destruct (ask v (w_sys w)) as [r y]. destruct (r <? 0); auto.
Qed.
Lemma act_server : forall f v w its w', wf_table (v_tbl v) -> act f v w its w' -> Inv w -> w_server w' = w_server w.
Proof.
  intros f v w its w' WT A I. inversion A; subst.
  - eapply kp_server. eapply kept_os_read; eauto.
  - auto.
  - destruct (recv_before f v w i e rr x st known m w1 WT I H H0 H1 H2 H3 _ _ H4) as (K & _). rewrite <- (kp_server _ _ K).
    destruct (handle_inv _ _ _ _ _ _ _ H4) as (e1 & pkt & w2 & fresh & L & SL & CD & C). apply check_dup_eps in CD. destruct CD as [_ KD]. apply kp_server in KD.
    destruct C as [(_ & -> & _)|[(_ & _ & -> & _)|(_ & _ & w3 & e2 & w4 & mem & ds & its' & e3 & LE & _ & RT & _ & -> & _)]]; auto.
    cbn [w_server put set_eps]. rewrite <- KD. apply server_learn in LE. rewrite <- LE. change (w_server (put w4 i (set_rx e3 (mkRx mem (rx_len (ep_rx e3)) (rx_last (ep_rx e3))) (ep_rstat e3)))) with (w_server w4).
    eapply kp_server. eapply kept_route; eauto.
  - apply server_conn.
  - auto.
  - eapply kp_server. eapply kept_timer; eauto.
  - auto.
  - auto.
  - unfold process_hangups in H. destruct (w_hang w); [|inversion H; subst; auto]. inv_bind H. inversion H; subst.
    match goal with X : hangups _ _ = _ |- _ => apply hangups_spec in X; [destruct X as (X & _)|apply inv_sym; auto] end.
    match goal with X : _ = set_eps w _ |- _ => cbn; rewrite X; reflexivity end.
  - auto.
Qed.
