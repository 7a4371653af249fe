(* More about single endpoints over a run: would-block writes and the fallback timer's owners. *)
From Coq Require Import Permutation.
From Verif Require Import Base Mav SpecCrc SpecFrame Frame FrameProofs FrameRefine FrameLink Dedup SpecAccept Accept AcceptProofs Names Sys LogFile LogFileProofs ULog Loggers LogInv LogStep RouterCtl Router
  RouterRoute RouterRoute2 RouterSetup RouterActs RouterInv RouterLearn RouterStep RouterStart RouterHist SpecRouter SpecLife RouterTrace RouterLife RouterLife2 RouterLife3.

Definition blocked (d : delivery) : Prop := exists a, dl_call d = DSent a (- EAGAIN).

Lemma one_blocked : forall e d e', one e d e' -> is_log e = false -> (blocked d <-> dl_req d <> None) /\
  (blocked d -> mild e e' /\ ep_ids e' = ep_ids e /\ ep_rx e' = ep_rx e /\ ep_members e' = ep_members e /\ ep_filters e' = ep_filters e /\
                ep_poll e' = match ep_poll e, dl_req d with Some p, Some r => Some (if r <? 0 then p else true) | p, _ => p end).
Proof.
  intros e d e' (f & v & w & i & mem & m & w' & mem' & cs & L & D & L') NL. unfold deliver in D. inv_bind D. inv_bind D.
  match goal with E : write_ep _ _ _ _ _ _ _ = Ok (?a, ?b, ?c, ?d0, ?e0, ?f0) |- _ => rename a into y1; rename b into e1; rename c into mem1; rename d0 into ret; rename e0 into call; rename f0 into cs1; rename E into W end.
  destruct (if ret =? - EAGAIN then _ else _) as [[y2 e2] req] eqn:MF.
  assert (DW : w' = (if ret =? - EPIPE then set_hang (put (set_sys w y2) i e2) true else put (set_sys w y2) i e2)) by congruence. assert (DD : d = mkDel i a call req) by congruence. subst w' d. clear D. assert (e' = e2).
  { assert (X : lookup (put (set_sys w y2) i e2) i = Some e2) by (eapply lookup_put_eq; rewrite lookup_sys; eauto). revert L'. destruct (ret =? - EPIPE); intros L'; [change (lookup (put (set_sys w y2) i e2) i = Some e') in L'|]; congruence. }
  subst e'. clear L'. unfold blocked. cbn [dl_call dl_req].
  assert (R : (ret = - EAGAIN <-> exists q, call = DSent q (- EAGAIN)) /\ (ret = - EAGAIN -> e1 = e)).
  { unfold write_ep in W. unfold is_log in NL. destruct (ep_kind e) as [b cu t|cf pe t|r vl|l] eqn:K; [| | |discriminate].
    - destruct (negb (ep_fd e)). { inversion W; subst. split; [|auto]. split; [discriminate|intros (q & ?); discriminate]. }
      destruct (os_write v (w_sys w) _) as [q y3]. destruct (Z.eqb_spec q (- EAGAIN)) as [->|Q].
      + inversion W; subst. split; auto. split; eauto.
      + inversion W; subst. destruct (Z.ltb_spec q 0).
        * split; [|discriminate]. split; [discriminate|]. intros (z & X). inversion X. congruence.
        * assert (- EAGAIN < 0) by reflexivity. split; [|lia]. split; [lia|]. intros (z & X). inversion X. congruence.
    - destruct (negb (ep_fd e)). { inversion W; subst. split; [|auto]. split; [discriminate|intros (q & ?); discriminate]. }
      destruct (snd pe =? 0). { inversion W; subst. split; [|auto]. split; [discriminate|intros (q & ?); discriminate]. }
      destruct (os_write v (w_sys w) _) as [q y3]. destruct (Z.ltb_spec q 0).
      + inversion W; subst. split; auto. split; [intros ->; eauto|]. intros (z & X). inversion X. auto.
      + inversion W; subst. assert (- EAGAIN < 0) by reflexivity. split; [|lia]. split; [lia|]. intros (z & X). inversion X. lia.
    - destruct (negb (ep_fd e)). { inversion W; subst. split; [|auto]. split; [discriminate|intros (q & ?); discriminate]. }
      destruct (os_write v (w_sys w) _) as [q y3]. destruct (Z.ltb_spec q 0).
      + destruct (Z.eqb_spec q (- EPIPE)) as [P|P].
        * destruct (tcp_lost v y3 i e r) as [y4 e4]. inversion W; subst. split; [|discriminate]. split; [discriminate|]. intros (z & X). discriminate X.
        * inversion W; subst. split; auto. split; [intros ->; eauto|]. intros (z & X). inversion X. auto.
      + inversion W; subst. assert (- EAGAIN < 0) by reflexivity. split; [|lia]. split; [lia|]. intros (z & X). inversion X. lia. }
  destruct R as [R1 R2]. destruct (Z.eqb_spec ret (- EAGAIN)) as [E0|E0].
  - rewrite (R2 E0) in *. destruct (mod_fd v y1 e true) as [[y5 e5] q5] eqn:MM. inversion MF; subst y5 e5 req. split; [split; [discriminate|intros _; apply R1; auto]|]. intros _.
    unfold mod_fd in MM. destruct (ask v y1). destruct (ep_poll e) eqn:P.
    + destruct (z <? 0) eqn:Q; inversion MM; subst; rewrite ?Q; cbn; rewrite ?P; repeat split; auto.
    + inversion MM; subst. rewrite P. repeat split; auto.
  - inversion MF; subst. split; [split; [intros X; apply R1 in X; congruence|congruence]|]. intros X. apply R1 in X. congruence.
Qed.

Lemma steps_req : forall e l e', steps e l e' -> is_log e = false -> Forall (fun d => blocked d <-> dl_req d <> None) l.
Proof.
  intros e l e' S. induction S; intros NL; constructor.
  - eapply one_blocked; eauto.
  - apply IHS. eapply one_uart; eauto.
Qed.

Theorem blocked_runs : forall f v c its w, wf_table (v_tbl v) -> runs f v c its w ->
  forall x d, In x its -> In d (made x) -> ~ is_logger c (dl_to d) -> (blocked d <-> dl_req d <> None).
Proof.
  intros f v c its w WT R. apply (proj2 (A := synced c its w)). apply (runs_ind f v c (fun h w => synced c h w /\ forall x d, In x h -> In d (made x) -> ~ is_logger c (dl_to d) -> (blocked d <-> dl_req d <> None))); auto.
  - intros d pos w0 S. split; [eapply synced_start; eauto|]. intros x d0 [].
  - intros h u it u' I [SY P] A. split; [eapply synced_act; eauto|]. intros x d X D NL. apply in_app_or in X. destruct X as [X|X]. { eapply P; eauto. }
    assert (M : In d (flat_map made it)) by (apply in_flat_map; eauto). destruct (act_made _ _ _ _ _ WT A I d M) as (e & e' & L & L').
    destruct (sy_ep _ _ _ SY _ _ L) as (_ & _ & LG & _). assert (N0 : is_log e = false). { destruct (is_log e); auto. destruct NL. apply LG; auto. }
    destruct (act_life _ _ _ _ _ _ _ _ WT A I L L' N0) as (e1 & s & e2 & KI & ST & PE & _). destruct (kick_stats _ _ _ _ _ _ KI N0) as (_ & _ & _ & N1 & _).
    pose proof (steps_req _ _ _ ST N1) as F. rewrite Forall_forall in F. apply F. eapply Permutation_in; [apply Permutation_sym; exact PE|]. unfold sends, tok. apply filter_In. split; auto. apply Nat.eqb_refl.
Qed.

(* only UDP clients have a fallback timer, only UARTs one that changes the baud rate *)
Lemma act_fires : forall f v w its w' t cb, wf_table (v_tbl v) -> act f v w its w' -> Inv w -> In (IFire t cb) its ->
  exists tm, find_timer (w_sys w) t = Some tm /\ tm_cb tm = cb /\ tm_dead tm = false /\
  match cb with
  | CbNoMsg k => exists e c p t, lookup w k = Some e /\ ep_kind e = KUdp c p (Some t)
  | CbBaud k => exists e b c t, lookup w k = Some e /\ ep_kind e = KUart b c t
  | CbRetry k => exists e r vl, lookup w k = Some e /\ ep_kind e = KTcp r vl
  | _ => True
  end.
Proof.
  intros f v w its w' t cb WT A I X. destruct (act_shape _ _ _ _ _ WT A I) as [SH _].
  assert (H0 : exists r, its = IFire t cb :: r).
  { destruct its as [|y r]; [destruct X|]. destruct X as [->|X]; eauto. destruct (SH _ _ _ eq_refl X) as [(? & ? & ? & ? & ?)|(? & ?)]; discriminate. }
  destruct H0 as (r & ->). clear X SH. inversion A; subst.
  - destruct (handle_inv _ _ _ _ _ _ _ H4) as (e0 & pkt & w2 & fresh & _ & _ & _ & CC).
    destruct CC as [(_ & _ & X)|[(_ & _ & _ & X)|(_ & _ & ? & ? & ? & ? & ? & ? & ? & _ & _ & _ & _ & _ & X)]]; discriminate.
  - exfalso. match goal with E : snd _ = _ |- _ => revert E end. unfold tcp_connection. destruct (ask v (w_sys w)) as [r0 y]. destruct (r0 <? 0); [discriminate|]. destruct (ask_bytes RXMAX v y), (add_fd v _ _). discriminate.
  - unfold timer_read in H. destruct (find_timer (w_sys w) t0) as [tm|] eqn:FT; [|discriminate]. destruct (negb fired || tm_dead tm) eqn:DD. { inversion H; subst. }
    inv_bind H. inv_bind H. inversion H; subst. clear H. exists tm. apply orb_false_iff in DD. split; auto. split; auto. split; [apply DD|].
    match goal with E : run_cb _ _ _ _ = Ok _ |- _ => rename E into RC end.
    destruct (tm_cb tm) as [ | |k|k|k|k|k|k]; auto; cbn [run_cb] in RC; inv_bind RC.
    + match goal with E : cb_baud _ _ _ = _ |- _ => unfold cb_baud in E; inv_bind E end. match goal with E : get w k = Ok ?q |- _ => apply get_lookup in E; rename q into e end. destruct (ep_kind e) eqn:K; try discriminate. eauto 8.
    + match goal with E : cb_nomsg _ _ = _ |- _ => unfold cb_nomsg in E; inv_bind E end. match goal with E : get w k = Ok ?q |- _ => apply get_lookup in E; rename q into e end. destruct (ep_kind e) as [| ? ? [?|]| |] eqn:K; try discriminate. eauto 8.
    + match goal with E : cb_retry _ _ _ = _ |- _ => unfold cb_retry in E; inv_bind E end. match goal with E : get w k = Ok ?q |- _ => apply get_lookup in E; rename q into e end. destruct (ep_kind e) eqn:K; try discriminate. eauto 8.
  - exfalso. unfold process_hangups in H. destruct (w_hang w); [|discriminate].
    inv_bind H. inversion H; subst; clear H. destruct (hangups_spec _ _ _ _ _ E (inv_sym _ I)) as (_ & _ & _ & D & _). symmetry in D. destruct (filter _ _); discriminate.
Qed.

Theorem fires_runs : forall f v c its w, wf_table (v_tbl v) -> runs f v c its w -> forall t k,
  (In (IFire t (CbNoMsg k)) its -> exists cf, udp_conf c k = Some (false, cf)) /\ (In (IFire t (CbBaud k)) its -> exists b, uart_conf c k = Some b).
Proof.
  intros f v c its w WT R.
  apply (proj2 (A := life c its w)). apply (runs_ind f v c (fun h w => life c h w /\ forall t k, (In (IFire t (CbNoMsg k)) h -> exists cf, udp_conf c k = Some (false, cf)) /\ (In (IFire t (CbBaud k)) h -> exists b, uart_conf c k = Some b))); auto.
  - intros d pos w0 S. split; [eapply life_start; eauto|]. intros t k. split; intros [].
  - intros h u it u' I [LF P] A. split; [eapply life_act; eauto|]. intros t k. split; intros X; apply in_app_or in X; (destruct X as [X|X]; [eapply P; eauto|]);
      destruct (act_fires _ _ _ _ _ _ _ WT A I X) as (tm & _ & _ & _ & Q).
    + destruct Q as (e & cf & p & t0 & L & K). pose proof (lf_kind _ _ _ LF _ _ L) as KL. unfold kind_life in KL. rewrite K in KL. destruct KL as (s & A1 & _ & _ & A2).
      destruct s; [specialize (A2 eq_refl); discriminate|]. eauto.
    + destruct Q as (e & b & p & t0 & L & K). pose proof (lf_kind _ _ _ LF _ _ L) as KL. unfold kind_life in KL. rewrite K in KL. destruct KL as (A1 & _). eauto.
Qed.
