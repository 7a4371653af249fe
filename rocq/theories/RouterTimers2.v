(* The timers in every reachable state. *)
From Verif Require Import Base Mav SpecFrame Frame Dedup Accept Names NamesProofs Sys LogFile LogFileProofs ULog Loggers LogInv LogStep LogMono
  RouterCtl Router RouterRoute RouterRoute2 RouterSetup RouterActs RouterInv RouterLearn RouterStep RouterStart RouterHist SpecRouter SpecLife RouterTrace
  RouterTimers.

Lemma aggregate_alike : forall w w', cb_aggregate w = Ok w' -> alike w w'.
Proof.
  intros w w' H. unfold cb_aggregate in H. eapply alike_trans; [apply (alike_eps w (set_unknown w 0)); reflexivity|].
  revert H. generalize (set_unknown w 0). generalize (w_order w). clear w. induction l as [|i r IH]; intros w H; cbn [fold_left] in H.
  { inversion H; subst. apply alike_refl. }
  assert (NO : forall l (x : res world), (x = UB \/ x = Fuel) -> fold_left (fun rw i => let* w := rw in let* e := get w i in Ok (put w i (set_wstat e (ep_wtotal e) (ep_wbytes e) 0))) l x = Ok w' -> False).
  { induction l as [|j l IHl]; intros x [-> | ->] Q; cbn [fold_left] in Q; try discriminate; apply (IHl _ (or_introl eq_refl)) in Q || apply (IHl _ (or_intror eq_refl)) in Q; auto. }
  cbn [bind] in H. destruct (get w i) as [e| |] eqn:G; cbn [bind] in H.
  - apply get_lookup in G. eapply alike_trans; [|apply IH; exact H]. eapply alike_put; eauto.
  - exfalso. eapply NO; [|exact H]; auto.
  - exfalso. eapply NO; [|exact H]; auto.
Qed.

Lemma cb_baud_good : forall v w i w', cb_baud v w i = Ok w' -> good v w w'.
Proof.
  intros v w i w' H. unfold cb_baud in H. inv_bind H. apply get_lookup in E. rename a into e.
  destruct (ep_kind e) as [b c p|c pe p|r vl|l] eqn:K; try discriminate. destruct b as [|b0 b]; [discriminate|].
  unfold ask in H. inversion H; subst; clear H. apply (T_put1 _ _ _ e); auto. { apply mono_same; reflexivity. }
  intros arm S Hd. split. { apply frame_same; auto. } apply (held_sys _ _ (w_sys w)); [reflexivity|].
  destruct Hd as [A B]. rewrite K in A, B. split; auto.
Qed.

Lemma retry_T : forall v w i w' again, cb_retry v w i = Ok (w', again) -> mono (w_sys w) (w_sys w') /\
  forall arm x, T v arm w -> alive (w_sys w) x -> tm_cb x = CbRetry i ->
  if again then T v arm w' else forall y, del_timer (w_sys w') (tm_id x) = Ok y -> T v arm (set_sys w' y).
Proof.
  intros v w i w' again H. unfold cb_retry in H. inv_bind H. apply get_lookup in E. rename a into e.
  destruct (ep_kind e) as [b c p|c pe p|r vl|l] eqn:K; try discriminate.
  unfold add_fd, ask in H. destruct (_ <? 0).
  - inversion H; subst; clear H. split. { apply mono_same; reflexivity. } intros arm x Tw Ax Cx.
    assert (Hd : held_timers v (arm i) (w_sys w) i e) by (apply Tw; auto).
    apply (T_put _ arm _ _ _ e); auto. { apply frame_same; auto. apply Tw. }
    apply (held_sys _ _ (w_sys w)); [reflexivity|]. destruct Hd as [A B]. unfold held_timers. cbn [ep_kind set_fd ep_fd]. rewrite K in *.
    destruct B as (B0 & B1 & B2 & B3). destruct (B1 x Ax Cx) as (Q1 & Q2 & Q3). rewrite Q1 in *. auto.
  - match type of H with Ok (?a, false) = _ => assert (w' = a) by (inversion H; auto) end. assert (again = false) by (inversion H; auto). clear H.
    subst w' again. split. { apply mono_same; reflexivity. } intros arm x Tw Ax Cx y D.
    cbn [w_sys put set_eps set_sys] in D.
    assert (Hd : held_timers v (arm i) (w_sys w) i e) by (apply Tw; auto).
    match type of D with del_timer ?q _ = _ => set (y1 := q) in * end.
    assert (S1 : sys_ok y1) by (apply Tw). destruct (del_spec _ _ _ D S1) as (S' & _ & R).
    assert (A1 : forall t, alive y1 t <-> alive (w_sys w) t) by (unfold alive, y1; cbn; tauto).
    match goal with |- T v arm (set_sys (put (set_sys w y1) i ?e1) y) => change (T v arm (put (set_sys w y) i e1)) end.
    apply (T_put _ arm _ _ _ e); auto.
    + eapply frame_trans; [apply (frame_same _ _ y1); auto; apply Tw|]. apply (frame_del _ _ _ x _ D); auto. rewrite Cx; auto.
    + destruct Hd as [A B]. rewrite K in A, B. destruct B as (B0 & B1 & B2 & B3).
      assert (NO : forall t, alive y t -> tm_cb t <> CbRetry i).
      { intros t At C. apply R in At. destruct At as [At N]. apply A1 in At. apply N. f_equal. apply B2; auto. }
      split; cbn [ep_kind set_kind set_fd ep_fd].
      * intros t At O. apply R in At. destruct At as [At _]. apply A1 in At. specialize (A t At O). destruct (tm_cb t); auto.
      * split; [discriminate|]. repeat split; try (destruct (NO t H H0)). { intros t t' At At' C. destruct (NO t At C). } intros; discriminate.
Qed.

Lemma nomsg_T : forall v w i w', cb_nomsg w i = Ok w' -> mono (w_sys w) (w_sys w') /\
  forall arm, T v arm w -> T v (fun k => if Nat.eqb i k then 0 else arm k) w'.
Proof.
  intros v w i w' H. unfold cb_nomsg in H. inv_bind H. apply get_lookup in E. rename a into e.
  destruct (ep_kind e) as [b c p|c pe [t|]|r vl|l] eqn:K; try discriminate. inv_bind H. inversion H; subst; clear H.
  rename E0 into M. split. { eapply mono_mod; eauto. } intros arm Tw. assert (Hd : held_timers v (arm i) (w_sys w) i e) by (apply Tw; auto).
  destruct Hd as [A B]. rewrite K in A, B. destruct B as [B1 B2]. cbn [ptr_ok] in B1. pose proof B1 as B1'. apply live_alive in B1. destruct B1 as (x & X1 & X2 & X3).
  destruct (mod_spec _ _ _ _ M (t_sys _ _ _ Tw)) as (S' & R).
  apply (T_put _ arm _ _ _ e); auto.
  - eapply frame_mod; eauto. apply Tw. rewrite X3; auto.
  - rewrite Nat.eqb_refl. split; cbn [ep_kind set_kind].
    + intros q Q O. apply R in Q. destruct Q as [[Q _]|(s & Q & E' & ->)]; cbn [tm_cb] in *.
      * specialize (A q Q O). destruct (tm_cb q); auto.
      * specialize (A s Q O). destruct (tm_cb s); auto.
    + split. { cbn [ptr_ok]. apply live_alive. exists (mkTimer t (CbNoMsg i) (u32 0) false). split; auto. apply R. right. exists x. rewrite X3. auto. }
      intros q Q C. apply R in Q. destruct Q as [[Q N]|(s & Q & E' & ->)]; cbn [tm_cb tm_id tm_ms] in *; [|split; auto].
      destruct (B2 q Q C). congruence.
  - intros j N. destruct (Nat.eqb_spec i j); congruence.
Qed.

Lemma log_cb_good : forall v w i k f w' its again, Router.log_cb w i k f v = Ok (w', its, again) ->
  (forall g b y g' b' cs ag, k g b = Ok (y, g', b', cs, ag) -> mono (w_sys w) y /\ step_ok (w_sys w) g y g') -> good v w w'.
Proof.
  intros v w i k f w' its again H Hk. unfold Router.log_cb in H. inv_bind H. apply get_lookup in E. rename a into e.
  destruct (ep_kind e) as [b c p|c pe p|r vl|[g b|a]] eqn:K; try discriminate.
  - inv_bind H. inv_bind H. inversion H; subst; clear H.
    match goal with Q : k g b = Ok _ |- _ => apply Hk in Q; destruct Q as [M ST] end.
    match goal with Q : route_ctls _ _ _ _ = Ok _ |- _ => apply (ctls_good v _ (sub_is_good v f)) in Q; rename Q into RC end.
    eapply good_trans; [|exact RC]. apply (T_put1 _ _ _ e); auto. intros arm S Hd. pose proof Hd as [_ B]. rewrite K in B. destruct B as [B1 B2].
    pose proof (so_own _ _ _ _ ST S B2) as O. pose proof (so_sys _ _ _ _ ST S B2) as S'. rewrite B1 in O. split; [apply frame_own; auto|].
    eapply log_held; eauto. split; [|apply (so_inv _ _ _ _ ST); auto]. destruct (so_cfg _ _ _ _ ST S B2) as (Q & _). congruence.
  - destruct (a_inner a) as [[g b]|] eqn:IN; [|discriminate]. inv_bind H. inv_bind H. inversion H; subst; clear H.
    match goal with Q : k g b = Ok _ |- _ => apply Hk in Q; destruct Q as [M ST] end.
    match goal with Q : route_ctls _ _ _ _ = Ok _ |- _ => apply (ctls_good v _ (sub_is_good v f)) in Q; rename Q into RC end.
    eapply good_trans; [|exact RC]. apply (T_put1 _ _ _ e); auto. intros arm S Hd. pose proof Hd as [_ B]. rewrite K, IN in B. destruct B as (B0 & B1 & B2).
    pose proof (so_own _ _ _ _ ST S B2) as O. pose proof (so_sys _ _ _ _ ST S B2) as S'. rewrite B1 in O. split; [apply frame_own; auto|].
    eapply log_held; eauto. cbn [a_ep a_inner]. split; auto. split; [|apply (so_inv _ _ _ _ ST); auto]. destruct (so_cfg _ _ _ _ ST S B2) as (Q & _). congruence.
Qed.

Lemma fsync_again : forall v arm w i f w' its again x, Router.log_cb w i (fun g b => Ok (w_sys w, g, b, [], lcb_fsync g)) f v = Ok (w', its, again) ->
  T v arm w -> alive (w_sys w) x -> tm_cb x = CbFsync i -> again = true.
Proof.
  intros v arm w i f w' its again x H Tw Ax Cx. unfold Router.log_cb in H. inv_bind H. apply get_lookup in E. rename a into e.
  pose proof (t_ep _ _ _ Tw _ _ E) as [_ B].
  assert (G : forall g, l_ep g = i -> linv (w_sys w) g -> lcb_fsync g = true).
  { intros g EP L. unfold lcb_fsync. destruct (l_open g) eqn:O; auto. destruct (li_closed _ _ L O) as (_ & Q & _). destruct Ax as [Ax Dx].
    destruct (li_only _ _ L x Ax Dx) as (_ & Q2 & _). rewrite EP in Q2. specialize (Q2 Cx). congruence. }
  destruct (ep_kind e) as [b c p|c pe p|r vl|[g b|a]]; try discriminate.
  - inv_bind H. inv_bind H. inversion H; subst; clear H.
    match goal with Q : Ok _ = Ok _ |- _ => inversion Q; subst; clear Q end. apply G; apply B || apply B.
  - destruct (a_inner a) as [[g b]|] eqn:IN; [|discriminate]. inv_bind H. inv_bind H. inversion H; subst; clear H.
    match goal with Q : Ok _ = Ok _ |- _ => inversion Q; subst; clear Q end. apply G; apply B || apply B.
Qed.

Lemma arm_ctls : forall k its ms, (forall x, In x its -> exists i bs m ds, x = ICtl i bs m ds) -> fold_left (arm_step k) its ms = ms.
Proof.
  intros k. induction its as [|x r IH]; intros ms H; cbn [fold_left]; auto. destruct (H x) as (i & bs & m & ds & ->); [left; auto|].
  cbn [arm_step]. apply IH. intros; apply H; right; auto.
Qed.

Definition arms (arm : nat -> Z) (its : list item) (k : nat) : Z := fold_left (arm_step k) its (arm k).

Lemma timer_T : forall f v w t fired w' its, timer_read f v w t fired = Ok (w', its) -> logs_ok w ->
  mono (w_sys w) (w_sys w') /\ forall arm, T v arm w -> T v (arms arm its) w'.
Proof.
  intros f v w t fired w' its H LO. unfold timer_read in H. destruct (find_timer (w_sys w) t) as [x|] eqn:F; [|discriminate].
  destruct (negb fired || tm_dead x) eqn:D. { inversion H; subst. split; [apply mono_refl|auto]. }
  apply orb_false_iff in D. destruct D as [_ D].
  unfold find_timer in F. apply find_some in F. destruct F as [Ix Ex]. apply Nat.eqb_eq in Ex. assert (Ax : alive (w_sys w) x) by (split; auto).
  inv_bind H. inv_bind H. match type of E0 with _ = Ok ?q => rename q into a0 end. inversion H; subst; clear H. rename E into R. rename E0 into DL.
  match type of R with run_cb _ _ _ _ = Ok (?u, ?l, ?ag) => rename u into w1; rename l into its1; rename ag into again end.
  pose proof (run_cb_ctls _ _ _ _ _ _ _ LO R) as CT.
  assert (QI : forall x, In x its1 -> exists i bs m ds, x = ICtl i bs m ds) by (intros z Z; apply CT in Z; destruct Z as (i & m & ds & (bs & Z & _) & _); eauto).
  assert (Q : forall arm, (match tm_cb x with CbNoMsg i => T v (fun k => if Nat.eqb i k then 0 else arm k) (set_sys w1 a0) | _ => T v arm (set_sys w1 a0) end) ->
    T v (arms arm (IFire (tm_id x) (tm_cb x) :: its1)) (set_sys w1 a0)).
  { intros arm Q. unfold arms. destruct (tm_cb x); (eapply T_ext; [|exact Q]); intros k; cbn [fold_left arm_step]; rewrite arm_ctls; auto. }
  assert (M2 : mono (w_sys w1) a0). { destruct again. { inversion DL; subst; apply mono_refl. } eapply mono_del; eauto. }
  assert (GOOD : good v w w1 -> again = true \/ False -> mono (w_sys w) (w_sys (set_sys w1 a0)) /\ forall arm, T v arm w -> T v arm (set_sys w1 a0)).
  { intros [G1 G2] [->|[]]. inversion DL; subst a0. rewrite set_sys_id. auto. }
  clear CT. destruct (tm_cb x) as [| |i|i|i|i|i|i] eqn:C; cbn [run_cb] in R.
  - inv_bind R. inversion R; subst. apply aggregate_alike in E. destruct (GOOD (good_alike v _ _ E) (or_introl eq_refl)). split; auto.
  - inversion R; subst. destruct (GOOD (good_refl _ _) (or_introl eq_refl)). split; auto.
  - inv_bind R. inversion R; subst. apply (cb_baud_good v) in E. destruct (GOOD E (or_introl eq_refl)). split; auto.
  - inv_bind R. inversion R; subst. apply (nomsg_T v) in E. destruct E as [M E]. inversion DL; subst. rewrite set_sys_id in *. split; auto.
  - inv_bind R. inversion R; subst. apply retry_T in E. destruct E as [M E]. split. { eapply mono_trans; eauto. }
    intros arm Tw. specialize (E arm x Tw Ax C). apply Q. destruct again; auto. inversion DL; subst. rewrite set_sys_id. auto.
  - apply (log_cb_good v) in R as G.
    + assert (again = true).
      { unfold Router.log_cb in R. inv_bind R. destruct (ep_kind a) as [| | |[g b|al]]; try discriminate R.
        - inv_bind R. inv_bind R. inversion R; subst. destruct (lcb_start _ g b) as [[? ?] ?]. inversion E0; auto.
        - destruct (a_inner al) as [[g b]|]; [|discriminate R]. inv_bind R. inv_bind R. inversion R; subst. destruct (lcb_start _ g b) as [[? ?] ?]. inversion E0; auto. }
      destruct (GOOD G (or_introl H)). split; auto.
    + intros g b y g' b' cs ag Hk. destruct (lcb_start (w_sys w) g b) as [[y1 g1] cs1] eqn:L. inversion Hk; subst.
      split; [eapply mono_cb_start; eauto|eapply step_cb_start; eauto].
  - assert (G : good v w w1).
    { apply (log_cb_good v) in R; auto. intros g b y g' b' cs ag Hk. inversion Hk; subst. split; [apply mono_refl|apply step_refl]. }
    split. { eapply mono_trans; [apply G|exact M2]. } intros arm Tw. apply Q.
    assert (again = true) by (eapply fsync_again; eauto). destruct (GOOD G (or_introl H)). auto.
  - apply (log_cb_good v) in R as G.
    + assert (again = true).
      { unfold Router.log_cb in R. inv_bind R. destruct (ep_kind a) as [| | |[g b|al]]; try discriminate R.
        - inv_bind R. inv_bind R. inversion R; subst. inv_bind E0. inversion E0; auto.
        - destruct (a_inner al) as [[g b]|]; [|discriminate R]. inv_bind R. inv_bind R. inversion R; subst. inv_bind E0. inversion E0; auto. }
      destruct (GOOD G (or_introl H)). split; auto.
    + intros g b y g' b' cs ag Hk. inv_bind Hk. inversion Hk; subst. split; [eapply mono_cb_alive; eauto|eapply step_cb_alive; eauto].
Qed.

(* ---- new endpoints --------------------------------------------------------------------------------------- *)

Lemma T_app : forall v arm w w' e, T v arm w -> w_eps w' = w_eps w ++ [Some e] -> frame (length (w_eps w)) (w_sys w) (w_sys w') ->
  held_timers v (arm (length (w_eps w))) (w_sys w') (length (w_eps w)) e -> T v arm w'.
Proof.
  intros v arm w w' e [A B C] E F H. set (n := length (w_eps w)) in *.
  assert (L : forall k, lookup w' k = if Nat.eqb k n then Some e else lookup w k).
  { intros k. unfold lookup. rewrite E. destruct (Nat.eqb_spec k n) as [->|N].
    - rewrite nth_error_app2 by (unfold n; lia). replace (n - length (w_eps w))%nat with O by (unfold n; lia). reflexivity.
    - destruct (Nat.lt_ge_cases k n). { rewrite nth_error_app1; auto. }
      rewrite nth_error_app2 by auto. destruct (nth_error (w_eps w) k) eqn:Q.
      + assert (nth_error (w_eps w) k <> None) by congruence. apply nth_error_Some in H1. fold n in H1. lia.
      + fold n. destruct (k - n)%nat as [|q] eqn:Z; [lia|]. cbn. destruct q; reflexivity. }
  split.
  - apply F.
  - intros k x Q. rewrite L in Q. destruct (Nat.eqb_spec k n) as [->|N]. { congruence. } eapply held_frame; eauto.
  - intros t k At O. rewrite L. destruct (Nat.eqb_spec k n); [eauto|]. apply (C t k); auto. apply (proj2 F t k O); auto.
Qed.

Lemma T_none : forall v arm w k t, T v arm w -> lookup w k = None -> alive (w_sys w) t -> owner (tm_cb t) <> Some k.
Proof. intros v arm w k t [_ _ C] L A O. destruct (C t k A O). congruence. Qed.
Lemma lookup_end : forall w, lookup w (length (w_eps w)) = None.
Proof. intros. unfold lookup. destruct (nth_error (w_eps w) (length (w_eps w))) eqn:Q; auto. exfalso. assert (X : nth_error (w_eps w) (length (w_eps w)) <> None) by congruence. apply nth_error_Some in X. lia. Qed.

Lemma logcb_owner : forall cb k, LogInv.log_cb cb = Some k -> owner cb = Some k.
Proof. intros cb k H. destruct cb; cbn in *; congruence. Qed.

Definition tm_same (y y' : sys) : Prop := y_timers y' = y_timers y /\ y_next y' = y_next y.
Lemma tms_refl : forall y, tm_same y y.
Proof. unfold tm_same; auto. Qed.
Lemma tms_trans : forall a b c, tm_same a b -> tm_same b c -> tm_same a c.
Proof. unfold tm_same. intuition; congruence. Qed.
Lemma tms_ask : forall v y r y', ask v y = (r, y') -> tm_same y y'.
Proof. intros v y r y' H. unfold ask in H. inversion H; subst. split; reflexivity. Qed.
Lemma tms_bytes : forall n v y r y', ask_bytes n v y = (r, y') -> tm_same y y'.
Proof. intros n v y r y' H. apply (calm_ask_bytes _ _ _ (lg_new 0 [] 0 0 MAlways 0)) in H. destruct H. split; auto. Qed.
Lemma tms_mark : forall v y, tm_same y (mark_unfinished_logs v y).
Proof.
  intros. unfold mark_unfinished_logs. destruct (ask v y) as [o y1] eqn:A. apply tms_ask in A. destruct (y_fs y1); auto. destruct (0 <=? o); auto.
  destruct (mark_entries v y1 l) as [l' y2] eqn:M. destruct (mark_entries_spec _ _ _ _ _ M) as ((S1 & S2 & _) & _). eapply tms_trans; [exact A|]. split; auto.
Qed.
Lemma tms_new : forall v y i c l y', new_logger v y i c = (l, y') -> tm_same y y'.
Proof.
  intros v y i c l y' H. unfold new_logger in H. destruct (lc_dialect c).
  - injection H as _ <-. apply tms_refl.
  - destruct (ask_bytes (UBUF + UPART) v y) as [uj y1] eqn:A. apply tms_bytes in A. injection H as _ <-. auto.
  - injection H as _ <-. apply tms_refl.
Qed.
Lemma tms_frame : forall k y y', tm_same y y' -> sys_ok y -> frame k y y'.
Proof. intros k y y' [A B] S. apply frame_same; auto. Qed.
Lemma tms_alive : forall y y' t, tm_same y y' -> (alive y' t <-> alive y t).
Proof. intros y y' t [A B]. unfold alive. rewrite A. tauto. Qed.
Lemma tms_ok : forall y y', tm_same y y' -> sys_ok y -> sys_ok y'.
Proof. intros y y' [A B] S. unfold sys_ok. rewrite A, B. auto. Qed.
Lemma tms_fd : forall v y e y' e', add_fd v y e = (y', e') -> tm_same y y' /\ ep_kind e' = ep_kind e /\ ep_fd e' = true.
Proof. intros v y e y' e' H. unfold add_fd in H. destruct (ask v y) as [r y1] eqn:A. apply tms_ask in A. injection H as <- <-. auto. Qed.

(* an endpoint without timers *)
Lemma held_none : forall v arm y k e, (forall t, alive y t -> owner (tm_cb t) <> Some k) ->
  match ep_kind e with
  | KUart _ _ p | KUdp _ _ p => p = None
  | KTcp r vl => ep_fd e = true /\ vl = true
  | KLog (LFile g _) => l_ep g = k /\ linv y g
  | KLog (LAuto a) => a_ep a = k /\ a_inner a = None
  end -> held_timers v arm y k e.
Proof.
  intros v arm y k e N H. split. { intros t A O. destruct (N t A O). }
  assert (N2 : forall t cb, alive y t -> tm_cb t = cb -> owner cb = Some k -> False) by (intros t cb A C O; apply (N t A); congruence).
  destruct (ep_kind e) as [b c p|c pe p|r vl|[g b|a]].
  - subst p. split; [exact Logic.I|]. intros t A C. destruct (N2 t _ A C eq_refl).
  - subst p. split; [exact Logic.I|]. intros t A C. destruct (N2 t _ A C eq_refl).
  - destruct H as [-> ->]. split; [discriminate|]. split; [intros t A C; destruct (N2 t _ A C eq_refl)|].
    split; [intros t t' A A' C; destruct (N2 t _ A C eq_refl)|]. discriminate.
  - auto.
  - destruct H as [E ->]. split; auto. intros t A C. apply (N t A). apply logcb_owner; auto.
Qed.

Lemma setup_T : forall v y n c y' e, setup_ep v y n c = Some (y', e) -> sys_ok y -> (forall t, alive y t -> owner (tm_cb t) <> Some n) ->
  frame n y y' /\ held_timers v 0 y' n e.
Proof.
  intros v y n c y' e H S N. unfold setup_ep in H. destruct (ec_kind c) as [bauds flow|server host port|retry port].
  - unfold setup_uart in H. destruct (_ || _); [discriminate|]. destruct (ask_bytes RXMAX v y) as [junk y1] eqn:A1. apply tms_bytes in A1.
    destruct (ask v y1) as [o y2] eqn:A2. apply tms_ask in A2. destruct (o <? 0); [discriminate|].
    destruct (ask v y2) as [s y3] eqn:A3. apply tms_ask in A3. destruct (_ && _); [discriminate|].
    assert (TS : tm_same y y3) by (eapply tms_trans; [exact A1|]; eapply tms_trans; eauto).
    destruct (if (length bauds =? 1)%nat then (None, y3) else add_timer v y3 5000 (CbBaud n)) as [t y4] eqn:AT.
    destruct (if flow then ask v y4 else (0, y4)) as [fl y5] eqn:A5. assert (T5 : tm_same y4 y5).
    { destruct flow. { apply tms_ask in A5. auto. } injection A5 as _ <-. apply tms_refl. }
    destruct (fl <? 0); [discriminate|].
    destruct (add_fd v y5 _) as [y6 e6] eqn:A6. injection H as -> ->. destruct (tms_fd _ _ _ _ _ A6) as (T6 & K6 & F6). cbn [new_ep ep_kind] in K6.
    assert (S3 : sys_ok y3) by (eapply tms_ok; eauto). assert (T46 : tm_same y4 y') by (eapply tms_trans; eauto). clear - TS AT T46 K6 S S3 N.
    destruct (length bauds =? 1)%nat.
    + injection AT as <- <-. assert (TT : tm_same y y') by (eapply tms_trans; eauto). split; [apply tms_frame; auto|].
      apply held_none. { intros x A. apply (tms_alive _ _ _ TT) in A. auto. } rewrite K6. auto.
    + destruct (add_timer_spec _ _ _ _ _ _ AT S3) as (S4 & _ & _ & _ & R). split.
      { eapply frame_trans; [apply tms_frame; eauto|]. eapply frame_trans; [eapply frame_add; eauto; left; reflexivity|]. apply tms_frame; auto. }
      unfold held_timers. rewrite K6.
      assert (X : forall x, alive y' x -> alive y x \/ (t = Some (y_next y3) /\ x = mkTimer (y_next y3) (CbBaud n) 5000 false)).
      { intros x A. apply (tms_alive _ _ _ T46) in A. destruct A as [I D]. destruct t as [t|].
        - destruct R as (-> & R & _). rewrite R in I. destruct I as [<-|I]; auto. left. apply (tms_alive _ _ _ TS). split; auto.
        - destruct R as [R _]. rewrite R in I. left. apply (tms_alive _ _ _ TS). split; auto. }
      split; [|split].
      * intros x A O. destruct (X x A) as [B|[_ ->]]; [destruct (N x B O)|exact Logic.I].
      * destruct t as [t|]; [|exact Logic.I]. destruct R as (-> & R & _). cbn [ptr_ok]. apply live_alive. eexists. split.
        { apply (tms_alive _ _ _ T46). split; [rewrite R; left; reflexivity|reflexivity]. } auto.
      * intros x A C. destruct (X x A) as [B|[-> ->]]; [|auto]. destruct (N x B). rewrite C; reflexivity.
  - unfold setup_udp in H. destruct (negb _); [discriminate|]. destruct (ask_bytes RXMAX v y) as [junk y1] eqn:A1. apply tms_bytes in A1.
    destruct (ask v y1) as [o y2] eqn:A2. apply tms_ask in A2. destruct (o <? 0); [discriminate|].
    assert (TS : tm_same y y2) by (eapply tms_trans; eauto).
    destruct (if server then (None, y2) else add_timer v y2 0 (CbNoMsg n)) as [t y4] eqn:AT.
    destruct (add_fd v y4 _) as [y6 e6] eqn:A6. injection H as -> ->. destruct (tms_fd _ _ _ _ _ A6) as (T46 & K6 & F6). cbn [new_ep ep_kind] in K6.
    assert (S3 : sys_ok y2) by (eapply tms_ok; eauto). clear - TS AT T46 K6 S S3 N.
    destruct server.
    + injection AT as <- <-. assert (TT : tm_same y y') by (eapply tms_trans; eauto). split; [apply tms_frame; auto|].
      apply held_none. { intros x A. apply (tms_alive _ _ _ TT) in A. auto. } rewrite K6. auto.
    + destruct (add_timer_spec _ _ _ _ _ _ AT S3) as (S4 & _ & _ & _ & R). split.
      { eapply frame_trans; [apply tms_frame; eauto|]. eapply frame_trans; [eapply frame_add; eauto; left; reflexivity|]. apply tms_frame; auto. }
      unfold held_timers. rewrite K6.
      assert (X : forall x, alive y' x -> alive y x \/ (t = Some (y_next y2) /\ x = mkTimer (y_next y2) (CbNoMsg n) 0 false)).
      { intros x A. apply (tms_alive _ _ _ T46) in A. destruct A as [I D]. destruct t as [t|].
        - destruct R as (-> & R & _). rewrite R in I. destruct I as [<-|I]; auto. left. apply (tms_alive _ _ _ TS). split; auto.
        - destruct R as [R _]. rewrite R in I. left. apply (tms_alive _ _ _ TS). split; auto. }
      split; [|split].
      * intros x A O. destruct (X x A) as [B|[_ ->]]; [destruct (N x B O)|exact Logic.I].
      * destruct t as [t|]; [|exact Logic.I]. destruct R as (-> & R & _). cbn [ptr_ok]. apply live_alive. eexists. split.
        { apply (tms_alive _ _ _ T46). split; [rewrite R; left; reflexivity|reflexivity]. } auto.
      * intros x A C. destruct (X x A) as [B|[-> ->]]; [|auto]. destruct (N x B). rewrite C; reflexivity.
  - unfold setup_tcp in H. destruct (negb _); [discriminate|]. destruct (ask_bytes RXMAX v y) as [junk y1] eqn:A1. apply tms_bytes in A1.
    destruct (ask v y1) as [o y2] eqn:A2. apply tms_ask in A2. assert (TS : tm_same y y2) by (eapply tms_trans; eauto).
    assert (S3 : sys_ok y2) by (eapply tms_ok; eauto). destruct (o <? 0).
    + unfold schedule_reconnect in H. destruct (retry <=? 0) eqn:RT.
      * injection H as <- <-. split; [apply tms_frame; auto|]. unfold held_timers. cbn [new_ep ep_kind ep_fd].
        assert (X : forall x, alive y2 x -> owner (tm_cb x) <> Some n) by (intros x A; apply (tms_alive _ _ _ TS) in A; auto).
        split; [intros t A O; destruct (X t A O)|]. split; [discriminate|].
        assert (X2 : forall x, alive y2 x -> tm_cb x = CbRetry n -> False) by (intros x A C; apply (X x A); rewrite C; auto).
        split; [intros t A C; destruct (X2 t A C)|]. split; [intros t t' A A' C; destruct (X2 t A C)|]. lia.
      * destruct (add_timer v y2 (1000 * retry) (CbRetry n)) as [t y4] eqn:AT. injection H as <- <-.
        destruct (add_timer_spec _ _ _ _ _ _ AT S3) as (S4 & _ & _ & _ & R). split.
        { eapply frame_trans; [apply tms_frame; eauto|]. eapply frame_add; eauto; left; reflexivity. }
        assert (X : forall x, alive y4 x -> alive y x \/ x = mkTimer (y_next y2) (CbRetry n) (u32 (1000 * retry)) false).
        { intros x [I D]. destruct t as [t|].
          - destruct R as (-> & R & _). rewrite R in I. destruct I as [<-|I]; auto. left. apply (tms_alive _ _ _ TS). split; auto.
          - destruct R as [R _]. rewrite R in I. left. apply (tms_alive _ _ _ TS). split; auto. }
        assert (N2 : forall x, alive y x -> tm_cb x <> CbRetry n) by (intros x A C; apply (N x A); rewrite C; auto).
        unfold held_timers. cbn [new_ep ep_kind ep_fd set_fd]. split.
        { intros x A O. destruct (X x A) as [B| ->]; [destruct (N x B O)|exact Logic.I]. }
        split; [discriminate|]. split. { intros x A C. destruct (X x A) as [B| ->]; [destruct (N2 x B C)|]. cbn. repeat split; lia. }
        split. { intros x x' A A' C C'. destruct (X x A) as [B| ->]; [destruct (N2 x B C)|]. destruct (X x' A') as [B| ->]; [destruct (N2 x' B C')|]. auto. }
        intros G _ _. unfold add_timer in AT. rewrite G in AT. cbn [negb] in AT. injection AT as <- <-. eexists. split; [split; [left; reflexivity|reflexivity]|reflexivity].
    + destruct (add_fd v y2 _) as [y6 e6] eqn:A6. injection H as -> ->. destruct (tms_fd _ _ _ _ _ A6) as (T46 & K6 & F6). cbn [new_ep ep_kind] in K6.
      assert (TT : tm_same y y') by (eapply tms_trans; eauto). split; [apply tms_frame; auto|].
      apply held_none. { intros x A. apply (tms_alive _ _ _ TT) in A. auto. } rewrite K6. auto.
Qed.

Definition wl (y : sys) (eps : list (option ep)) : world := mkW y eps [] false 0 (dedup_new 0) false 0 None None.

Lemma setup_all_T : forall v cs y eps y' eps', setup_all v y eps cs = Some (y', eps') -> T v (fun _ => 0) (wl y eps) -> T v (fun _ => 0) (wl y' eps').
Proof.
  intros v. induction cs as [|c cs IH]; intros y eps y' eps' H Tw; cbn [setup_all] in H.
  { injection H as <- <-. auto. }
  destruct (setup_ep v y (length eps) c) as [[y1 e]|] eqn:S; [|discriminate].
  apply IH in H; auto. destruct (setup_T _ _ _ _ _ _ S) as [F Hd]. { apply Tw. }
  { intros t A. apply (T_none _ _ _ (length eps) t Tw (lookup_end (wl y eps)) A). }
  eapply T_app; eauto. reflexivity.
Qed.

Lemma link_alike : forall y eps, alike (wl y eps) (wl y (link_groups eps)).
Proof.
  intros y eps. split; auto. split; auto. intros k. unfold lookup. cbn [w_eps wl]. unfold link_groups. rewrite link_from_spec.
  destruct (nth_error eps k) as [[e|]|]; auto. destruct (is_empty _); auto. destruct (link_one_spec (0 + k) eps 0 e) as (l & -> & _). auto.
Qed.

Lemma T_tms : forall v arm y y' eps, T v arm (wl y eps) -> tm_same y y' -> T v arm (wl y' eps).
Proof.
  intros v arm y y' eps Tw [A B]. eapply T_alike; [|exact Tw]. split; auto. split; auto. intros k. unfold lookup. cbn [w_eps wl].
  destruct (nth_error eps k) as [[e|]|]; auto.
Qed.
Lemma T_free : forall v arm y y' eps ms cb r, T v arm (wl y eps) -> add_timer v y ms cb = (r, y') -> owner cb = None -> T v arm (wl y' eps).
Proof.
  intros v arm y y' eps ms cb r [A B C] H O. cbn [w_sys wl] in *. assert (F : forall k, frame k y y') by (intros k; eapply frame_add; eauto).
  split.
  - apply (F 0%nat).
  - intros k e L. cbn [w_sys wl]. apply (held_frame _ _ (Datatypes.S k) y); auto.
  - intros t k At Ow. cbn [w_sys wl] in At. apply (C t k); auto. apply (proj2 (F (Datatypes.S k)) t k Ow); auto.
Qed.
Lemma T_add : forall v y eps y' e, T v (fun _ => 0) (wl y eps) -> tm_same y y' ->
  ((forall t, alive y' t -> owner (tm_cb t) <> Some (length eps)) -> held_timers v 0 y' (length eps) e) -> T v (fun _ => 0) (wl y' (eps ++ [Some e])).
Proof.
  intros v y eps y' e Tw TS H. apply (T_app v (fun _ => 0) (wl y' eps) _ e); auto. { eapply T_tms; eauto. }
  - cbn [w_eps w_sys wl]. apply frame_refl. eapply tms_ok; eauto. apply Tw.
  - cbn [w_eps w_sys wl]. apply H. intros t A. apply (tms_alive _ _ _ TS) in A. apply (T_none _ _ _ _ t Tw (lookup_end (wl y eps)) A).
Qed.

Definition new_log (i : nat) (l : logger) : Prop :=
  match l with
  | LFile g _ => exists ext mf ml md fc, g = lg_new i ext mf ml md fc
  | LAuto a => a_ep a = i /\ a_inner a = None
  end.
Lemma new_logger_is : forall v y i c l y', new_logger v y i c = (l, y') -> new_log i l.
Proof.
  intros v y i c l y' H. unfold new_logger in H. destruct (lc_dialect c).
  - apply (f_equal fst) in H. cbn [fst] in H. rewrite <- H. unfold new_log. eauto 10.
  - destruct (ask_bytes (UBUF + UPART) v y) as [uj y9]. apply (f_equal fst) in H. cbn [fst] in H. rewrite <- H. unfold new_log. eauto 10.
  - apply (f_equal fst) in H. cbn [fst] in H. rewrite <- H. unfold new_log. auto.
Qed.
Lemma T_log : forall v y eps y' junk l, T v (fun _ => 0) (wl y eps) -> tm_same y y' -> new_log (length eps) l ->
  T v (fun _ => 0) (wl y' (eps ++ [Some (log_ep junk l)])).
Proof.
  intros v y eps y' junk l Tw TS NL. eapply T_add; eauto. intros N. apply held_none; auto. cbn [log_ep new_ep ep_kind].
  assert (X : forall t, alive y' t -> LogInv.log_cb (tm_cb t) <> Some (length eps)).
  { intros t A C. apply (N t A). apply logcb_owner; auto. }
  destruct l as [g b|a]; cbn [new_log] in NL.
  - destruct NL as (ext & mf & ml & md & fc & ->). split; auto. apply new_linv; auto.
  - auto.
Qed.
Lemma setup_log_T : forall v y eps c y' l, setup_log v y (length eps) c = (y', l) -> T v (fun _ => 0) (wl y eps) -> T v (fun _ => 0) (wl y' (eps ++ map Some l)).
Proof.
  intros v y eps c y' l. unfold setup_log. intros H Tw.
  pose proof (tms_bytes RXMAX v y) as A1. destruct (ask_bytes RXMAX v y) as [junk y1]. specialize (A1 _ _ eq_refl).
  pose proof (tms_new v y1 (length eps) c) as A2. pose proof (new_logger_is v y1 (length eps) c) as NL.
  destruct (new_logger v y1 (length eps) c) as [lg y2]. specialize (A2 _ _ eq_refl). specialize (NL _ _ eq_refl).
  pose proof (tms_mark v y2) as A3. set (y3 := mark_unfinished_logs v y2) in *. clearbody y3.
  assert (TS : tm_same y y3) by (eapply tms_trans; [exact A1|]; eapply tms_trans; eauto).
  pose proof (T_log v y eps y3 junk lg Tw TS NL) as T1. clear A1 A2 A3 TS NL Tw.
  destruct (lc_tlog c).
  - pose proof (tms_bytes RXMAX v y3) as A4. destruct (ask_bytes RXMAX v y3) as [junk' y4]. specialize (A4 _ _ eq_refl).
    pose proof (tms_mark v y4) as A5. set (y5 := mark_unfinished_logs v y4) in *. clearbody y5.
    assert (E1 : y5 = y') by (apply (f_equal fst) in H; exact H). apply (f_equal snd) in H. cbn [snd] in H. subst y' l.
    cbn [map]. assert (TS : tm_same y3 y5) by (eapply tms_trans; eauto).
    pose proof (T_log v y3 (eps ++ [Some (log_ep junk lg)]) y5 junk' (new_tlog (Datatypes.S (length eps)) c) T1 TS) as T2.
    rewrite <- app_assoc in T2. apply T2. rewrite app_length. cbn [length]. rewrite Nat.add_1_r. unfold new_tlog, new_log. eauto 10.
  - assert (E1 : y3 = y') by (apply (f_equal fst) in H; exact H). apply (f_equal snd) in H. cbn [snd] in H. subst y' l. exact T1.
Qed.

Lemma T_boot : forall v d pos, T v (fun _ => 0) (wl (boot d pos) []).
Proof.
  intros. split.
  - split; constructor.
  - intros k e L. unfold lookup in L. cbn in L. destruct k; discriminate.
  - intros t k [[] _].
Qed.

Lemma start_T : forall v d pos c w, start v (boot d pos) c = Some w -> T v (fun _ => 0) w.
Proof.
  intros v d pos c w H. unfold start in H. destruct (setup_all v (boot d pos) [] _) as [[y eps]|] eqn:S; [|discriminate].
  apply setup_all_T in S; [|apply T_boot]. apply (T_alike _ _ _ _ (link_alike y eps)) in S. set (eps' := link_groups eps) in *.
  destruct (tcp_server v y (cf_tcp_port c)) as [sv y1] eqn:TS.
  assert (A1 : tm_same y y1).
  { unfold tcp_server in TS. destruct (_ =? 0). { injection TS as _ <-. apply tms_refl. } destruct (ask v y) as [o y2] eqn:A. apply tms_ask in A.
    destruct (o <? 0). { injection TS as _ <-. auto. } destruct (ask v y2) as [a y3] eqn:A2. apply tms_ask in A2. injection TS as _ <-. eapply tms_trans; eauto. }
  apply (T_tms _ _ _ _ _ S) in A1. clear S TS.
  destruct (match cf_log c with None => (y1, []) | Some lc => setup_log v y1 (length eps') lc end) as [y2 logs] eqn:LG.
  assert (T2 : T v (fun _ => 0) (wl y2 (eps' ++ map Some logs))).
  { destruct (cf_log c) as [lc|]. { eapply setup_log_T; eauto. } injection LG as <- <-. cbn. rewrite app_nil_r. auto. }
  clear A1 LG. destruct (if cf_stats c then add_timer v y2 1000 CbStats else (None, y2)) as [s1 y3] eqn:ST.
  assert (T3 : T v (fun _ => 0) (wl y3 (eps' ++ map Some logs))).
  { destruct (cf_stats c). { eapply T_free; eauto. } injection ST as _ <-. auto. }
  destruct (add_timer v y3 5000 CbAggregate) as [s2 y4] eqn:AG. eapply T_free in AG; [|exact T3|reflexivity].
  injection H as <-. eapply T_alike; [|exact AG]. apply alike_eps; reflexivity.
Qed.

(* ---- acts ------------------------------------------------------------------------------------------------------- *)

Lemma conn_T : forall v w arm, mono (w_sys w) (w_sys (fst (tcp_connection v w))) /\ (T v arm w -> T v arm (fst (tcp_connection v w))).
Proof.
  intros v w arm. unfold tcp_connection. destruct (ask v (w_sys w)) as [r y1] eqn:A1. apply tms_ask in A1. destruct (r <? 0).
  - cbn [fst]. split. { apply mono_same; apply A1. } apply T_alike. split; [apply A1|]. split; [apply A1|]. intros k. rewrite lookup_sys. destruct (lookup w k); auto.
  - destruct (ask_bytes RXMAX v y1) as [junk y2] eqn:A2. apply tms_bytes in A2.
    destruct (add_fd v y2 (new_ep (KTcp 0 true) true junk [] no_filters [])) as [y3 e3] eqn:A3. destruct (tms_fd _ _ _ _ _ A3) as (T3 & K3 & F3).
    cbn [fst]. assert (TS : tm_same (w_sys w) y3) by (eapply tms_trans; [exact A1|]; eapply tms_trans; eauto).
    split. { apply mono_same; apply TS. } intros Tw. apply (T_app v arm w _ e3); auto.
    + cbn [w_sys set_order set_eps set_sys]. apply tms_frame; auto. apply Tw.
    + cbn [w_sys set_order set_eps set_sys]. apply held_none.
      * intros t A. apply (tms_alive _ _ _ TS) in A. apply (T_none _ _ _ _ t Tw (lookup_end w) A).
      * rewrite K3. cbn. auto.
Qed.

Lemma hang_T : forall v w w' its, process_hangups w = Ok (w', its) -> Inv w ->
  w_sys w' = w_sys w /\ (forall x, In x its -> exists i, x = IGone i) /\ forall arm, T v arm w -> T v arm w'.
Proof.
  intros v w w' its H I. unfold process_hangups in H. destruct (w_hang w). 2:{ inversion H; subst. split; auto. split; [intros x []|auto]. }
  inv_bind H. inversion H; subst; clear H.
  match goal with Q : hangups w _ = Ok (?x, _, _) |- _ => rename x into w1; destruct (hangups_spec _ _ _ _ _ Q (inv_sym _ I)) as (A & B & C & D & F) end.
  assert (SY : w_sys w1 = w_sys w) by (rewrite A; reflexivity). split; auto. split. { subst its. intros x X. apply in_map_iff in X. destruct X as (i & <- & _). eauto. }
  intros arm [T1 T2 T3].
  match goal with |- T v arm ?x => assert (LK : forall k, lookup x k = lookup w1 k) by reflexivity; assert (SX : w_sys x = w_sys w) by exact SY; set (wx := x) in * end.
  assert (L2 : forall k e, lookup wx k = Some e -> lookup w k = Some e).
  { intros k e Q. rewrite LK, F in Q. destruct (_ && _); [discriminate|auto]. }
  split; rewrite SX; auto.
  intros t k At O. destruct (T3 t k At O) as (e & Q). exists e. rewrite LK, F, Q.
  destruct (existsb (Nat.eqb k) (w_order w) && negb (valid_at w k) && negb (held w k)) eqn:X; auto. exfalso.
  apply andb_true_iff in X. destruct X as [X _]. apply andb_true_iff in X. destruct X as [_ X]. unfold valid_at in X. rewrite Q in X.
  destruct (T2 k e Q) as [Y1 Y2]. specialize (Y1 t At O). unfold is_valid in X. destruct (ep_kind e) as [| |r vl|]; try discriminate.
  destruct vl; [discriminate|]. destruct Y2 as (Y0 & Y2 & _). destruct (tm_cb t) as [| |i|i|i|i|i|i] eqn:CB; try destruct Y1. cbn in O. inversion O; subst i.
  destruct (Y2 t At CB) as (_ & R & _). specialize (Y0 eq_refl). lia.
Qed.

Lemma T_sweep : forall v arm w, T v arm w -> T v arm (set_sys w (sweep_timers (w_sys w))).
Proof.
  intros v arm w [A B C].
  assert (AL : forall t, alive (sweep_timers (w_sys w)) t <-> alive (w_sys w) t).
  { intros t. unfold alive, sweep_timers. cbn [y_timers set_timers]. rewrite filter_In. split.
    - intros [[I _] D]. auto.
    - intros [I D]. rewrite D. auto. }
  assert (S : sys_ok (sweep_timers (w_sys w))).
  { destruct A as [ND LT]. split; cbn [sweep_timers y_timers y_next set_timers].
    - clear - ND. induction (y_timers (w_sys w)) as [|t l IH]; cbn; auto. inversion ND; subst. destruct (negb _); cbn; auto. constructor; auto.
      intros X. apply H1. apply in_map_iff in X. destruct X as (s & <- & Hs). apply filter_In in Hs. apply in_map. apply Hs.
    - apply Forall_forall. intros t Ht. apply filter_In in Ht. rewrite Forall_forall in LT. apply LT. apply Ht. }
  split; cbn [w_sys set_sys]; auto.
  - intros k e L. apply (held_frame _ _ (Datatypes.S k) (w_sys w)); auto. split; auto. intros t j _ _. symmetry. auto.
  - intros t k At O. apply AL in At. destruct (C t k At O) as (e & L). exists e. exact L.
Qed.

Lemma arms_quiet : forall its arm k, (forall x, In x its -> forall ms, arm_step k ms x = ms) -> arms arm its k = arm k.
Proof.
  intros its arm k H. unfold arms. generalize (arm k). induction its as [|x r IH]; intros ms; cbn [fold_left]; auto.
  rewrite (H x) by (left; auto). apply IH. intros; apply H; right; auto.
Qed.

Definition is_ctl (x : item) : Prop := exists i bs m ds, x = ICtl i bs m ds.
Lemma ctls_items : forall sub, (forall w c w' ds its, sub w c = Ok (w', ds, its) -> Forall is_ctl its) ->
  forall cs w i w' its, route_ctls sub w i cs = Ok (w', its) -> Forall is_ctl its.
Proof.
  intros sub S. induction cs as [|c cs IH]; intros w i w' its H; cbn [route_ctls] in H. { inversion H; subst. apply Forall_nil. }
  inv_bind H. inv_bind H. inversion H; subst; clear H. apply Forall_cons; [unfold is_ctl; eauto|]. apply Forall_app. split; [eapply S; eauto|eapply IH; eauto].
Qed.
Lemma each_items : forall sub f v, (forall w c w' ds its, sub w c = Ok (w', ds, its) -> Forall is_ctl its) ->
  forall order w mem m u w' mem' ds its u', route_each sub f v w order mem m u = Ok (w', mem', ds, its, u') -> Forall is_ctl its.
Proof.
  intros sub f v S. induction order as [|i r IH]; intros w mem m u w' mem' ds its u' H.
  { cbn [route_each] in H. inversion H; subst. apply Forall_nil. }
  rewrite route_each_cons in H. inv_bind H. destruct (accept_msg _ _ _ _); [|eapply IH; eauto|eapply IH; eauto].
  inv_bind H. inv_bind H. inv_bind H. inversion H; subst; clear H. apply Forall_app. split; [eapply ctls_items; eauto|eapply IH; eauto].
Qed.
Lemma route_items : forall f v n w mem m w' mem' ds its, route n f v w mem m = Ok (w', mem', ds, its) -> Forall is_ctl its.
Proof.
  intros f v. induction n; intros w mem m w' mem' ds its H; [discriminate|]. rewrite route_S in H. inv_bind H. inversion H; subst; clear H.
  eapply each_items; eauto. intros x c x' ds' its' Q. unfold nested in Q. inv_bind Q. inversion Q; subst. eapply IHn; eauto.
Qed.
Lemma handle_items : forall f v w i m w' its, handle_msg f v w i m = Ok (w', its) ->
  Forall (fun x => is_ctl x \/ (exists i bs m d ds, x = IRecv i bs m d ds)) its.
Proof.
  intros f v w i m w' its H. unfold handle_msg in H. inv_bind H. inv_bind H. inv_bind H.
  destruct (negb b). { inversion H; subst. apply Forall_cons; [right; eauto 10|apply Forall_nil]. }
  destruct (negb _). { inversion H; subst. apply Forall_cons; [right; eauto 10|apply Forall_nil]. }
  inv_bind H. inv_bind H. inv_bind H. inv_bind H. inversion H; subst; clear H. apply Forall_cons; [right; eauto 10|].
  match goal with Q : route _ _ _ _ _ _ = _ |- _ => apply route_items in Q; eapply Forall_impl; [|exact Q] end. auto.
Qed.

Lemma act_T : forall f v w its w', wf_table (v_tbl v) -> act f v w its w' -> Inv w ->
  fresh_ids (w_sys w) (w_sys w') /\ forall arm, T v arm w -> T v (arms arm its) w'.
Proof.
  intros f v w its w' WT A I.
  assert (GD : good v w w' -> (forall x, In x its -> forall k ms, arm_step k ms x = ms) -> fresh_ids (w_sys w) (w_sys w') /\ forall arm, T v arm w -> T v (arms arm its) w').
  { intros [[M1 M2] G] Q. split; auto. intros arm Tw. eapply T_ext; [|apply G; exact Tw]. intros k. apply arms_quiet. intros x X ms. apply Q; auto. }
  assert (NIL : forall x, In x (@nil item) -> forall k ms, arm_step k ms x = ms) by (intros x []).
  inversion A; subst.
  - split.
    + destruct (os_read_T _ _ _ _ _ _ _ (fun _ => 0) H3 H H0) as [[M _] _]. exact M.
    + intros arm Tw. destruct (os_read_T _ _ _ _ _ _ _ arm H3 H H0) as [_ Q]. exact (Q Tw).
  - apply GD; auto. apply good_alike. eapply alike_put; eauto.
  - apply GD.
    + assert (A1 : good v w (put w i (set_rx e x st))) by (apply good_alike; eapply alike_put; eauto).
      eapply good_trans; [exact A1|]. eapply good_trans; [|eapply msg_good; eauto].
      destruct known. { eapply baud_good; eauto. eapply lookup_put_eq; eauto. } inversion H3; subst. apply good_refl.
    + apply handle_items in H4. rewrite Forall_forall in H4. intros y Y k ms. destruct (H4 y Y) as [(? & ? & ? & ? & ->)|(? & ? & ? & ? & ? & ->)]; auto.
  - split.
    + destruct (conn_T v w (fun _ => 0)) as [[M _] _]. exact M.
    + intros arm Tw. destruct (conn_T v w arm) as [_ Q]. eapply T_ext; [|exact (Q Tw)]. intros k. apply arms_quiet. unfold tcp_connection.
      destruct (ask v (w_sys w)) as [r y1]. destruct (r <? 0). { intros x []. } destruct (ask_bytes RXMAX v y1) as [j y2]. destruct (add_fd _ _ _) as [y3 e3].
      cbn [snd]. intros x [<-|[]]. auto.
  - apply GD; auto. apply good_alike. destruct (mod_fd_same2 _ _ _ _ _ _ _ H0) as (Q1 & Q2 & Q3 & Q4). eapply alike_ask; eauto.
  - destruct (timer_T _ _ _ _ _ _ _ H (inv_logs _ I)) as [[M _] Q]. auto.
  - apply GD; auto. apply good_alike. apply alike_eps; reflexivity.
  - apply GD; auto. apply good_alike. apply alike_eps; reflexivity.
  - destruct (hang_T v _ _ _ H I) as (SY & GI & Q). rewrite SY. split; [apply fresh_refl|]. intros arm Tw. eapply T_ext; [|apply Q; exact Tw].
    intros k. apply arms_quiet. intros x X ms. destruct (GI x X) as (j & ->). reflexivity.
  - split. { apply fresh_sweep. } intros arm Tw. apply (T_sweep _ _ _ Tw).
Qed.

(* the interval the timer of UDP client k is set to (0: off), after the history h *)
Definition arm_after (h : list item) (k : nat) : Z := fold_left (arm_step k) h 0.

Lemma T_runs : forall f v c h w, wf_table (v_tbl v) -> runs f v c h w -> T v (arm_after h) w.
Proof.
  intros f v c h w WT R. apply (runs_ind f v c (fun h w => T v (arm_after h) w)) in R; auto.
  - intros d pos w0 S. apply start_T in S. exact S.
  - intros h0 w0 its w1 I P A. destruct (act_T f v w0 its w1 WT A I) as [_ Q]. eapply T_ext; [|exact (Q _ P)].
    intros k. unfold arm_after, arms. rewrite fold_left_app. reflexivity.
Qed.
