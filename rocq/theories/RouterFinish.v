(* The end of the program: the flight stack log is stopped. *)
From Verif Require Import Base Mav SpecCrc SpecFrame Frame FrameProofs FrameRefine FrameLink Dedup SpecAccept Accept AcceptProofs Names NamesProofs Sys LogFile LogFileProofs ULog Loggers LogInv LogStep LogMono RouterCtl Router
  RouterRoute RouterRoute2 RouterSetup RouterActs RouterInv RouterLearn RouterStep RouterStart RouterHist SpecRouter SpecLife RouterTrace RouterLife RouterLife2 RouterLife3 RouterTimers RouterTimers2 RouterLife5 RouterStays.

(* ---- the log endpoint never changes ---------------------------------------------------------------------------- *)

Lemma log_learn : forall n w i id w', learn n w i id = Ok w' -> w_log w' = w_log w.
Proof.
  induction n; intros w i id w' H; [discriminate|]. cbn [learn] in H. inv_bind H.
  destruct (contains _ _). { inversion H; subst. auto. }
  assert (A : w_log (put w i (set_ids a (ep_ids a ++ [id]))) = w_log w) by reflexivity. rewrite <- A. clear A E. revert H.
  generalize (put w i (set_ids a (ep_ids a ++ [id]))). generalize (ep_members a).
  induction l as [|j r IHr]; intros x H. { inversion H; subst. auto. }
  inv_bind H. rewrite <- (IHn _ _ _ _ E). eapply IHr; eauto.
Qed.
Lemma log_conn : forall v w, w_log (fst (tcp_connection v w)) = w_log w.
Proof.
  intros v w. unfold tcp_connection. destruct (ask v (w_sys w)) as [r y]. destruct (r <? 0); auto.
Qed.
Lemma act_log : forall f v w its w', wf_table (v_tbl v) -> act f v w its w' -> Inv w -> w_log w' = w_log w.
Proof.
  intros f v w its w' WT A I. inversion A; subst.
  - eapply kp_log. eapply kept_os_read; eauto.
  - auto.
  - destruct (recv_before f v w i e rr x st known m w1 WT I H H0 H1 H2 H3 _ _ H4) as (K & _). rewrite <- (kp_log _ _ K).
    destruct (handle_inv _ _ _ _ _ _ _ H4) as (e1 & pkt & w2 & fresh & L & SL & CD & C). apply check_dup_eps in CD. destruct CD as [_ KD]. apply kp_log in KD.
    destruct C as [(_ & -> & _)|[(_ & _ & -> & _)|(_ & _ & w3 & e2 & w4 & mem & ds & its' & e3 & LE & _ & RT & _ & -> & _)]]; auto.
    cbn [w_log put set_eps]. rewrite <- KD. apply log_learn in LE. rewrite <- LE. change (w_log (put w4 i (set_rx e3 (mkRx mem (rx_len (ep_rx e3)) (rx_last (ep_rx e3))) (ep_rstat e3)))) with (w_log w4).
    eapply kp_log. eapply kept_route; eauto.
  - apply log_conn.
  - auto.
  - eapply kp_log. eapply kept_timer; eauto.
  - auto.
  - auto.
  - unfold process_hangups in H. destruct (w_hang w); [|inversion H; subst; auto]. inv_bind H. inversion H; subst.
    match goal with X : hangups _ _ = _ |- _ => apply hangups_spec in X; [destruct X as (X & _)|apply inv_sym; auto] end.
    match goal with X : _ = set_eps w _ |- _ => cbn; rewrite X; reflexivity end.
  - auto.
Qed.
Lemma f2_length : forall A B (P : A -> B -> Prop) l l', Forall2 P l l' -> length l = length l'.
Proof. intros A B P l l' F. induction F; cbn; auto. Qed.
Lemma start_log : forall v y c w, start v y c = Some w -> w_log w = match cf_log c with Some _ => Some (length (confs c)) | None => None end.
Proof.
  intros v y c w S. destruct (start_shape _ _ _ _ S) as (es & ls & F & _ & EP & _ & _ & _ & _ & _ & _ & _ & LL). apply f2_length in F. unfold log_count in LL.
  unfold start in S. destruct (setup_all _ _ _ _) as [[y1 eps]|] eqn:SA; [|discriminate]. destruct (tcp_server _ _ _) as [sv y2].
  destruct (match cf_log c with Some lc => _ | None => _ end) as [y3 logs] eqn:LG. destruct (if cf_stats c then _ else _) as [? y4]. destruct (add_timer _ _ _ _) as [? y5].
  inversion S; subst; clear S. cbn [w_log w_eps] in *. destruct (cf_log c) as [lc|].
  - assert (X : length (link_groups eps ++ map Some logs) = length (link_groups (map Some es) ++ map Some ls)) by congruence. rewrite !app_length, !map_length in X.
    assert (LN : length logs = if lc_tlog lc then 2%nat else 1%nat).
    { revert LG. unfold setup_log. generalize (ask_bytes RXMAX v y2). intros [junk y6]. destruct (new_logger _ _ _ _) as [l y7]. destruct (lc_tlog lc).
      - generalize (ask_bytes RXMAX v (mark_unfinished_logs v y7)). intros [junk' y8] LG. inversion LG; subst. reflexivity.
      - intros LG. inversion LG; subst. reflexivity. }
    destruct logs as [|lo logs]; [destruct (lc_tlog lc); discriminate|]. f_equal. rewrite LN in X. unfold confs. rewrite F. unfold link_groups in *. rewrite !link_len, map_length in *. destruct (lc_tlog lc); lia.
  - inversion LG; subst. reflexivity.
Qed.
Lemma runs_log : forall f v c its w, wf_table (v_tbl v) -> runs f v c its w -> w_log w = match cf_log c with Some _ => Some (length (confs c)) | None => None end.
Proof.
  intros f v c its w WT R. apply (runs_ind f v c (fun h w => w_log w = match cf_log c with Some _ => Some (length (confs c)) | None => None end)) in R; auto.
  - intros. eapply start_log; eauto.
  - intros h w1 i1 w2 I E A. rewrite <- E. eapply act_log; eauto.
Qed.

(* ---- messages sent by loggers leave the directory alone ---------------------------------------------------------- *)

Lemma fs_add_timer : forall v y ms cb o y', add_timer v y ms cb = (o, y') -> y_fs y' = y_fs y.
Proof. intros v y ms cb o y' H. unfold add_timer in H. destruct (negb _); inversion H; subst; auto. Qed.
Lemma fs_ask : forall v y r y', ask v y = (r, y') -> y_fs y' = y_fs y.
Proof. intros v y r y' H. unfold ask in H. inversion H; subst; auto. Qed.
Lemma fs_write : forall f v y i e mem m y' e' mem' r d cs, write_ep f v y i e mem m = Ok (y', e', mem', r, d, cs) -> is_log e = false -> y_fs y' = y_fs y.
Proof.
  intros f v y i e mem m y' e' mem' r d cs H NL. unfold write_ep in H. unfold is_log in NL. destruct (ep_kind e); try discriminate.
  - destruct (negb _). { inversion H; subst; auto. } destruct (os_write _ _ _) as [q y1] eqn:W. unfold os_write in W. destruct (ask v y) as [q0 y0] eqn:K. apply fs_ask in K. inversion W; subst.
    match type of H with (if ?b then _ else _) = _ => destruct b end; inversion H; subst; auto.
  - destruct (negb _). { inversion H; subst; auto. } destruct (_ =? 0). { inversion H; subst; auto. } destruct (os_write _ _ _) as [q y1] eqn:W. unfold os_write in W. destruct (ask v y) as [q0 y0] eqn:K. apply fs_ask in K. inversion W; subst.
    match type of H with (if ?b then _ else _) = _ => destruct b end; inversion H; subst; auto.
  - destruct (negb _). { inversion H; subst; auto. } destruct (os_write _ _ _) as [q y1] eqn:W. unfold os_write in W. destruct (ask v y) as [q0 y0] eqn:K. apply fs_ask in K. inversion W; subst.
    match type of H with (if ?b then _ else _) = _ => destruct b end; [|inversion H; subst; auto].
    destruct (if _ =? - EPIPE then _ else _) as [y2 e2] eqn:TL. inversion H; subst. rewrite <- K.
    match type of TL with (if ?b then _ else _) = _ => destruct b end; [|inversion TL; subst; auto].
    unfold tcp_lost in TL. destruct (0 <? retry); [|inversion TL; subst; auto]. unfold schedule_reconnect in TL. destruct (retry <=? 0). { inversion TL; subst; auto. }
    destruct (add_timer _ _ _ _) as [o y3] eqn:AT. apply fs_add_timer in AT. inversion TL; subst; auto.
Qed.
Lemma fs_deliver : forall f v w i e mem m w' mem' d cs, deliver f v w i e mem m = Ok (w', mem', d, cs) -> is_log e = false -> y_fs (w_sys w') = y_fs (w_sys w).
Proof.
  intros f v w i e mem m w' mem' d cs D NL. unfold deliver in D. inv_bind D. inv_bind D.
  match goal with E : write_ep _ _ _ _ _ _ _ = Ok (?a, ?b, ?c, ?d0, ?e0, ?f0) |- _ => rename a into y1; rename b into e1; rename d0 into ret; apply fs_write in E; auto; rename E into W end.
  destruct (if ret =? - EAGAIN then _ else _) as [[y2 e2] req] eqn:MF.
  assert (Y : y_fs y2 = y_fs y1). { destruct (ret =? - EAGAIN); [|inversion MF; subst; auto]. destruct (mod_fd v y1 e1 true) as [[y3 ?] ?] eqn:MM. inversion MF; subst. unfold mod_fd in MM. destruct (ask v y1) as [q y4] eqn:K. apply fs_ask in K. destruct (ep_poll e1); [destruct (q <? 0)|]; inversion MM; subst; auto. }
  assert (DW : w' = (if ret =? - EPIPE then set_hang (put (set_sys w y2) i e2) true else put (set_sys w y2) i e2)) by congruence. subst w'. clear D. rewrite <- W, <- Y. match goal with |- context [if ?b then _ else _] => destruct b end; reflexivity.
Qed.
Lemma fs_each : forall f v order w mem m u sub w' mem' ds its u', logs_ok w -> from_log m ->
  route_each sub f v w order mem m u = Ok (w', mem', ds, its, u') -> y_fs (w_sys w') = y_fs (w_sys w).
Proof.
  intros f v. induction order as [|i r IH]; intros w mem m u sub w' mem' ds its u' L F H.
  - cbn [route_each] in H. inversion H; subst. auto.
  - rewrite route_each_cons in H. destruct (get w i) as [e| |] eqn:G; cbn [bind] in H; try discriminate.
    apply get_lookup in G. destruct (accept_msg _ _ _ _) eqn:A; [|eapply IH; eauto|eapply IH; eauto].
    assert (NL : is_log e = false). { destruct (is_log e) eqn:X; auto. rewrite log_rejects in A; auto. discriminate. eapply L; eauto. }
    inv_bind H. match goal with X : deliver _ _ _ _ _ _ _ = Ok (?a, ?b, ?c, ?d) |- _ => rename X into D; rename a into w1; rename d into cs end.
    destruct (deliver_spec _ _ _ _ _ _ _ _ _ _ _ D G) as (R & M & C & N & T & _ & O). destruct (N NL) as [-> ->].
    cbn [route_ctls bind] in H. pose proof (logs_routed _ _ R L) as L1. inv_bind H. inversion H; subst; clear H.
    apply fs_deliver in D; auto. rewrite <- D. eapply IH; eauto.
Qed.
Lemma fs_ctls : forall k f v cs w i w' its, logs_ok w -> Forall ctl_ok cs -> route_ctls (nested k f v) w i cs = Ok (w', its) -> y_fs (w_sys w') = y_fs (w_sys w).
Proof.
  intros k f v. induction cs as [|c cs IH]; intros w i w' its L F H; cbn [route_ctls] in H.
  - inversion H; subst. auto.
  - inv_bind H. match goal with X : nested _ _ _ _ _ = Ok (?a, _, _) |- _ => rename X into NS; rename a into w1 end. inv_bind H. match goal with X : route_ctls _ _ _ _ = _ |- _ => rename X into RC end. inversion H; subst; clear H. inversion F; subst.
    pose proof (nested_routed _ _ _ _ _ _ _ _ NS) as R. rewrite (IH _ _ _ _ (logs_routed _ _ R L) H2 RC). unfold nested in NS. inv_bind NS. inversion NS; subst; clear NS.
    match goal with X : route k _ _ _ _ _ = _ |- _ => rename X into RT end. destruct k; [discriminate|]. rewrite route_S in RT. inv_bind RT. match goal with X : route_each _ _ _ _ _ _ _ _ = _ |- _ => apply fs_each in X; auto; [|apply ctl_from; auto]; rename X into FE end.
    inversion RT; subst. rewrite <- FE. match goal with |- context [if ?b then _ else _] => destruct b end; auto.
Qed.

(* ---- stopping ---------------------------------------------------------------------------------------------------- *)

Lemma readonly_all : forall l n e, In e (fs_upd l n d_readonly) -> d_name e = n -> d_w e = false.
Proof.
  intros l n e H N. unfold fs_upd in H. apply in_map_iff in H. destruct H as (x & X & _). destruct (beqs (d_name x) n) eqn:B; subst; auto.
  exfalso. assert (beqs (d_name e) (d_name e) = true) by (apply beqs_eq; auto). congruence.
Qed.
Lemma touch_none : forall n f f', touch n f f' -> f = None -> f' = None.
Proof. intros n [|] [|] T H; cbn in T; congruence || destruct T. Qed.

(* the log is closed; if it was open, every file of its name is read-only, provided all system calls succeed *)
Lemma lstop_closed : forall f v y g b y' g' b' cs, lstop f v y g b = Ok (y', g', b', cs) -> sys_ok y -> linv y g ->
  l_open g' = false /\ l_name g' = l_name g /\
  (l_open g = true -> calls_ok v y -> forall e, In e (entries (y_fs y')) -> d_name e = l_name g -> d_w e = false).
Proof.
  intros f v y g b y' g' b' cs H K L.
  assert (SP : forall y1 g1 y2 g2, calm y g y1 g1 -> log_stop v y1 g1 = Ok (y2, g2) -> l_open g2 = false /\ l_name g2 = l_name g /\
    (calls_ok v y -> forall e, In e (entries (y_fs y2)) -> d_name e = l_name g -> d_w e = false)).
  { intros y1 g1 y2 g2 C S. destruct (log_stop_spec v y1 g1 (calm_sys _ _ _ _ C K) (calm_linv _ _ _ _ C L)) as (y3 & g3 & S3 & _ & _ & _ & _ & _ & O & N & _ & CD & FS).
    rewrite S in S3. injection S3 as <- <-. split; auto. split. { rewrite N. apply (ca_name _ _ _ _ C). }
    intros CO e E Q. destruct (y_fs y1) as [l1|] eqn:F1.
    - assert (CO1 : calls_ok v y1). { intros n P. apply CO. pose proof (ca_pos _ _ _ _ C). lia. }
      rewrite (FS CO1 l1 eq_refl) in E. eapply readonly_all; [exact E|]. rewrite Q. symmetry. apply (ca_name _ _ _ _ C).
    - destruct CD as [CD|(l & CD & _)]; [|congruence]. rewrite CD, F1 in E. destruct E. }
  destruct b; cbn [lstop] in H.
  - inv_bind H. inversion H; subst; clear H. match goal with X : bin_stop _ _ _ = _ |- _ => rename X into B end. unfold bin_stop in B. destruct (l_open g) eqn:O; cbn [negb] in B.
    + destruct (send_block_status y g BLOCK_STOP 1) as [[y1 g1] c1] eqn:SB. apply calm_block_status in SB. inv_bind B. inversion B; subst; clear B.
      match goal with X : log_stop _ _ _ = _ |- _ => destruct (SP _ _ _ _ SB X) as (A1 & A2 & A3) end. auto.
    + inversion B; subst. split; auto. split; auto. congruence.
  - inv_bind H. inversion H; subst; clear H. match goal with X : ul_stop _ _ _ _ _ = _ |- _ => rename X into B end. unfold ul_stop in B. destruct (l_open g) eqn:O; cbn [negb] in B.
    + destruct (send_command y g CMD_LOGGING_STOP) as [[y1 g1] c1] eqn:SB. apply calm_send_ctl in SB. inv_bind B. match goal with X : stop_flush _ _ _ _ _ _ = _ |- _ => apply calm_stop_flush in X; rename X into SF end. inv_bind B. inversion B; subst; clear B.
      match goal with X : log_stop _ _ _ = _ |- _ => destruct (SP _ _ _ _ (calm_trans _ _ _ _ _ _ SB SF) X) as (A1 & A2 & A3) end. auto.
    + inversion B; subst. split; auto. split; auto. congruence.
  - destruct (l_open g) eqn:O; cbn [negb] in H.
    + inv_bind H. inversion H; subst; clear H. match goal with X : log_stop _ _ _ = _ |- _ => destruct (SP _ _ _ _ (calm_refl _ _) X) as (A1 & A2 & A3) end. auto.
    + inversion H; subst. split; auto. split; auto. congruence.
Qed.

Definition log_file (e : ep) : option (bool * list Z) :=
  match ep_kind e with
  | KLog (LFile g _) => Some (l_open g, l_name g)
  | KLog (LAuto a) => match a_inner a with Some (g, _) => Some (l_open g, l_name g) | None => None end
  | _ => None
  end.
Lemma finish_closed : forall f v c arm h w w' its k, Inv w -> T v arm w -> synced c h w -> w_log w = Some k -> finish f v w = Ok (w', its) ->
  exists e e', lookup w k = Some e /\ lookup w' k = Some e' /\
  match log_file e with
  | None => log_file e' = None
  | Some (o, n) => log_file e' = Some (false, n) /\ (o = true -> calls_ok v (w_sys w) -> forall d, In d (entries (y_fs (w_sys w'))) -> d_name d = n -> d_w d = false)
  end.
Proof.
  intros f v c arm h w w' its k I Tw SY WL H. unfold finish in H. rewrite WL in H. inv_bind H. apply get_lookup in E. rename a into e. exists e.
  pose proof (t_ep _ _ _ Tw _ _ E) as [_ HT]. unfold log_file. destruct (ep_kind e) as [| | |[g b|a]] eqn:K; try discriminate.
  - destruct HT as [EP LI]. inv_bind H. match goal with X : lstop _ _ _ _ _ = Ok (?p, ?q, ?r, ?s) |- _ => rename X into LS; rename p into y1; rename q into g1; rename r into b1; rename s into cs end.
    destruct (lstop_closed _ _ _ _ _ _ _ _ _ LS (t_sys _ _ _ Tw) LI) as (O & N & RO). pose proof (ctl_lstop _ _ _ _ _ _ _ _ _ LS) as CO.
    set (w1 := put (set_sys w y1) k (set_kind e (KLog (LFile g1 b1)))) in *. change (route_sub f v) with (nested 2 f v) in H.
    assert (L1 : lookup w1 k = Some (set_kind e (KLog (LFile g1 b1)))) by (eapply lookup_put_eq; rewrite lookup_sys; eauto).
    assert (LO : logs_ok w1).
    { intros j ej J G. destruct (Nat.eq_dec j k) as [->|NE]. - rewrite L1 in J. injection J as <-. apply (inv_logs _ I k e); auto. unfold is_log. rewrite K. auto.
      - unfold w1 in J. rewrite lookup_put_neq in J by auto. rewrite lookup_sys in J. apply (inv_logs _ I j ej); auto. }
    exists (set_kind e (KLog (LFile g1 b1))). split; auto. split. { eapply (proj2 (RouterRoute2.ctls_items _ _ _ _ _ _ _ _ LO CO H)); auto. }
    cbn [ep_kind set_kind]. rewrite O, N. split; auto. intros OP CA d ID. rewrite (fs_ctls _ _ _ _ _ _ _ _ LO CO H) in ID. apply RO; auto.
  - destruct HT as [EP LI]. destruct (a_inner a) as [[g b]|] eqn:AI.
    2:{ inversion H; subst. exists e. split; auto. split; auto. rewrite K, AI. auto. }
    destruct LI as [EL LI]. inv_bind H. match goal with X : lstop _ _ _ _ _ = Ok (?p, ?q, ?r, ?s) |- _ => rename X into LS; rename p into y1; rename q into g1; rename r into b1; rename s into cs end.
    destruct (lstop_closed _ _ _ _ _ _ _ _ _ LS (t_sys _ _ _ Tw) LI) as (O & N & RO). pose proof (ctl_lstop _ _ _ _ _ _ _ _ _ LS) as CO.
    match type of H with route_ctls _ (put _ _ ?z) _ _ = _ => set (e1 := z) in * end.
    set (w1 := put (set_sys w y1) k e1) in *. change (route_sub f v) with (nested 2 f v) in H.
    assert (L1 : lookup w1 k = Some e1) by (eapply lookup_put_eq; rewrite lookup_sys; eauto).
    assert (LO : logs_ok w1).
    { intros j ej J G. destruct (Nat.eq_dec j k) as [->|NE]. - rewrite L1 in J. injection J as <-. apply (inv_logs _ I k e); auto. unfold is_log. rewrite K. auto.
      - unfold w1 in J. rewrite lookup_put_neq in J by auto. rewrite lookup_sys in J. apply (inv_logs _ I j ej); auto. }
    exists e1. split; auto. split. { eapply (proj2 (RouterRoute2.ctls_items _ _ _ _ _ _ _ _ LO CO H)); auto. }
    unfold e1. cbn [ep_kind set_kind a_inner]. rewrite O, N. split; auto. intros OP CA d ID. rewrite (fs_ctls _ _ _ _ _ _ _ _ LO CO H) in ID. apply RO; auto.
Qed.
