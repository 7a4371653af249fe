(* One endpoint through a whole run: kind, destination, baud rate, statistics. *)
From Coq Require Import Permutation.
From Verif Require Import Base Mav SpecCrc SpecFrame Frame FrameProofs FrameRefine FrameLink Dedup SpecAccept Accept AcceptProofs Names Sys LogFile LogFileProofs ULog Loggers LogInv LogStep RouterCtl Router
  RouterRoute RouterRoute2 RouterSetup RouterActs RouterInv RouterLearn RouterStep RouterStart RouterHist SpecRouter SpecLife RouterTrace RouterLife.

(* ---- one write ---------------------------------------------------------------------------------------- *)

Definition is_uart (e : ep) : bool := match ep_kind e with KUart _ _ _ => true | _ => false end.
(* what the code counts *)
Definition counted (uart : bool) (d : delivery) : bool :=
  match dl_call d with DSent _ r => if uart then negb (r =? - EAGAIN) else 0 <=? r | _ => false end.
Definition cut (uart : bool) (d : delivery) : bool :=
  counted uart d && match dl_call d with DSent _ r => negb (r =? Z.of_nat (length (dl_bytes d))) | _ => false end.

Lemma slice_len : forall mem n bs, slice mem 0 n = Ok bs -> length bs = n.
Proof.
  intros mem n bs H. unfold slice in H. destruct (_ <=? _)%nat eqn:L; [|discriminate]. apply Nat.leb_le in L. inversion H; subst. rewrite firstn_length. cbn [skipn]. lia.
Qed.

Lemma mod_fd_mild : forall v y e b y' e' r, mod_fd v y e b = (y', e', r) -> mild e e'.
Proof.
  intros v y e b y' e' r H. unfold mod_fd in H. destruct (ask v y). destruct (ep_poll e).
  - destruct (_ <? 0); inversion H; subst; repeat split; auto.
  - inversion H; subst; apply mild_refl.
Qed.

(* one write on an endpoint that is not a logger *)
Lemma one_spec : forall e d e', one e d e' -> is_log e = false ->
  let n := Z.of_nat (length (dl_bytes d)) in
  (if counted (is_uart e) d then ep_wtotal e' = u32 (ep_wtotal e + 1) /\ ep_wbytes e' = u64 (ep_wbytes e + n) /\
      ep_incomplete e' = (if cut (is_uart e) d then u32 (ep_incomplete e + 1) else ep_incomplete e)
   else same_stats e e') /\
  (match ep_kind e with
   | KUart _ _ _ => ep_kind e' = ep_kind e /\ ep_fd e' = ep_fd e
   | KUdp _ peer _ => ep_kind e' = ep_kind e /\ ep_fd e' = ep_fd e /\
        (ep_fd e = true -> if snd peer =? 0 then dl_call d = DNone else exists r, dl_call d = DSent (Some peer) r)
   | KTcp r vl => (ep_fd e = false -> dl_call d = DNone) /\
        (mild e e' \/ (ep_kind e' = ep_kind e /\ ep_fd e' = ep_fd e) \/ (lost e e' /\ exists a, dl_call d = DSent a (- EPIPE)))
   | KLog _ => False
   end).
Proof.
  intros e d e' (f & v & w & i & mem & m & w' & mem' & cs & L & D & L') NL n. unfold deliver in D. inv_bind D. inv_bind D.
  match type of D with context [write_ep] => fail | _ => idtac end.
  match goal with E : write_ep _ _ _ _ _ _ _ = Ok (?a, ?b, ?c, ?d0, ?e0, ?f0) |- _ => rename a into y1; rename b into e1; rename c into mem1; rename d0 into ret; rename e0 into call; rename f0 into cs1; rename E into W end.
  match goal with E : slice _ _ _ = Ok ?q |- _ => rename q into bs; apply slice_len in E; rename E into LB end.
  destruct (if ret =? - EAGAIN then _ else _) as [[y2 e2] req] eqn:MF.
  assert (M : mild e1 e2). { destruct (ret =? - EAGAIN); [|inversion MF; subst; apply mild_refl]. destruct (mod_fd v y1 e1 true) as [[? ?] ?] eqn:MM. inversion MF; subst. eapply mod_fd_mild; eauto. }
  assert (DW : w' = (if ret =? - EPIPE then set_hang (put (set_sys w y2) i e2) true else put (set_sys w y2) i e2)) by congruence. assert (DD : d = mkDel i bs call req) by congruence. subst w' d. clear D. assert (e' = e2).
  { assert (X : lookup (put (set_sys w y2) i e2) i = Some e2) by (eapply lookup_put_eq; rewrite lookup_sys; eauto). revert L'. destruct (ret =? - EPIPE); intros L'; [change (lookup (put (set_sys w y2) i e2) i = Some e') in L'|]; congruence. }
  subst e'. clear L' MF. cbn [dl_bytes dl_call] in *. subst n. rewrite LB. set (len := Z.of_nat (m_len m)) in *.
  unfold write_ep in W. fold len in W. unfold counted, cut, counted, is_uart. cbn [dl_call dl_bytes]. rewrite LB. fold len.
  destruct M as (M1 & M2 & M3 & M4 & M5). unfold same_stats. rewrite M1, M2, M3, M4, M5.
  destruct (ep_kind e) as [bd cu tm|cf pe tm|r vl|l] eqn:K.
  - destruct (ep_fd e) eqn:F; cbn [negb] in W.
    2:{ inversion W; subst. rewrite K, F. repeat split; auto. }
    destruct (os_write v (w_sys w) len) as [q y3]. destruct (Z.eqb_spec q (- EAGAIN)) as [Q|Q].
    + inversion W; subst. rewrite Z.eqb_refl. cbn [negb]. rewrite K, F. repeat split; auto.
    + inversion W; subst. rewrite (proj2 (Z.eqb_neq _ _) Q). cbn [negb andb]. unfold count_sent. cbn. rewrite K, F. split; auto. split; auto. split; auto. destruct (_ =? len); auto.
  - destruct (ep_fd e) eqn:F; cbn [negb] in W.
    2:{ inversion W; subst. rewrite K, F. repeat split; auto. discriminate. }
    destruct (snd pe =? 0) eqn:PE. { inversion W; subst. rewrite K, F. repeat split; auto. }
    destruct (os_write v (w_sys w) len) as [q y3]. destruct (Z.ltb_spec q 0) as [Q|Q].
    + inversion W; subst. rewrite (proj2 (Z.leb_gt 0 _)) by lia. cbn [andb]. rewrite K, F. repeat split; auto. intros _. eauto.
    + inversion W; subst. rewrite (proj2 (Z.leb_le 0 _)) by lia. cbn [andb]. unfold count_sent. cbn. rewrite K, F. split. { split; auto. split; auto. destruct (_ =? len); auto. }
      repeat split; auto. intros _. eauto.
  - destruct (ep_fd e) eqn:F; cbn [negb] in W.
    2:{ inversion W; subst. rewrite K, F. split; [repeat split; auto|]. split; auto. }
    destruct (os_write v (w_sys w) len) as [q y3]. destruct (Z.ltb_spec q 0) as [Q|Q].
    + destruct (Z.eqb_spec q (- EPIPE)) as [P|P].
      * destruct (tcp_lost v y3 i e r) as [y4 e4] eqn:T. inversion W; subst. rewrite (proj2 (Z.leb_gt 0 _)) by lia. cbn [andb].
        destruct (lost_of _ _ _ _ _ _ _ _ K T) as (r1 & vl1 & K1 & ST & Z1). split. { exact ST. } split; [discriminate|]. right. right. split; [|eauto].
        exists r1, vl1. split; auto. unfold same_stats. rewrite M3, M4, M5. split; auto. rewrite M1, M2. exact Z1.
      * inversion W; subst. rewrite (proj2 (Z.leb_gt 0 _)) by lia. cbn [andb]. rewrite K, F. split; [repeat split; auto|]. split; [discriminate|auto].
    + inversion W; subst. rewrite (proj2 (Z.leb_le 0 _)) by lia. cbn [andb]. unfold count_sent. cbn. rewrite K, F. split. { split; auto. split; auto. destruct (_ =? len); auto. }
      split; [discriminate|]. right. left. auto.
  - unfold is_log in NL. rewrite K in NL. discriminate.
Qed.

Lemma one_uart : forall e d e', one e d e' -> is_log e = false -> is_uart e' = is_uart e /\ is_log e' = false.
Proof.
  intros e d e' O NL. destruct (one_spec _ _ _ O NL) as [_ S]. unfold is_uart, is_log. destruct (ep_kind e) eqn:K.
  - destruct S as [-> _]. auto.
  - destruct S as [-> _]. auto.
  - destruct S as [_ [(-> & _)|[(-> & _)|((r & vl & K2 & _ & X) & _)]]]; [rewrite K; auto|auto|]. destruct (_ <? _); destruct X as [-> _]; auto.
  - destruct S.
Qed.

Lemma u64_add : forall a b c, u64 (u64 (a + b) + c) = u64 (a + (b + c)).
Proof. intros. unfold u64. rewrite Zplus_mod_idemp_l. f_equal. lia. Qed.

(* the counters after several writes *)
Lemma steps_stats : forall e l e', steps e l e' -> is_log e = false -> is_uart e' = is_uart e /\ is_log e' = false /\
  (forall a, ep_wtotal e = u32 a -> ep_wtotal e' = u32 (a + Z.of_nat (length (filter (counted (is_uart e)) l)))) /\
  (forall a, ep_wbytes e = u64 a -> ep_wbytes e' = u64 (a + total (filter (counted (is_uart e)) l))) /\
  (forall a, ep_incomplete e = u32 a -> ep_incomplete e' = u32 (a + Z.of_nat (length (filter (cut (is_uart e)) l)))).
Proof.
  intros e l e' S. induction S as [e|e d e1 ds e2 O S IH]; intros NL.
  - cbn. split; auto. split; auto. repeat split; intros a A; rewrite Z.add_0_r; auto.
  - destruct (one_uart _ _ _ O NL) as [U N1]. destruct (IH N1) as (U2 & N2 & A & B & C). rewrite U in *. split; auto. split; auto.
    destruct (one_spec _ _ _ O NL) as [ST _]. unfold cut in *. cbn [filter]. destruct (counted (is_uart e) d) eqn:CD; cbn [andb] in *.
    + destruct ST as (S1 & S2 & S3). split; [|split].
      * intros a X. rewrite (A (a + 1)). { f_equal. cbn [length]. lia. } rewrite S1, X. unfold u32. rewrite Zplus_mod_idemp_l. auto.
      * intros a X. rewrite (B (a + Z.of_nat (length (dl_bytes d)))). { f_equal. unfold total. cbn [fold_right]. lia. } rewrite S2, X. unfold u64. rewrite Zplus_mod_idemp_l. auto.
      * intros a X. destruct (match dl_call d with DSent _ _ => _ | _ => _ end).
        -- rewrite (C (a + 1)). { f_equal. cbn [length]. lia. } rewrite S3, X. unfold u32. rewrite Zplus_mod_idemp_l. auto.
        -- apply C. rewrite S3. auto.
    + destruct ST as (S1 & S2 & S3). split; [|split]; intros a X; [apply A|apply B|apply C]; congruence.
Qed.

(* UDP endpoints keep their destination meanwhile and send to it *)
Lemma steps_udp : forall e l e', steps e l e' -> forall cf pe tm, ep_kind e = KUdp cf pe tm -> ep_kind e' = KUdp cf pe tm /\ ep_fd e' = ep_fd e /\
  (ep_fd e = true -> Forall (fun d => if snd pe =? 0 then dl_call d = DNone else exists r, dl_call d = DSent (Some pe) r) l).
Proof.
  intros e l e' S. induction S as [e|e d e1 ds e2 O S IH]; intros cf pe tm K. { auto. }
  destruct (one_spec _ _ _ O) as [_ X]. { unfold is_log. rewrite K. auto. } rewrite K in X. destruct X as (K1 & F1 & D).
  destruct (IH _ _ _ K1) as (K2 & F2 & D2). split; auto. split; [congruence|]. intros F. apply Forall_cons; [apply D; exact F|apply D2; congruence].
Qed.
Lemma steps_uart : forall e l e', steps e l e' -> forall b cu tm, ep_kind e = KUart b cu tm -> ep_kind e' = KUart b cu tm /\ ep_fd e' = ep_fd e.
Proof.
  intros e l e' S. induction S as [e|e d e1 ds e2 O S IH]; intros b cu tm K. { auto. }
  destruct (one_spec _ _ _ O) as [_ X]. { unfold is_log. rewrite K. auto. } rewrite K in X. destruct X as (K1 & F1).
  destruct (IH _ _ _ K1) as (K2 & F2). split; auto. congruence.
Qed.
(* a TCP endpoint keeps its reconnect interval, is valid as long as it has one, and does not get connected *)
Lemma steps_tcp : forall e l e', steps e l e' -> forall r vl, ep_kind e = KTcp r vl -> (0 < r -> vl = true) ->
  exists vl', ep_kind e' = KTcp r vl' /\ (0 < r -> vl' = true) /\ (ep_fd e = false -> ep_fd e' = false /\ Forall (fun d => dl_call d = DNone) l).
Proof.
  intros e l e' S. induction S as [e|e d e1 ds e2 O S IH]; intros r vl K V. { eauto. }
  destruct (one_spec _ _ _ O) as [_ X]. { unfold is_log. rewrite K. auto. } rewrite K in X. destruct X as (DN & X).
  assert (Y : exists vl1, ep_kind e1 = KTcp r vl1 /\ (0 < r -> vl1 = true) /\ (ep_fd e = false -> ep_fd e1 = false)).
  { destruct X as [(K1 & F1 & _)|[(K1 & F1)|((r1 & vl1 & K1 & _ & Z1) & _)]].
    - exists vl. split; [congruence|]. split; auto. congruence.
    - exists vl. split; [congruence|]. split; auto. congruence.
    - assert (r1 = r) by congruence. subst r1. destruct (Z.ltb_spec 0 r); destruct Z1 as [Z1 Z2]; eexists; (split; [exact Z1|]); split; auto; try lia; congruence. }
  destruct Y as (vl1 & K1 & V1 & F1). destruct (IH _ _ K1 V1) as (vl2 & K2 & V2 & F2). exists vl2. split; auto. split; auto.
  intros F. destruct (F2 (F1 F)) as [F3 D3]. split; auto.
Qed.

(* ---- the start ---------------------------------------------------------------------------------------------- *)

Definition zero_stats (e : ep) : Prop := ep_wtotal e = 0 /\ ep_wbytes e = 0 /\ ep_incomplete e = 0.
Definition timers_work (v : env) : Prop := forall p, v_tmr v p = true.
Definition born (v : env) (c : epconf) (e : ep) : Prop :=
  zero_stats e /\
  match ec_kind c with
  | CUart b _ => exists t, ep_kind e = KUart b 0 t /\ ep_fd e = true /\ b <> [] /\ (length b = 1%nat -> t = None) /\ (timers_work v -> length b <> 1%nat -> t <> None)
  | CUdp s host port => let a := (host, if s then 0 else u16 port) in
    exists t, ep_kind e = KUdp a a t /\ ep_fd e = true /\ (s = true -> t = None) /\ (timers_work v -> s = false -> t <> None)
  | CTcp r _ => ep_kind e = KTcp r true
  end.

Lemma setup_born : forall v y i c y' e, setup_ep v y i c = Some (y', e) -> born v c e.
Proof.
  intros v y i c y' e H.
  assert (FD : forall y e0, Some (add_fd v y e0) = Some (y', e) -> exists p, e = set_fd e0 true p).
  { intros y0 e0 X. assert (X1 : add_fd v y0 e0 = (y', e)) by congruence. unfold add_fd in X1. destruct (ask v y0). inversion X1; subst. eauto. }
  unfold setup_ep in H. unfold born. destruct (ec_kind c).
  - unfold setup_uart in H. destruct (_ || _) eqn:EM; [discriminate|]. destruct (ask_bytes RXMAX v y) as [junk y1] eqn:AB.
    destruct (ask v y1) as [o y2]. destruct (o <? 0); [discriminate|]. destruct (ask v y2) as [s y3]. destruct (_ && _); [discriminate|].
    destruct (if (length bauds =? 1)%nat then _ else _) as [t y4] eqn:TM. destruct (if flow then _ else _) as [fl y5]. destruct (fl <? 0); [discriminate|].
    apply FD in H. destruct H as (p & ->). split; [repeat split; auto|]. exists t. split; auto. split; auto. split.
    { apply orb_false_iff in EM. destruct EM as [_ EM]. clear - EM. destruct bauds; [discriminate EM|intros X; discriminate X]. }
    clear - TM. destruct (Nat.eqb_spec (length bauds) 1) as [B|B]. { injection TM as <- _. split; auto. }
    split; [intros X; destruct (B X)|]. intros TW _. unfold add_timer in TM. rewrite TW in TM. inversion TM; subst. intros X; discriminate X.
  - unfold setup_udp in H. destruct (negb _); [discriminate|]. destruct (ask_bytes RXMAX v y) as [junk y1] eqn:AB.
    destruct (ask v y1) as [o y2]. destruct (o <? 0); [discriminate|]. destruct (if server then _ else _) as [t y4] eqn:TM.
    apply FD in H. destruct H as (p & ->). split; [repeat split; auto|]. exists t. split; auto. split; auto.
    clear - TM. split. { intros ->. inversion TM; auto. } intros TW ->. unfold add_timer in TM. rewrite TW in TM. inversion TM; subst. intros X; discriminate X.
  - unfold setup_tcp in H. destruct (negb _); [discriminate|]. destruct (ask_bytes RXMAX v y) as [junk y1] eqn:AB.
    destruct (ask v y1) as [o y2]. destruct (o <? 0).
    + assert (X : schedule_reconnect v y2 i (new_ep (KTcp retry true) false junk [] (ec_filters c) (ec_group c)) retry = (y', e)) by congruence. unfold schedule_reconnect in X.
      destruct (retry <=? 0). { inversion X; subst. repeat split; auto. } destruct (add_timer _ _ _ _). inversion X; subst. repeat split; auto.
    + apply FD in H. destruct H as (p & ->). repeat split; auto.
Qed.
Lemma setup_all_born : forall v cs y eps y' eps', setup_all v y eps cs = Some (y', eps') -> exists es, eps' = eps ++ map Some es /\ Forall2 (born v) cs es.
Proof.
  induction cs as [|c cs IH]; intros y eps y' eps' H; cbn [setup_all] in H.
  - inversion H; subst. exists []. cbn. rewrite app_nil_r. auto.
  - destruct (setup_ep v y (length eps) c) as [[y1 e]|] eqn:S; [|discriminate]. apply setup_born in S. destruct (IH _ _ _ _ H) as (es & -> & F).
    exists (e :: es). cbn. rewrite <- app_assoc. split; auto.
Qed.

Lemma start_born : forall v y c w k e, start v y c = Some w -> lookup w k = Some e ->
  (exists cc, nth_error (confs c) k = Some cc /\ born v cc e) \/ (is_logger c k /\ is_log e = true).
Proof.
  intros v y c w k e H L. unfold start in H. destruct (setup_all v y [] _) as [[y1 eps]|] eqn:S; [|discriminate].
  destruct (setup_all_born _ _ _ _ _ _ S) as (es & E & F). destruct (setup_all_fresh _ _ _ _ _ _ S) as (es2 & E2 & F2). cbn [app] in E, E2. subst eps.
  assert (es2 = es). { clear - E2. revert es2 E2. induction es; intros [|b l] H; cbn in H; try discriminate; auto. inversion H; subst. f_equal; auto. }
  subst es2. destruct (tcp_server _ _ _) as [sv y2].
  assert (LF : forall y3 logs, (match cf_log c with None => (y2, []) | Some lc => setup_log v y2 (length (link_groups (map Some es))) lc end) = (y3, logs) -> Forall log_fresh logs /\ Forall (fun e => ep_filters e = no_filters) logs /\ length logs = log_count c).
  { intros y3 logs X. unfold log_count. destruct (cf_log c). { split; [eapply setup_log_fresh; eauto|eapply setup_log_plain; eauto]. } inversion X; auto. }
  destruct (match cf_log c with None => _ | Some _ => _ end) as [y3 logs] eqn:LG. specialize (LF _ _ eq_refl). destruct LF as (LF1 & LF2 & LF3).
  destruct (if cf_stats c then _ else _) as [t1 y4]. destruct (add_timer v y4 5000 CbAggregate) as [t2 y5]. inversion H; subst; clear H. unfold lookup in L. cbn [w_eps] in L.
  assert (LL : length (link_groups (map Some es)) = length es) by (unfold link_groups; rewrite link_len, map_length; auto).
  fold (confs c) in F. pose proof (Forall2_len _ _ _ _ _ F) as LEN.
  destruct (Nat.lt_ge_cases k (length es)) as [A|A].
  - left. rewrite nth_error_app1 in L by lia. destruct (nth_error es k) as [e0|] eqn:N; [|apply nth_error_None in N; lia].
    destruct (nth_Forall2 _ _ _ _ _ _ _ F N) as (cc & NC & B). destruct (nth_Forall2 _ _ _ _ _ _ _ F2 N) as (cc2 & _ & FE & _).
    assert (N2 : nth_error (map Some es) k = Some (Some e0)) by (rewrite nth_error_map, N; auto).
    destruct (link_groups_spec es k e0 N2) as (e' & L' & SE & ME). { apply FE. } rewrite L' in L. inversion L; subst e'. exists cc. split; auto. rewrite SE. exact B.
  - right. rewrite nth_error_app2 in L by lia. rewrite LL, nth_error_map in L. destruct (nth_error logs (k - length es)) as [x0|] eqn:N; [|discriminate].
    cbn in L. inversion L; subst x0. split.
    + unfold is_logger. rewrite <- log_count_loggers, <- LF3. assert (k - length es < length logs)%nat by (apply nth_error_Some; congruence). lia.
    + apply nth_error_In in N. rewrite Forall_forall in LF1. apply LF1; auto.
Qed.

(* ---- new clients ------------------------------------------------------------------------------------------------ *)

Lemma act_fresh : forall f v w its w' k e', wf_table (v_tbl v) -> act f v w its w' -> Inv w -> lookup w' k = Some e' -> lookup w k = None ->
  its = [INew k] /\ k = length (w_eps w) /\ ep_kind e' = KTcp 0 true /\ ep_fd e' = true /\ zero_stats e'.
Proof.
  intros f v w its w' k e' WT A I L' L.
  assert (KEPT : kept w w' -> its = [INew k] /\ k = length (w_eps w) /\ ep_kind e' = KTcp 0 true /\ ep_fd e' = true /\ zero_stats e').
  { intros K. destruct (kept_lookup_rev _ _ _ _ K L') as (e & L0 & _). congruence. }
  inversion A; subst; auto using kept_exit, kept_hang, kept_sys.
  - apply KEPT. eapply kept_os_read; eauto.
  - apply KEPT. eapply kept_put0; eauto. apply kept_set_rx. intros X. eapply read_msg_ok; eauto.
  - exfalso. destruct (recv_before f v w i e rr x st known m w1 WT I H H0 H1 H2 H3 _ _ H4) as (K & DD & e1 & p & L1 & F1 & KE & RX & RL & P1 & P2 & P3 & P4 & P5).
    subst m. assert (I1 : Inv w1) by (eapply kept_inv; eauto). rewrite <- RX in P5.
    assert (LK : lookup w1 k = None). { pose proof (kp_ep _ _ K k) as X. rewrite L in X. destruct (lookup w1 k); auto. destruct X. }
    destruct (handle_cases f v w1 i e1 p w' its H4 I1 L1 F1 P1 P5) as (d & ds & its' & EQ & NR & C).
    destruct C as [(-> & DS & KK)|[(-> & DS & AL & KK)|(-> & AL & wa & w2 & w3 & e2 & mem & EE & K1 & LE & L2 & Ia & I2 & RT & O1 & O2 & O3 & O4 & O5 & O6)]].
    + destruct (kept_lookup_rev _ _ _ _ KK L') as (? & ? & _). congruence.
    + destruct (kept_lookup_rev _ _ _ _ KK L') as (? & ? & _). congruence.
    + assert (N : k <> i) by congruence. rewrite O4 in L' by auto. destruct (kept_lookup_rev _ _ _ _ (kept_route _ _ _ _ _ _ _ _ _ RT) L') as (e3 & L3 & _).
      destruct (learn_exact _ _ _ _ _ _ LE Ia ltac:(rewrite (lookup_same_eps w1 wa i EE); eauto)) as [T _].
      pose proof (lookup_same_eps w1 wa k EE) as Q. rewrite LK in Q. pose proof (ta_ep _ _ _ T k) as X. rewrite Q, L3 in X. destruct X.
  - unfold tcp_connection in L' |- *. destruct (ask v (w_sys w)) as [r y]. destruct (r <? 0). { cbn [fst] in L'. rewrite lookup_sys in L'. congruence. }
    destruct (ask_bytes RXMAX v y) as [junk y1]. destruct (add_fd v _ _) as [y2 e2] eqn:AF. cbn [snd fst] in *.
    unfold lookup in L'. cbn [w_eps set_order set_eps] in L'.
    assert (e2 = set_fd (new_ep (KTcp 0 true) true junk [] no_filters []) true (ep_poll e2)). { unfold add_fd in AF. destruct (ask v y1). inversion AF; subst. auto. }
    destruct (Nat.lt_ge_cases k (length (w_eps w))) as [Q|Q].
    { rewrite nth_error_app1 in L' by auto. unfold lookup in L. destruct (nth_error (w_eps w) k) as [[?|]|]; discriminate. }
    rewrite nth_error_app2 in L' by auto. destruct (k - length (w_eps w))%nat as [|z] eqn:KK; [|destruct z; discriminate]. cbn in L'.
    assert (k = length (w_eps w)) by lia. subst k. assert (e' = e2) by congruence. subst e'. split; auto. split; auto. rewrite H. repeat split; auto.
  - apply KEPT. eapply kept_put; eauto. eapply kept_mod_fd; eauto.
  - apply KEPT. eapply kept_timer; eauto.
  - exfalso. unfold process_hangups in H. destruct (w_hang w). 2:{ inversion H; subst. congruence. }
    inv_bind H. inversion H; subst; clear H. destruct (hangups_spec _ _ _ _ _ E (inv_sym _ I)) as (_ & _ & _ & D & F). change (lookup (set_hang (set_order w0 l0) false) k) with (lookup w0 k) in L'.
    rewrite F in L'. destruct (_ && _ && _); [discriminate|]. congruence.
Qed.
