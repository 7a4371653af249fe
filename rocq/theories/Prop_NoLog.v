(* C110: without a log directory the program touches no file. *)
From Verif Require Import RouterCtl RouterRoute RouterRoute2 RouterActs RouterInv RouterStep RouterLearn RouterStart RouterHist RouterBytes RouterTimers RouterTimers2 Prop_Router3 RouterFinish Prop_Start.
From Verif Require Import Base Mav SpecFrame Frame FrameProofs Names NamesProofs Sys LogFile LogFileProofs ULog Loggers LogInv LogStep LogRun Router RouterSetup SpecRouter ExRouter LogSpare LogHist RouterLogs RouterLives Prop_LogFile Accept.

Definition nolog (w : world) : Prop := forall j e, lookup w j = Some e -> is_log e = false.

Lemma nolog_routed : forall w w', routed w w' -> nolog w -> nolog w'.
Proof.
  intros w w' R N j e' H. pose proof (ro_ep _ _ R j) as X. rewrite H in X. destruct (lookup w j) as [e|] eqn:E; [|destruct X]. cbn in X. rewrite (same_log _ _ (se_kind _ _ X)). eauto.
Qed.
Lemma nolog_alike : forall w w', RouterTimers.alike w w' -> nolog w -> nolog w'.
Proof.
  intros w w' (_ & _ & A) N j e' H. specialize (A j). rewrite H in A. destruct (lookup w j) as [e|] eqn:E; [|destruct A]. destruct A as [A _]. unfold is_log. rewrite A. apply (N j e E).
Qed.
Lemma fs_each : forall sub f v m order w mem u w' mem' ds its u', nolog w -> route_each sub f v w order mem m u = Ok (w', mem', ds, its, u') -> y_fs (w_sys w') = y_fs (w_sys w).
Proof.
  intros sub f v m. induction order as [|j r IH]; intros w mem u w' mem' ds its u' L H; [cbn [route_each] in H; inversion H; auto|].
  rewrite route_each_cons in H. inv_bind H. apply get_lookup in E. rename a into e. destruct (accept_msg _ _ _ _) eqn:A; eauto.
  pose proof (L _ _ E) as NL. inv_bind H. destruct (deliver_spec _ _ _ _ _ _ _ _ _ _ _ E0 E) as (R & M & C & N & _). destruct (N NL) as [-> ->]. apply RouterLogs.fs_deliver in E0; auto.
  inv_bind H. cbn [route_ctls] in E1. inversion E1; subst; clear E1. inv_bind H. inversion H; subst; clear H. apply IH in E1; [congruence|]. eapply nolog_routed; eauto.
Qed.
Lemma learn_sys : forall n w i id w', learn n w i id = Ok w' -> w_sys w' = w_sys w.
Proof.
  induction n; intros w i id w' H; [discriminate|]. cbn [learn] in H. inv_bind H. destruct (contains _ _). { inversion H; subst; auto. }
  change (w_sys w) with (w_sys (put w i (set_ids a (ep_ids a ++ [id])))). revert H. generalize (put w i (set_ids a (ep_ids a ++ [id]))). generalize (ep_members a).
  induction l as [|j r IHr]; intros x H. { inversion H; subst; auto. } inv_bind H. rewrite <- (IHn _ _ _ _ E0). eapply IHr; eauto.
Qed.
Lemma fs_handle : forall f v w j p w' its, handle_msg f v w j p = Ok (w', its) -> nolog w -> y_fs (w_sys w') = y_fs (w_sys w).
Proof.
  intros f v w j p w' its H N. destruct (handle_inv _ _ _ _ _ _ _ H) as (e0 & pkt & w1 & fresh & L0 & SL0 & CD & C). pose proof (dup_alike _ _ _ _ _ CD) as AL1.
  assert (FS1 : y_fs (w_sys w1) = y_fs (w_sys w)).
  { unfold check_dup in CD. destruct (_ =? 0). { inversion CD; auto. } destruct (ask v (w_sys w)) as [now y] eqn:AK. inv_bind CD. inversion CD; subst. unfold ask in AK. inversion AK; subst. auto. }
  destruct C as [(_ & -> & ->)|[(_ & AL & -> & ->)|(_ & AL & w2 & e2 & w3 & mem & ds & its' & e3 & LE & L2 & RT & L3 & -> & ->)]]; auto.
  pose proof (learn_alike _ _ _ _ _ LE) as AL2. change NEST with (Datatypes.S (pred NEST)) in RT. rewrite route_S in RT. inv_bind RT.
  match goal with X : route_each _ _ _ _ _ _ _ _ = _ |- _ => apply fs_each in X; [|eauto using nolog_alike] end.
  assert (FS2 : w_sys w2 = w_sys w1) by (eapply learn_sys; eauto).
  inversion RT; subst. cbn [w_sys put set_eps]. match goal with |- context [if ?q then _ else _] => destruct q end; cbn [w_sys set_unknown]; congruence.
Qed.
Lemma fs_timer : forall f v w t fired w' its, timer_read f v w t fired = Ok (w', its) -> nolog w -> y_fs (w_sys w') = y_fs (w_sys w).
Proof.
  intros f v w t fired w' its H N. unfold timer_read in H. destruct (find_timer (w_sys w) t) as [x|]; [|discriminate]. destruct (negb fired || tm_dead x). { inversion H; subst; auto. }
  inv_bind H. inv_bind H. inversion H; subst; clear H. cbn [w_sys set_sys]. match goal with Q : _ = Ok ?y |- y_fs ?y = _ => rename Q into DL end. rename E into R.
  match type of R with run_cb _ _ _ _ = Ok (?u, ?l, ?ag) => rename u into w1; rename l into its1; rename ag into again end.
  assert (FD : forall y, (if again then Ok (w_sys w1) else del_timer (w_sys w1) t) = Ok y -> y_fs y = y_fs (w_sys w1)). { intros y Q. destruct again; [inversion Q; auto|eapply fs_del; eauto]. }
  rewrite (FD _ DL). clear FD DL a.
  assert (NOCB : forall j k w' its ag, Router.log_cb w j k f v = Ok (w', its, ag) -> False).
  { intros j k w2 i2 ag Q. unfold Router.log_cb in Q. inv_bind Q. apply get_lookup in E. apply N in E. unfold is_log in E. destruct (ep_kind a); discriminate. }
  destruct (tm_cb x) as [| |j|j|j|j|j|j]; cbn [run_cb] in R; try (exfalso; eapply NOCB; exact R).
  - inv_bind R. inversion R; subst. apply aggregate_sys in E. congruence.
  - inversion R; subst; auto.
  - inv_bind R. inversion R; subst. unfold cb_baud in E. inv_bind E. destruct (ep_kind a) as [b c p|c pe p|r vl|l]; try discriminate. destruct b as [|b0 b]; [discriminate|]. unfold ask in E. inversion E; subst; auto.
  - inv_bind R. inversion R; subst. unfold cb_nomsg in E. inv_bind E. destruct (ep_kind a) as [b c p|c pe [tt0|]|r vl|l]; try discriminate. inv_bind E. inversion E; subst. cbn. eapply fs_mod; eauto.
  - inv_bind R. inversion R; subst. unfold cb_retry in E. inv_bind E. destruct (ep_kind a) as [b c p|c pe p|r vl|l]; try discriminate. unfold ask in E. destruct (_ <? 0).
    + inversion E; subst; auto.
    + unfold add_fd, ask in E. inversion E; subst; auto.
Qed.
Lemma fs_act : forall f v w its w', act f v w its w' -> Inv w -> nolog w -> y_fs (w_sys w') = y_fs (w_sys w).
Proof.
  intros f v w its w' A I N. inversion A; subst; auto.
  - destruct o as [bs from| |n]; cbn [os_read] in H3; try (inversion H3; subst; auto; fail). destruct (ep_kind e) eqn:K; try (inversion H3; subst; auto; fail).
    + inv_bind H3. inversion H3; subst. cbn. destruct tmo; [eapply fs_mod; eauto|inversion E; auto].
    + destruct bs; [|inversion H3; subst; auto]. destruct (_ =? 0)%nat. { inversion H3; subst; auto. }
      unfold tcp_lost, schedule_reconnect in H3. destruct (0 <? retry); [destruct (retry <=? 0); [|unfold add_timer in H3; cbn [y_pos set_pos] in H3; match type of H3 with context [v_tmr v ?q] => destruct (v_tmr v q) end]|];
        inversion H3; subst; auto.
  - assert (N0 : nolog (put w i (set_rx e x st))).
    { intros j e' L. destruct (Nat.eq_dec i j) as [->|X]; [rewrite (lookup_put_eq _ _ _ _ H) in L; injection L as <-; apply (N j e H)|rewrite lookup_put_neq in L by auto; eauto]. }
    assert (Q : nolog w1 /\ y_fs (w_sys w1) = y_fs (w_sys w)).
    { destruct known; [|inversion H3; subst; auto]. unfold keep_baud in H3. cbn [ep_kind set_rx] in H3. destruct (ep_kind e) as [b c [tt0|]|c pe q|r vl|l0] eqn:KK; try (inversion H3; subst; auto; fail).
      inv_bind H3. inversion H3; subst. split; [|cbn; apply fs_del in E; auto]. intros j e' L. destruct (Nat.eq_dec i j) as [->|X].
      - erewrite lookup_put_eq in L by (rewrite lookup_sys; eapply lookup_put_eq; eauto). injection L as <-. reflexivity.
      - rewrite lookup_put_neq, lookup_sys in L by auto. eauto. }
    destruct Q as [N1 <-]. eapply fs_handle; eauto.
  - unfold tcp_connection. destruct (ask v (w_sys w)) as [r y] eqn:AK. unfold ask in AK. inversion AK; subst; clear AK. destruct (_ <? 0); cbn [fst snd]; auto.
  - cbn. eapply fs_mod_fd; eauto.
  - eapply fs_timer; eauto.
  - destruct (hang_T v _ _ _ H I) as (SY & _). congruence.
Qed.

Lemma start_nolog : forall v y c w, start v y c = Some w -> cf_log c = None -> nolog w.
Proof.
  intros v y c w H CL. unfold start in H. destruct (setup_all v y [] _) as [[y1 eps]|] eqn:S; [|discriminate].
  destruct (setup_all_fresh _ _ _ _ _ _ S) as (es & E & F). cbn [app] in E. subst eps. destruct (tcp_server _ _ _) as [sv y2]. rewrite CL in H.
  destruct (if cf_stats c then _ else _) as [t1 y4]. destruct (add_timer v y4 5000 CbAggregate) as [t2 y5]. inversion H; subst; clear H.
  intros j e L. unfold lookup in L. cbn [w_eps map] in L. rewrite app_nil_r in L.
  assert (LL : length (link_groups (map Some es)) = length es) by (unfold link_groups; rewrite link_len, map_length; auto).
  destruct (nth_error es j) as [e0|] eqn:N. 2:{ apply nth_error_None in N. rewrite <- LL in N. apply nth_error_None in N. rewrite N in L. discriminate L. }
  destruct (nth_Forall2 _ _ _ _ _ _ _ F N) as (cc & NC & (FE1 & FE2 & FE3 & FE4) & FG & FF).
  assert (N2 : nth_error (map Some es) j = Some (Some e0)) by (rewrite nth_error_map, N; auto).
  destruct (link_groups_spec es j e0 N2 FE2) as (e' & L' & SE & ME). rewrite L' in L. inversion L; subst e'. unfold is_log in *. rewrite SE. cbn. auto.
Qed.

(* From the start of the program to any later moment, whatever is received and whatever the system calls return: every directory is as it was. *)
Theorem C110_no_files : forall f v d pos c w0 its w, wf_table (v_tbl v) -> start v (boot d pos) c = Some w0 -> exec f v w0 its w -> cf_log c = None -> y_fs (w_sys w) = d.
Proof.
  intros f v d pos c w0 its w WT ST E CL.
  assert (X : Inv w /\ nolog w /\ y_fs (w_sys w) = d).
  { apply (exec_inv f v (fun _ w => Inv w /\ nolog w /\ y_fs (w_sys w) = d)) with (w0 := w0) (its := its); auto.
    - intros h w1 i1 w2 (I & N & F) A. split; [eapply inv_act; eauto|]. split; [|rewrite (fs_act _ _ _ _ _ A I N); auto].
      intros j e L. destruct (act_kinds _ _ _ _ _ WT A I _ _ L) as [(e0 & L0 & K)|Q]; auto. apply N in L0. unfold is_log in *. destruct (ep_kind e0), (ep_kind e); cbn in *; auto; try tauto.
    - split; [eapply inv_start; eauto|]. split; [eapply start_nolog; eauto|]. pose proof (C46_startup _ _ _ _ ST) as Q. rewrite CL in Q. exact Q. }
  apply X.
Qed.
(* nor does ending the program change anything *)
Theorem C110_end : forall f v d pos c w0 its w, wf_table (v_tbl v) -> start v (boot d pos) c = Some w0 -> exec f v w0 its w -> cf_log c = None ->
  exists w' its', finish f v w = Ok (w', its') /\ y_fs (w_sys w') = d.
Proof.
  intros f v d pos c w0 its w WT ST E CL. assert (R : runs f v c its w) by (exists d, pos, w0; auto). pose proof (runs_log _ _ _ _ _ WT R) as WL. rewrite CL in WL.
  exists w, []. split; [unfold finish; rewrite WL; auto|eapply C110_no_files; eauto].
Qed.

(* two ground stations, a directory with a writable file that looks like an unfinished log: a heartbeat goes from one to the other *)
Definition nl_dir : list dirent := [mkDirent [48; 45; 97] FReg true [1; 2]].   (* 0-a *)
Definition nl_conf (log : option logconf) : config := mkCf [] [mkEc (CUdp true 8 14551) true no_filters []; mkEc (CUdp false 9 14552) true no_filters []] [] 0 log 0 false 0.
Definition nl_events : list (list event) := [[EEp 0 (Some (OsData (encode (rx_hb 1 1 0)) (5, 1000))) false false]; [ESignal]].
Example C110_nonvacuous : exists w0 its w, wf_table (v_tbl (rx_env [])) /\ start (rx_env []) (boot (Some nl_dir) 0) (nl_conf None) = Some w0 /\ exec 600 (rx_env []) w0 its w /\ cf_log (nl_conf None) = None /\
  w_exit w = Some 0 /\ (exists m d, In (IRecv 0 (encode (rx_hb 1 1 0)) m Routed [d]) its /\ dl_to d = 1%nat) /\
  (* with a log directory the file would not have stayed as it is *)
  option_map (fun w => option_map (map d_w) (y_fs (w_sys w))) (start (rx_env []) (boot (Some nl_dir) 0) (nl_conf (Some (mkLc DArdupilot 0 0 MAlways (-1) false)))) = Some (Some [false]).
Proof.
  destruct (start (rx_env []) (boot (Some nl_dir) 0) (nl_conf None)) as [w0|] eqn:S; [|vm_compute in S; discriminate S].
  assert (V : match start (rx_env []) (boot (Some nl_dir) 0) (nl_conf None) with
    | Some w0 => match drive 600 (rx_env []) w0 [] nl_events with
      | Some (w, its) => (w_exit w, existsb (fun x => match x with IRecv O bs _ Routed [d] => beqs bs (encode (rx_hb 1 1 0)) && Nat.eqb (dl_to d) 1 | _ => false end) its)
      | None => (None, false) end
    | None => (None, false) end = (Some 0, true)) by (vm_compute; reflexivity).
  rewrite S in V. destruct (drive 600 (rx_env []) w0 [] nl_events) as [[w its]|] eqn:D; [|discriminate V]. injection V as V1 V2.
  exists w0, its, w. split; [exact rx_tbl_wf|]. split; [reflexivity|]. split; [eapply drive_exec; [apply exec_start|exact D]|]. split; [reflexivity|]. split; [exact V1|]. split; [|vm_compute; reflexivity].
  apply existsb_exists in V2. destruct V2 as (x & IN & X). destruct x as [|i bs m dd ds| | | |]; try discriminate X. destruct i; [|discriminate X]. destruct dd; try discriminate X. destruct ds as [|dl [|]]; try discriminate X.
  apply andb_true_iff in X. destruct X as [X Y]. apply beqs_eq in X. apply Nat.eqb_eq in Y. subst bs. exists m, dl. auto.
Qed.

Print Assumptions C110_no_files.
Print Assumptions C110_end.
Print Assumptions C110_nonvacuous.
