(* Nothing the router receives makes it run into undefined behaviour or an endless loop, as long as no ULog logger is configured. *)
From Verif Require Import Base Mav SpecFrame Frame FrameProofs FrameRefine Dedup DedupProofs Accept AcceptProofs Names Sys LogFile ULog Loggers LogInv LogStep LogMono LogSafe
  RouterCtl Router RouterRoute RouterRoute2 RouterSetup RouterActs RouterInv RouterLearn RouterStep RouterStart RouterHist SpecRouter SpecLife RouterTrace
  RouterBytes RouterFrame RouterTimers RouterTimers2 RouterDedup RouterLife2 RouterLife3 RouterStays RouterFinish.

(* ---- routing ------------------------------------------------------------------------------------------------- *)

Lemma write_fine : forall f v y k e mem m arm, block_table (v_tbl v) -> never_ulog (ep_kind e) -> sys_ok y -> held_timers v arm y k e ->
  (is_log e = true -> in_buf mem m) -> fine (write_ep f v y k e mem m).
Proof.
  intros f v y k e mem m arm BT NU S [_ Hd] IB. unfold write_ep. unfold is_log in IB. destruct (ep_kind e) as [b c p|c pe p|r vl|[g b|a]] eqn:K.
  - destruct (negb _); auto. destruct (os_write _ _ _) as [r y1]. destruct (_ =? _); auto.
  - destruct (negb _); auto. destruct (_ =? 0); auto. destruct (os_write _ _ _) as [r y1]. destruct (_ <? 0); auto.
  - destruct (negb _); auto. destruct (os_write _ _ _) as [r1 y1]. destruct (_ <? 0); auto. destruct (if _ =? _ then _ else _); auto.
  - apply fine_bind. { apply lwrite_fine; auto; apply Hd. } intros [[[[? ?] ?] ?] ?] _. auto.
  - destruct NU.
Qed.

Lemma deliver_fine : forall f v w k e mem m arm, block_table (v_tbl v) -> never_ulog (ep_kind e) -> sys_ok (w_sys w) -> held_timers v arm (w_sys w) k e ->
  (m_len m <= length mem)%nat -> (is_log e = true -> in_buf mem m) -> fine (deliver f v w k e mem m).
Proof.
  intros f v w k e mem m arm BT NU S Hd ML IB. unfold deliver. apply fine_bind. { apply fine_slice. lia. } intros bs _.
  apply fine_bind. { eapply write_fine; eauto. } intros [[[[[y e1] mem1] ret] call] cs] _.
  destruct (if ret =? - EAGAIN then _ else _) as [[y2 e2] req]. auto.
Qed.

(* what routing needs of a state *)
Record ready (v : env) (w : world) : Prop := mkReady {
  rd_T : exists arm, T v arm w;
  rd_logs : logs_ok w;
  rd_no : no_ulog w;
  rd_alive : forall i, In i (w_order w) -> lookup w i <> None }.

Lemma ready_next : forall v w w', routed w w' -> RouterTimers.good v w w' -> ready v w -> ready v w'.
Proof.
  intros v w w' R G [(arm & A) B C D]. split.
  - exists arm. apply G. auto.
  - eapply logs_routed; eauto.
  - eapply no_ulog_routed; eauto.
  - intros i I. rewrite (ro_order _ _ R) in I. specialize (D i I). pose proof (ro_ep _ _ R i) as X. destruct (lookup w i); [|congruence]. destruct (lookup w' i); [congruence|destruct X].
Qed.

Definition sub_fine (v : env) (sub : world -> ctl -> res (world * list delivery * list item)) : Prop :=
  forall w c, ready v w -> ctl_ok c -> fine (sub w c).

Lemma ctls_fine : forall v sub, sub_routed sub -> sub_good v sub -> sub_fine v sub -> forall cs w i, ready v w -> Forall ctl_ok cs -> fine (route_ctls sub w i cs).
Proof.
  intros v sub SR SG SF. induction cs as [|c cs IH]; intros w i R F; cbn [route_ctls]; auto. inversion F; subst.
  apply fine_bind. { apply SF; auto. } intros [[w1 ds] its] E. apply fine_bind. { apply IH; auto. eapply ready_next; eauto. } intros [? ?] _. auto.
Qed.

Lemma each_fine : forall f v sub, block_table (v_tbl v) -> sub_routed sub -> sub_good v sub -> forall mem m, (m_len m <= length mem)%nat ->
  from_log m \/ in_buf mem m /\ sub_fine v sub ->
  forall order w u, ready v w -> (forall i, In i order -> lookup w i <> None) -> fine (route_each sub f v w order mem m u).
Proof.
  intros f v sub BT SR SG mem m ML MM. induction order as [|i r IH]; intros w u R AL. { cbn [route_each]. auto. }
  rewrite route_each_cons. destruct (lookup w i) as [e|] eqn:L. 2:{ destruct (AL i); [left; auto|auto]. }
  rewrite (lookup_get _ _ _ L). cbn [bind].
  assert (AL' : forall w', routed w w' -> forall j, In j r -> lookup w' j <> None).
  { intros w' RR j J. specialize (AL j (or_intror J)). pose proof (ro_ep _ _ RR j) as X. destruct (lookup w j); [|congruence]. destruct (lookup w' j); [congruence|destruct X]. }
  destruct (accept_msg _ _ _ _) eqn:AC; try (apply IH; auto; apply AL'; apply routed_refl).
  assert (LG : is_log e = true -> in_buf mem m /\ sub_fine v sub).
  { intros LG. destruct MM as [FL|MM]; auto. rewrite (log_rejects _ _ _ _ (rd_logs _ _ R _ _ L LG) FL) in AC. discriminate. }
  destruct (rd_T _ _ R) as [arm TT].
  apply fine_bind. { eapply deliver_fine; eauto. { eapply (rd_no _ _ R); eauto. } { apply TT. } { apply TT; eauto. } intros X; apply LG; auto. }
  intros [[[w1 mem1] d] cs] D. pose proof (deliver_spec _ _ _ _ _ _ _ _ _ _ _ D L) as (RR & _ & CC & NL & _).
  pose proof (deliver_good2 _ _ _ _ _ _ _ _ _ _ _ D L) as GG. pose proof (ready_next _ _ _ RR GG R) as R1.
  apply deliver_mem in D; [|apply never_not; eapply (rd_no _ _ R); eauto]. subst mem1.
  apply fine_bind.
  { destruct (is_log e) eqn:IL. { apply (ctls_fine v); auto. apply LG; auto. } destruct NL as [-> _]; auto. cbn [route_ctls]. auto. }
  intros [w2 its] C. pose proof (ctls_routed _ SR _ _ _ _ _ C) as R2. pose proof (ctls_good v _ SG _ _ _ _ _ C) as G2.
  apply fine_bind. { apply IH. { eapply ready_next; eauto. } apply AL'. eapply routed_trans; eauto. } intros [[[[? ?] ?] ?] ?] _. auto.
Qed.

Lemma nested_good : forall v k f, sub_good v (nested k f v).
Proof. intros v k f w c w' ds its H. unfold nested in H. inv_bind H. inversion H; subst. eapply route_good; eauto. Qed.

Lemma route_log_fine : forall k f v w mem m, block_table (v_tbl v) -> ready v w -> from_log m -> (m_len m <= length mem)%nat -> fine (route (Datatypes.S k) f v w mem m).
Proof.
  intros k f v w mem m BT R FL ML. rewrite route_S. apply fine_bind.
  { apply each_fine; auto. apply nested_routed. apply nested_good. apply R. }
  intros [[[[? ?] ?] ?] ?] _. auto.
Qed.
Lemma nested_fine : forall k f v, block_table (v_tbl v) -> sub_fine v (nested (Datatypes.S k) f v).
Proof.
  intros k f v BT w c R C. unfold nested. apply fine_bind. { apply route_log_fine; auto. { apply ctl_from; auto. } destruct C as (_ & _ & _ & -> & _). auto. }
  intros [[[? ?] ?] ?] _. auto.
Qed.
Lemma route_fine : forall f v w mem m, block_table (v_tbl v) -> ready v w -> in_buf mem m -> fine (route NEST f v w mem m).
Proof.
  intros f v w mem m BT R IB. unfold NEST. rewrite route_S. apply fine_bind.
  { apply each_fine; auto. apply nested_routed. apply nested_good. apply IB. { right. split; auto. apply nested_fine; auto. } apply R. }
  intros [[[[? ?] ?] ?] ?] _. auto.
Qed.
Lemma sub_routed2 : forall f v, sub_routed (route_sub f v).
Proof. intros f v. exact (nested_routed NEST f v). Qed.
Lemma sub_fine2 : forall f v, block_table (v_tbl v) -> sub_fine v (route_sub f v).
Proof. intros f v BT. exact (nested_fine 1 f v BT). Qed.

(* ---- receiving ------------------------------------------------------------------------------------------------ *)

Lemma buf_of : forall tbl p mem, wf_packet p -> length mem = RXMAX -> slice mem 0 (length (encode p)) = Ok (encode p) -> in_buf mem (info_of tbl p).
Proof.
  intros tbl p mem WP LM SL. pose proof (encode_length_bounds p WP) as [LB UB]. unfold in_buf, info_of. cbn [m_poff m_len m_plen].
  assert (RX : Z.of_nat (length mem) = 1120) by (rewrite LM; reflexivity).
  assert (NT : forall i, (i < length (encode p))%nat -> nth i mem 0 = nth i (encode p) 0).
  { intros i I. unfold slice in SL. destruct (_ <=? _)%nat; [|discriminate]. cbn [skipn] in SL. injection SL as SL.
    rewrite <- (firstn_skipn (length (encode p)) mem), SL. rewrite app_nth1; auto. }
  split; [|split; [|split]].
  - unfold hlen. destruct (p_ver p); cbn; lia.
  - lia.
  - unfold plen. lia.
  - rewrite !NT by lia. unfold encode, body, plen, STX2. destruct (p_ver p); cbn; [discriminate|auto].
Qed.

Definition unmarked (id : Z) (l : list (option ep)) : nat :=
  length (filter (fun o => match o with Some e => negb (contains (ep_ids e) id) | None => false end) l).
Lemma unmarked_len : forall id l, (unmarked id l <= length l)%nat.
Proof. intros id. unfold unmarked. induction l as [|o l IH]; cbn [filter length]; auto. destruct (match o with Some _ => _ | None => _ end); cbn [length]; lia. Qed.
Lemma unmarked_le : forall id l l', (length l' = length l) ->
  (forall k, taught_opt id (match nth_error l k with Some (Some e) => Some e | _ => None end) (match nth_error l' k with Some (Some e) => Some e | _ => None end)) ->
  (unmarked id l' <= unmarked id l)%nat.
Proof.
  intros id. unfold unmarked. induction l as [|o l IH]; intros [|o' l'] LE H; try discriminate; auto. injection LE as LE.
  pose proof (IH l' LE (fun k => H (Datatypes.S k))) as X. specialize (H O). cbn [nth_error] in H. cbn [filter].
  destruct o as [e|], o' as [e'|]; cbn [taught_opt] in H; try tauto; auto.
  destruct H as [->|[-> N]]. { destruct (negb _); cbn [length]; lia. }
  assert (C : contains (ep_ids e) id = false). { destruct (contains (ep_ids e) id) eqn:C; auto. apply contains_In in C. contradiction. }
  assert (C' : contains (ep_ids (with_id e id)) id = true). { apply contains_In. cbn. apply in_or_app. right. left. auto. }
  rewrite C, C'. cbn [negb length]. lia.
Qed.
Lemma unmarked_put : forall id w i e, lookup w i = Some e -> contains (ep_ids e) id = false ->
  (unmarked id (w_eps (put w i (with_id e id))) < unmarked id (w_eps w))%nat.
Proof.
  intros id w i e L C. cbn [put set_eps w_eps]. unfold lookup in L. destruct (nth_error (w_eps w) i) as [[x|]|] eqn:N; try discriminate. injection L as ->.
  assert (C' : contains (ep_ids (with_id e id)) id = true). { apply contains_In. cbn. apply in_or_app. right. left. auto. }
  revert i N. unfold unmarked. generalize (w_eps w). induction l as [|o l IH]; intros [|i] N; cbn [nth_error] in N; try discriminate; cbn [set_nth filter].
  - injection N as ->. rewrite C, C'. cbn [negb length]. lia.
  - specialize (IH i N). destruct o as [eo|]; auto. destruct (negb _); cbn [length]; lia.
Qed.

Lemma learn_fine : forall id n w i, mem_rel w -> lookup w i <> None -> (unmarked id (w_eps w) < n)%nat -> fine (learn n w i id).
Proof.
  intros id. induction n; intros w i M AL U; [lia|]. rewrite learn_S. destruct (lookup w i) as [e|] eqn:L; [|congruence].
  rewrite (lookup_get _ _ _ L). cbn [bind]. destruct (contains (ep_ids e) id) eqn:C; auto.
  pose proof (unmarked_put id w i e L C) as UP. apply contains_notIn in C. pose proof (taught_put id w i e L C) as T1.
  assert (EACH : forall l u, mem_rel u -> (unmarked id (w_eps u) < n)%nat -> (forall j, In j l -> lookup u j <> None) -> fine (learn_each n id u l)).
  { induction l as [|j r IH]; intros u MU UU AU; cbn [learn_each]; auto. apply fine_bind. { apply IHn; auto. apply AU. left; auto. }
    intros u1 E. destruct (learn_spec _ _ _ _ _ E MU) as (TA & _). apply IH.
    - eapply taught_rel; eauto.
    - pose proof (unmarked_le id (w_eps u) (w_eps u1) (ta_len _ _ _ TA) (ta_ep _ _ _ TA)). lia.
    - intros q Q. specialize (AU q (or_intror Q)). pose proof (ta_ep _ _ _ TA q) as X. destruct (lookup u q); [|congruence]. destruct (lookup u1 q); [congruence|destruct X]. }
  apply EACH.
  - eapply taught_rel; eauto.
  - lia.
  - intros j J. destruct (M i e j L J) as (ej & LJ & _). pose proof (ta_ep _ _ _ T1 j) as X. rewrite LJ in X. destruct (lookup (put w i (with_id e id)) j); [congruence|destruct X].
Qed.

(* the states of a run without ULog logger *)
Record safe (c : config) (v : env) (w : world) : Prop := mkSafe {
  sf_inv : Inv w;
  sf_T : exists arm, T v arm w;
  sf_no : no_ulog w;
  sf_dd : dd_ok (w_dedup w);
  sf_life : exists h, life c h w }.

Lemma safe_ready : forall c v w, safe c v w -> ready v w.
Proof. intros c v w [A B C D E]. split; auto. { apply inv_logs; auto. } apply A. Qed.

Lemma dup_fine : forall v w pkt, dd_ok (w_dedup w) -> fine (check_dup v w pkt).
Proof.
  intros v w pkt D. unfold check_dup. destruct (dd_period (w_dedup w) =? 0) eqn:P; auto. apply Z.eqb_neq in P. destruct (ask v (w_sys w)) as [now y].
  destruct (dedup_check_ok (v_hash v) (w_dedup w) now pkt D P) as (d' & E & _). rewrite E. cbn [bind]. auto.
Qed.

Lemma ready_learn : forall v n w i id w', learn n w i id = Ok w' -> mem_rel w -> ready v w -> ready v w'.
Proof.
  intros v n w i id w' H M [A B C D]. destruct (learn_spec _ _ _ _ _ H M) as (TA & _). pose proof (learn_alike _ _ _ _ _ H) as AL.
  split.
  - destruct A as [arm A]. exists arm. apply (good_alike v _ _ AL). auto.
  - intros k e L G. destruct (taught_lookup_rev _ _ _ _ _ TA L) as (e0 & L0 & X). destruct X as [->|[-> _]]; [eauto|]. cbn [with_id set_ids ep_ids]. apply in_or_app. left. eapply B; eauto.
  - intros k e L. destruct (taught_lookup_rev _ _ _ _ _ TA L) as (e0 & L0 & X). pose proof (taught_ep_fields _ _ _ X) as (_ & _ & _ & T4 & _). rewrite T4. eauto.
  - rewrite (ta_w _ _ _ TA). cbn [w_order set_eps]. intros k I. specialize (D k I). pose proof (ta_ep _ _ _ TA k) as X. rewrite (ta_w _ _ _ TA) in X. destruct (lookup w k); [|congruence].
    destruct (lookup _ k); [congruence|destruct X].
Qed.

Lemma ready_kept : forall v w w', RouterTimers.good v w w' -> kept w w' -> ready v w -> ready v w'.
Proof.
  intros v w w' G K [A B C D]. split.
  - destruct A as [arm A]. exists arm. apply G. auto.
  - eapply kept_logs; eauto.
  - intros k e L. destruct (kept_lookup_rev _ _ _ _ K L) as (e0 & L0 & KE). eapply never_class; [apply KE|]. eauto.
  - intros i I. rewrite (kp_order _ _ K) in I. specialize (D i I). destruct (lookup w i) as [e|] eqn:L; [|congruence]. destruct (kept_lookup _ _ _ _ K L) as (e' & L' & _). congruence.
Qed.

Lemma handle_fine : forall f v w i e p, block_table (v_tbl v) -> ready v w -> mem_rel w -> dd_ok (w_dedup w) -> lookup w i = Some e -> rx_ok (ep_rx e) -> wf_packet p ->
  slice (rx_data (ep_rx e)) 0 (length (encode p)) = Ok (encode p) -> fine (handle_msg f v w i (info_of (v_tbl v) p)).
Proof.
  intros f v w i e p BT R M D L RX WP SL. unfold handle_msg. rewrite (lookup_get _ _ _ L). cbn [bind]. change (m_len (info_of (v_tbl v) p)) with (length (encode p)). rewrite SL. cbn [bind].
  apply fine_bind. { apply dup_fine; auto. } intros [w1 fresh] CD. destruct (check_dup_eps _ _ _ _ _ CD) as [EE KD]. apply dup_alike in CD.
  destruct (negb fresh); auto. destruct (negb _); auto.
  pose proof (ready_kept _ _ _ (good_alike v _ _ CD) KD R) as R1.
  assert (M1 : mem_rel w1). { intros a ea j LA J. rewrite (lookup_same_eps _ _ _ EE) in LA. destruct (M a ea j LA J) as (ej & LJ & G). exists ej. rewrite (lookup_same_eps _ _ _ EE). auto. }
  assert (L1 : lookup w1 i = Some e) by (rewrite (lookup_same_eps _ _ _ EE); auto).
  apply fine_bind. { apply learn_fine; auto. { congruence. } match goal with |- (unmarked ?x ?l < _)%nat => pose proof (unmarked_len x l) end. lia. }
  intros w2 LE. pose proof (ready_learn v _ _ _ _ _ LE M1 R1) as R2. destruct (learn_spec _ _ _ _ _ LE M1) as (TA & _).
  destruct (taught_lookup _ _ _ _ _ TA L1) as (e2 & L2 & X2). pose proof (taught_ep_fields _ _ _ X2) as (_ & _ & _ & _ & X). rewrite (lookup_get _ _ _ L2). cbn [bind].
  assert (RX2 : ep_rx e2 = ep_rx e) by (destruct X2 as [->|[-> _]]; reflexivity). rewrite RX2.
  apply fine_bind. { apply route_fine; auto. apply buf_of; auto. destruct RX as [_ (s & (tail & E1 & E2 & _) & _)]. rewrite E1; auto. }
  intros [[[w3 mem] ds] its] RT. apply route_spec in RT. destruct RT as (RR & _). pose proof (ro_ep _ _ RR i) as Y. rewrite L2 in Y. unfold get. destruct (lookup w3 i) as [e3|]; [|destruct Y]. cbn [bind]. auto.
Qed.

(* one packet after the other *)
Lemma junk_len : forall s, (length (drop_junk s) <= length s)%nat.
Proof. induction s; cbn [drop_junk]; auto. destruct (is_stx a); cbn [length]; lia. Qed.


Lemma safe_act : forall f v c w its w', wf_table (v_tbl v) -> ~ ulog_configured c -> act f v w its w' -> safe c v w -> safe c v w'.
Proof.
  intros f v c w its w' WT NU A [I [arm TT] NO D [h LF]]. split.
  - eapply inv_act; eauto.
  - destruct (act_T f v w its w' WT A I) as [_ X]. eexists. apply X. exact TT.
  - assert (P : ulog_pos c w) by (intros k e L _; eapply NO; eauto). pose proof (ulog_pos_act f v c w its w' WT A I P) as Q. intros k e L. eapply Q; eauto.
  - destruct (act_dedup f v w its w' WT A I) as [(_ & ->)|(pkt & p & fresh & _ & X)]; auto. destruct (dd_period (w_dedup w) =? 0) eqn:Z0. { destruct X as [-> _]; auto. }
    apply Z.eqb_neq in Z0. destruct (dedup_check_ok (v_hash v) (w_dedup w) (v_orc v p) pkt D Z0) as (d' & E & K & _). rewrite E in X. injection X as <- _. auto.
  - exists (h ++ its). eapply life_act; eauto.
Qed.

Lemma safe_runs : forall f v c its w, wf_table (v_tbl v) -> ~ ulog_configured c -> runs f v c its w -> safe c v w.
Proof.
  intros f v c its w WT NU. apply (runs_ind f v c (fun _ w => safe c v w) WT).
  - intros d pos w0 S. split.
    + eapply inv_start; eauto.
    + eexists. eapply start_T; eauto.
    + intros k e L. eapply (ulog_pos_start _ _ _ _ S); eauto.
    + unfold start in S. destruct (setup_all _ _ _ _) as [[y eps]|]; [|discriminate]. destruct (tcp_server _ _ _). destruct (match cf_log c with None => _ | Some _ => _ end).
      destruct (if cf_stats c then _ else _). destruct (add_timer _ _ _ _). injection S as <-. cbn [w_dedup]. apply dd_ok_new.
    + exists []. eapply life_start; eauto.
  - intros h w1 its1 w2 I S A. eapply safe_act; eauto.
Qed.

Lemma ptr_del : forall y t cb, sys_ok y -> ptr_ok y (Some t) cb -> fine (del_timer y t).
Proof. intros y t cb S P. destruct (del_timer_spec y t cb S P) as (y' & E & _). rewrite E. auto. Qed.
Lemma ptr_mod : forall y t ms cb, ptr_ok y (Some t) cb -> fine (mod_timer y t ms).
Proof.
  intros y t ms cb (x & I & E & _). unfold mod_timer, has_timer. assert (X : existsb (fun t0 => Nat.eqb (tm_id t0) t) (y_timers y) = true).
  { apply existsb_exists. exists x. split; auto. apply Nat.eqb_eq; auto. } rewrite X. auto.
Qed.

Lemma baud_fine : forall v w i e, (exists arm, T v arm w) -> lookup w i = Some e -> fine (keep_baud w i e).
Proof.
  intros v w i e [arm TT] L. unfold keep_baud. pose proof (t_ep _ _ _ TT _ _ L) as [_ B]. destruct (ep_kind e) as [b c [t|]|c pe p|r vl|l]; auto.
  apply fine_bind; auto. eapply ptr_del; [apply TT|apply B].
Qed.

Lemma read_loop_fine : forall f v c, wf_table (v_tbl v) -> block_table (v_tbl v) -> ~ ulog_configured c ->
  forall n w i rr e s, safe c v w -> lookup w i = Some e -> wf_rd rr -> FrameRefine.good (ep_rx e) s -> (length (rest_of (ep_rx e) s ++ taken (ep_rx e) s rr) < n)%nat ->
  fine (read_loop n f v w i rr).
Proof.
  intros f v c WT BT NU. induction n; intros w i rr e s SF L WR GS LT; [lia|]. cbn [read_loop]. rewrite (lookup_get _ _ _ L). cbn [bind].
  destruct (ep_fd e) eqn:F; cbn [negb]; auto. destruct (read_msg_step (v_tbl v) (ep_rx e) s (ep_rstat e) rr WT GS WR) as (x & st & r & RM & OC).
  rewrite RM. cbn [bind]. destruct r as [r|known m]; auto. pose proof (sf_inv _ _ _ SF) as I.
  destruct (read_msg_ok _ _ _ _ _ _ _ WT (i_rx w I i e L) WR RM) as [RX P]. destruct (P known m eq_refl) as (p & P1 & P2 & P3 & P4 & P5 & P6). clear P.
  set (t := drop_junk (rest_of (ep_rx e) s ++ taken (ep_rx e) s rr)) in *.
  assert (LEN : (length t < Datatypes.S n)%nat) by (eapply Nat.le_lt_trans; [apply junk_len|exact LT]).
  assert (BTT : bytes t).
  { apply drop_junk_bytes. apply bytes_app. split.
    - apply bytes_skipn. apply GS.
    - unfold taken. destruct rr; [|constructor]. destruct (needs_read (ep_rx e)); [|constructor]. apply bytes_firstn; auto. }
  pose proof (outcome_good _ _ _ _ _ _ _ BTT OC) as GX.
  assert (SHORT : (length (rest_of x t) < n)%nat).
  { inversion OC; subst. match goal with X : t = _ ++ _ |- _ => rename X into TE end. match goal with X : rx_last x = _ |- _ => rename X into RL end.
    match goal with X : wf_packet ?q |- context [rest_of] => pose proof (encode_length_bounds q X) end. unfold rest_of. rewrite RL, skipn_length, TE in *. rewrite app_length in *. lia. }
  clear OC LT LEN. assert (KE : kept_ep e (set_rx e x st)) by (apply kept_set_rx; auto).
  assert (LP : lookup (put w i (set_rx e x st)) i = Some (set_rx e x st)) by (eapply lookup_put_eq; eauto).
  assert (K0 : kept w (put w i (set_rx e x st))) by (eapply kept_put0; eauto).
  assert (G0 : RouterTimers.good v w (put w i (set_rx e x st))) by (apply good_alike; eapply alike_put; eauto).
  pose proof (safe_ready _ _ _ SF) as R. pose proof (ready_kept _ _ _ G0 K0 R) as R0.
  set (w0 := put w i (set_rx e x st)) in *.
  apply fine_bind. { destruct known; auto. eapply baud_fine; eauto. apply R0. } intros w1 KB.
  assert (K1 : kept w0 w1 /\ RouterTimers.good v w0 w1). { destruct known. { split; [eapply kept_baud; eauto|eapply baud_good; eauto]. } inversion KB; subst. split; [apply kept_refl|apply good_refl]. }
  destruct K1 as [K1 G1]. pose proof (ready_kept _ _ _ G1 K1 R0) as R1.
  assert (L1 : exists e1, lookup w1 i = Some e1 /\ ep_rx e1 = x /\ ep_fd e1 = true /\ w_dedup w1 = w_dedup w).
  { destruct known; [|inversion KB; subst w1; exists (set_rx e x st); auto]. unfold keep_baud in KB.
    destruct (ep_kind (set_rx e x st)) as [bd cu [t0|]|? ? ?|? ?|?] eqn:K; try (inversion KB; subst w1; exists (set_rx e x st); auto; fail).
    inv_bind KB. inversion KB; subst w1. exists (set_kind (set_rx e x st) (KUart bd cu None)). split; auto. eapply lookup_put_eq. exact LP. }
  destruct L1 as (e1 & L1 & X1 & F1 & D1).
  assert (I1 : Inv w1) by (eapply kept_inv; [exact K1|]; eapply kept_inv; eauto).
  assert (SL : slice (rx_data (ep_rx e1)) 0 (length (encode p)) = Ok (encode p)) by (rewrite X1, <- P4; exact P5). subst m.
  apply fine_bind. { eapply handle_fine; eauto. { apply inv_rel; auto. } { rewrite D1. apply SF. } rewrite X1; auto. }
  intros [w2 its] HM.
  assert (S2 : safe c v w2) by (eapply safe_act; [exact WT|exact NU| |exact SF]; eapply a_recv; eauto).
  destruct (handle_quiet _ _ _ _ _ _ _ _ HM I1 (rd_no _ _ R1) L1 F1 P1 SL) as (Q & SI & _).
  destruct (lookup w2 i) as [e2|] eqn:L2. 2:{ destruct (SI i); [congruence|auto]. }
  assert (X2 : ep_rx e2 = x).
  { destruct Q as [QL Q]. destruct (Q _ _ L2) as [(e1' & L1' & LK)|(QQ & _)]. { rewrite L1 in L1'. injection L1' as <-. unfold link_of in LK. congruence. }
    apply lookup_len in L1. lia. }
  apply fine_bind; [|intros [[? ?] ?] _; auto]. eapply (IHn w2 i (RdFail 0) e2 t); auto. { exact Logic.I. } { rewrite X2; auto. }
  rewrite X2. cbn [taken]. rewrite app_nil_r. exact SHORT.
Qed.
