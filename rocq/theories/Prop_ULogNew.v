(* Property C53: a ULog logger starts every log afresh, whatever it logged before. *)
From Verif Require Import Base Mav SpecCrc SpecFrame Frame FrameProofs Names NamesProofs Sys LogFile LogFileProofs ULog Loggers LogInv LogStep
  SpecLog SpecULog LogRun LogModes LogModes2 BinProofs ULogProofs ULogStream ULogRun ULogMore CrcProofs ExFrame Prop_LogModes Prop_BinLog
  Prop_ULog Prop_ULogEx Prop_TLog.

(* start() succeeds *)
Lemma fresh_start : forall v y g u y' g' b' ok, lstart v y g (BULog u) = Ok (y', g', b', ok) -> ul_inv u -> sys_ok y -> linv y g -> l_open g = false ->
  l_mode g = MAlways -> exists u', b' = BULog u' /\ l_open g' = ok /\ l_mode g' = MAlways /\ (ok = true -> ulog_started y' g' u').
Proof.
  intros v y g u y' g' b' ok H I S L O M. cbn [lstart] in H. unfold ul_start in H.
  destruct (log_start_spec v y g S L) as (y1 & g1 & ok1 & LS & S1 & L1 & _ & SC & _ & _ & OP & _). rewrite LS in H. cbn [bind] in H. injection H as <- <- <- <-.
  rewrite O in OP. cbn [orb] in OP. exists (if ok1 then ul_reset u else u). split; auto. split; auto.
  assert (M1 : l_mode g1 = MAlways) by (rewrite <- M; apply SC). split; auto. intros ->.
  destruct (start_content _ _ _ _ _ LS S) as (C & F & O1 & _ & _). destruct (ui_buf _ I) as [B1 B2 B3 _ _ _ _].
  split; auto. split; auto. split; auto. split; auto. exists (u_buf u), (u_part u). auto.
Qed.

(* messages without log data leave the log as it is *)
Lemma other_write : forall f v y g u mem m y' g' u' mem' cs, ul_write f v y g u mem m = Ok (y', g', u', mem', cs) -> m_id m <> 266 -> m_id m <> 267 ->
  u' = u /\ y_fs y' = y_fs y /\ l_open g' = l_open g /\ l_name g' = l_name g /\ l_off g' = l_off g /\ l_mode g' = l_mode g.
Proof.
  intros f v y g u mem m y' g' u' mem' cs H N1 N2. unfold ul_write in H. rewrite (proj2 (Z.eqb_neq _ _) N1), (proj2 (Z.eqb_neq _ _) N2) in H.
  destruct (Z.eqb_spec (m_id m) 77) as [I|I]; cbn [orb negb] in H. 2:{ injection H as <- <- <- <- <-. auto 10. }
  destruct (v_tbl v (m_id m)) as [e|]. 2:{ injection H as <- <- <- <- <-. auto 10. }
  destruct (payload_dims e mem m) as [[pl tz]| |]; cbn [bind] in H; try discriminate.
  destruct (local_copy 10 mem m pl tz) as [loc| |]; cbn [bind] in H; try discriminate.
  destruct (ask_bytes (3 - length loc) v y) as [junk y1] eqn:AB. pose proof (ask_bytes_fs _ _ _ _ _ AB) as FS.
  destruct (rd (loc ++ junk) 0) as [c0| |]; cbn [bind] in H; try discriminate.
  destruct (rd (loc ++ junk) 1) as [c1| |]; cbn [bind] in H; try discriminate.
  destruct (rd (loc ++ junk) 2) as [r| |]; cbn [bind] in H; try discriminate.
  destruct (l_tstart g). 2:{ injection H as <- <- <- <- <-. auto 10. }
  destruct (_ =? CMD_LOGGING_START). 2:{ injection H as <- <- <- <- <-. auto 10. }
  destruct (r =? 0). 2:{ injection H as <- <- <- <- <-. auto 10. }
  destruct (remove_start_timeout y1 g) as [[y2 g2]| |] eqn:RS; cbn [bind] in H; try discriminate.
  destruct (start_alive v y2 g2) as [y3 g3] eqn:SA. injection H as <- <- <- <- <-.
  destruct (step_started _ _ _ _ _ _ _ RS SA) as (_ & O3 & N3 & F3 & _ & Y3 & M3 & _). cbn [count_write set_counts l_open l_name l_off l_mode].
  repeat split; congruence.
Qed.

(* Whatever happened before, an event other than log data that leaves the logger with another file than before leaves it
   waiting for the first packet of a new stream. *)
Lemma new_file : forall fuel v y g u e y' g' b' cs, ulog_reached v y g u -> l_mode g = MAlways ->
  (forall p tail, e = LMsg p tail -> is_ulog p = false) ->
  levent fuel v y g (BULog u) e = Ok (y', g', b', cs) -> l_open g' = true -> l_open g = false \/ l_name g' <> l_name g ->
  exists u', b' = BULog u' /\ ulog_started y' g' u'.
Proof.
  intros fuel v y g u e y' g' b' cs RE M NU H O' D. destruct (reached_inv _ _ _ _ RE) as (I & S & L).
  destruct e as [p tail| |]; cbn [levent] in H.
  - specialize (NU p tail eq_refl). unfold is_ulog in NU. apply orb_false_elim in NU. destruct NU as [N1 N2]. apply Z.eqb_neq in N1. apply Z.eqb_neq in N2.
    unfold lwrite in H. destruct (learn_same g (info_of (v_tbl v) p)) as (Q1 & Q2 & Q3 & Q4 & Q5).
    pose proof (learn_inv _ _ (info_of (v_tbl v) p) L) as L0. set (g0 := learn_target g (info_of (v_tbl v) p)) in *. rewrite M in Q2.
    assert (A : forall y1 g1 u1, (let* (y, g, u, mem, cs') := ul_write fuel v y1 g1 u1 (encode p ++ tail) (info_of (v_tbl v) p) in Ok (y, g, BULog u, mem, @nil ctl ++ cs')) = 
        (let* (y, g, u, mem, cs') := ul_write fuel v y1 g1 u1 (encode p ++ tail) (info_of (v_tbl v) p) in Ok (y, g, BULog u, mem, cs'))) by reflexivity.
    unfold auto_start_stop in H. rewrite Q2, Q1 in H.
    assert (W : forall y1 g1 u1 y2 g2 u2 mem2 cs2, ul_write fuel v y1 g1 u1 (encode p ++ tail) (info_of (v_tbl v) p) = Ok (y2, g2, u2, mem2, cs2) ->
      u2 = u1 /\ y_fs y2 = y_fs y1 /\ l_open g2 = l_open g1 /\ l_name g2 = l_name g1 /\ l_off g2 = l_off g1 /\ l_mode g2 = l_mode g1).
    { intros. eapply other_write; eauto. }
    destruct (l_target g0 =? -1).
    + cbn [bind] in H. inv_bind H. inv_bind E. injection H as <- <- <- <-. injection E as <- <- <- <- <-. destruct (W _ _ _ _ _ _ _ _ E0) as (_ & _ & X1 & X2 & _). destruct D; congruence.
    + destruct (l_open g) eqn:O.
      * cbn [bind] in H. inv_bind H. inv_bind E. injection H as <- <- <- <-. injection E as <- <- <- <- <-. destruct (W _ _ _ _ _ _ _ _ E0) as (_ & _ & X1 & X2 & _). destruct D; congruence.
      * destruct (lstart v y g0 (BULog u)) as [[[[y1 g1] b1] ok]| |] eqn:LS; cbn [bind] in H; try discriminate.
        destruct (fresh_start _ _ _ _ _ _ _ _ LS I S L0 Q1 Q2) as (u1 & -> & OP & M1 & ST). inv_bind H. inv_bind E. injection H as <- <- <- <-. injection E as <- <- <- <- <-.
        destruct (W _ _ _ _ _ _ _ _ E0) as (-> & X0 & X1 & X2 & X3 & X4). destruct ok.
        -- destruct (ST eq_refl) as (T1 & T2 & T3 & T4 & T5). exists u1. split; auto. split; [congruence|]. split; [congruence|]. split; [congruence|].
           split; auto. rewrite X2. eapply content_fs; eauto.
        -- cbn [l_open set_mode] in X1. congruence.
  - destruct (l_tstart g). 2:{ injection H as <- <- <- <-. destruct D; congruence. }
    cbn [lcb_start] in H. destruct (send_command y g CMD_LOGGING_START) as [[y1 g1] c] eqn:SC. injection H as <- <- <- <-.
    pose proof (calm_send_ctl _ _ _ _ _ _ _ _ SC) as CA. pose proof (ca_open _ _ _ _ CA). pose proof (ca_name _ _ _ _ CA). destruct D; congruence.
  - destruct (l_talive g). 2:{ injection H as <- <- <- <-. destruct D; congruence. }
    unfold lcb_alive in H. destruct (l_mark g =? l_wtotal g).
    + destruct (lstop fuel v y g (BULog u)) as [[[[y1 g1] b1] c1]| |] eqn:SP; cbn [bind] in H; try discriminate.
      destruct (lstop_open _ _ _ _ _ _ _ _ _ SP S L) as (O1 & M1 & K1). destruct b1 as [|u1|]; try discriminate.
      assert (I1 : ul_inv u1) by (apply (lstop_keeps _ _ _ _ _ _ _ _ _ SP I)). destruct (step_lstop _ _ _ _ _ _ _ _ _ SP) as [S1 L1 _ _].
      destruct (lstart v y1 g1 (BULog u1)) as [[[[y2 g2] b2] ok]| |] eqn:LS; cbn [bind] in H; try discriminate. injection H as <- <- <- <-.
      rewrite M in M1. destruct (fresh_start _ _ _ _ _ _ _ _ LS I1 (S1 S L) (L1 S L) O1 M1) as (u2 & -> & OP & M2 & ST).
      exists u2. split; auto. cbn [set_counts l_open] in O'. rewrite O' in OP. exact (ST (eq_sym OP)).
    + cbn [bind] in H. injection H as <- <- <- <-. cbn [set_counts l_open l_name] in *. destruct D; congruence.
Qed.

(* C53, for every log of a logger: it is always on, has done anything before, and an event e opens a new log (the first message
   from the monitored system, or the alive timer, which also closes the old log).  The stream that follows is in the file
   of that log. *)
Theorem C53_new_log_partial : forall fuel v y0 g0 u0 e y g b c0 p0 tail0 evs hd x ms r,
  ulog_dialect v -> ulog_reached v y0 g0 u0 -> l_mode g0 = MAlways -> (forall p tail, e = LMsg p tail -> is_ulog p = false) ->
  levent fuel v y0 g0 (BULog u0) e = Ok (y, g, b, c0) -> l_open g = true -> l_open g0 = false \/ l_name g <> l_name g0 ->
  full_writes v y -> (700 <= fuel)%nat ->
  opens_stream p0 tail0 hd x -> Forall (ul_event_ok v) (LMsg p0 tail0 :: evs) -> in_order 1 (ulogs evs) ->
  ulog_stream (x ++ concat (map ul_bytes (ulogs evs))) ms r ->
  exists y' g' u' cs ms' r', lrun fuel v y g b (LMsg p0 tail0 :: evs) = Ok (y', g', BULog u', cs) /\
    ulog_stream (x ++ concat (map ul_bytes (ulogs evs))) ms' r' /\
    content y' (l_name g) (hd ++ concat ms') /\ staged u' = r' /\
    (hd ++ concat ms') ++ staged u' = concat (map ul_bytes (p0 :: ulogs evs)).
Proof.
  intros fuel v y0 g0 u0 e y g b c0 p0 tail0 evs hd x ms r T RE M NU EV O D R F OS OK IO US.
  destruct (new_file _ _ _ _ _ _ _ _ _ _ RE M NU EV O D) as (u & -> & ST). eapply C53_stream_partial; eauto.
Qed.

(* a logger whose stream went silent after its third packet: the second alive timer starts a new log *)
Definition ux_ack : packet := seal 143 (mkPacket (V2 0 0 []) 0 1 1 77 [206; 9; 0] 0 0).
Definition un_tbl : table := fun id => if id =? 77 then Some (mkEntry 143 10 (Some 8%nat) (Some 9%nat)) else ux_tbl id.
Definition un_env : env := mkEnv un_tbl (fun _ => 0) (fun _ => 65536) (fun _ => true).
Definition un_before : list lev := [ux_hb; LMsg ux_ack []; ux_head; LMsg (ux_data 1 255 [1]) []; LAlive].
Definition un_at := match lrun 700 un_env lx_sys (lg_new 0 ext_ulg 0 0 MAlways 1) ux_new un_before with
  | Ok (y, g, BULog u, _) => (y, g, u) | _ => (lx_sys, lg_new 0 ext_ulg 0 0 MAlways 1, ul_new []) end.

Example C53_new_log_nonvacuous :
  let y0 := fst (fst un_at) in let g0 := snd (fst un_at) in let u0 := snd un_at in
  ulog_dialect un_env /\ ulog_reached un_env y0 g0 u0 /\ u_exp u0 = 2 /\ l_open g0 = true /\
  match levent 700 un_env y0 g0 (BULog u0) LAlive with
  | Ok (y, g, b, _) => l_open g = true /\ beqs (l_name g) (l_name g0) = false /\
     match lrun 700 un_env y g b (ux_head :: ux_inorder) with
     | Ok (y', g', BULog u, _) => contentb y' (l_name g) (ux_hd ++ ux_msg ++ [2; 0; 66; 1; 7] ++ ux_msg) = true /\ staged u = [1; 0]
     | _ => False end
  | _ => False end.
Proof.
  cbv zeta. split. { intros id [-> | ->]; eexists; split; reflexivity. } split.
  { exists 700%nat, lx_sys, 0%nat, 0, 0, MAlways, 1, (repeat 0 3072), un_before. eexists. split. { split; [split; constructor|intros t []]. }
    split; [apply repeat_length|]. split. { apply Forall_forall. intros z X. apply repeat_spec in X. subst. unfold is_byte. lia. }
    split. { unfold un_before. repeat (apply Forall_cons; [first [exact Logic.I|split; [wfb|apply Forall_nil]]|]). apply Forall_nil. } vm_compute. reflexivity. }
  split; [vm_compute; reflexivity|]. split; [vm_compute; reflexivity|]. vm_compute. repeat split.
Qed.

Print Assumptions C53_new_log_partial.
