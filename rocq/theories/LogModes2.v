(* Runs of a logger: target, mode, open or closed. *)
From Verif Require Import Base Mav SpecFrame Frame FrameProofs Names NamesProofs Sys LogFile LogFileProofs ULog Loggers LogInv LogStep
  SpecLog LogRun LogModes.

Lemma lrun_app : forall f v e1 e2 y g b, lrun f v y g b (e1 ++ e2) =
  let* (y, g, b, cs) := lrun f v y g b e1 in
  let* (y, g, b, cs') := lrun f v y g b e2 in Ok (y, g, b, cs ++ cs').
Proof.
  induction e1; intros e2 y g b; cbn [app lrun bind].
  - destruct (lrun f v y g b e2) as [[[[? ?] ?] ?]| |]; reflexivity.
  - destruct (levent f v y g b a) as [[[[y1 g1] b1] c1]| |]; cbn [bind]; auto. rewrite IHe1.
    destruct (lrun f v y1 g1 b1 e1) as [[[[y2 g2] b2] c2]| |]; cbn [bind]; auto.
    destruct (lrun f v y2 g2 b2 e2) as [[[[y3 g3] b3] c3]| |]; cbn [bind]; auto. rewrite app_assoc. reflexivity.
Qed.

Lemma lrun_snoc : forall f v evs e y g b y' g' b' cs, lrun f v y g b (evs ++ [e]) = Ok (y', g', b', cs) ->
  exists y1 g1 b1 c1 c2, lrun f v y g b evs = Ok (y1, g1, b1, c1) /\ levent f v y1 g1 b1 e = Ok (y', g', b', c2) /\ cs = c1 ++ c2.
Proof.
  intros f v evs e y g b y' g' b' cs H. rewrite lrun_app in H. inv_bind H. inv_bind H. inversion H; subst.
  cbn [lrun] in E0. inv_bind E0. inversion E0; subst. exists s, l0, b0, l. eexists. split; [exact E|]. split; [exact E1|]. rewrite app_nil_r. reflexivity.
Qed.

Lemma offered_app : forall a b, offered (a ++ b) = offered a ++ offered b.
Proof. induction a as [|[p t| |] a IH]; intros; cbn [offered app]; rewrite ?IH; auto. Qed.

Lemma monitored_snoc : forall fcu ps p, Forall wf_packet ps ->
  monitored fcu (ps ++ [p]) = if (monitored fcu ps =? -1) && (p_id p =? 0) && (p_comp p =? 1) && (fcu =? -1) then p_sys p else monitored fcu ps.
Proof.
  intros fcu ps p W. unfold monitored. destruct (Z.eqb_spec fcu (-1)) as [F|F]; rewrite ?andb_true_r, ?andb_false_r; auto.
  induction W as [|q ps Wq W IH]; cbn [app first_autopilot].
  - unfold autopilot_heartbeat. cbn [Z.eqb andb]. reflexivity.
  - destruct (autopilot_heartbeat q); auto. destruct Wq as (_ & S & _). unfold is_byte in S.
    destruct (Z.eqb_spec (p_sys q) (-1)); try lia. reflexivity.
Qed.

Lemma reported_snoc : forall s ps p acc, reported_armed s (ps ++ [p]) acc =
  if autopilot_heartbeat p && (p_sys p =? s) then says_armed p else reported_armed s ps acc.
Proof. induction ps; intros; cbn [app reported_armed]; auto. Qed.

Lemma unmonitored_not_armed : forall ps s, Forall wf_packet ps -> first_autopilot ps = -1 -> reported_armed s ps false = false.
Proof.
  intros ps s W. induction W as [|q ps Wq W IH]; intros H; cbn [first_autopilot reported_armed] in *; auto.
  destruct (autopilot_heartbeat q) eqn:A.
  - destruct Wq as (_ & S & _). unfold is_byte in S. lia.
  - cbn [andb]. auto.
Qed.

(* a timer list without timers of logger ep; a new logger *)
Definition no_timers_of (y : sys) (ep : nat) : Prop := forall t, In t (y_timers y) -> log_cb (tm_cb t) <> Some ep.
Lemma linv_new : forall y ep ext mf ml mode fcu, no_timers_of y ep -> linv y (lg_new ep ext mf ml mode fcu).
Proof.
  intros y ep ext mf ml mode fcu N. split; cbn; auto. intros t I D.
  specialize (N t I). repeat split; intros E; exfalso; apply N; rewrite E; reflexivity.
Qed.

Lemma levent_step : forall f v y g b e y' g' b' cs, levent f v y g b e = Ok (y', g', b', cs) ->
  sys_ok y -> linv y g -> sys_ok y' /\ linv y' g' /\ own (l_ep g) y y' /\ l_ep g' = l_ep g /\ l_ext g' = l_ext g /\
    l_target g' = (match e with LMsg p _ => if (l_target g =? -1) && (p_id p =? 0) && (p_comp p =? 1) then p_sys p else l_target g
                   | _ => l_target g end).
Proof.
  intros f v y g b e y' g' b' cs H S L. destruct e as [p t| |]; cbn [levent] in H.
  - inv_bind H. inversion H; subst. pose proof (lwrite_step _ _ _ _ _ _ _ _ _ _ _ _ E) as [A1 A2 A3 A4].
    pose proof (learn_inv _ _ (info_of (v_tbl v) p) L) as L'.
    destruct (A4 S L') as (K1 & K2 & K3 & K4 & K5). destruct (learn_ep g (info_of (v_tbl v) p)) as (Q1 & Q2 & _).
    split; auto. split; auto. split. { rewrite <- Q1. auto. } split; [congruence|]. split; [congruence|].
    rewrite K5. unfold learn_target. cbn [m_id m_scomp m_ssys info_of]. destruct (_ && _); reflexivity.
  - destruct (l_tstart g). 2:{ inversion H; subst. split; auto. split; auto. split; [apply own_refl|]. auto. }
    destruct (lcb_start y g b) as [[y1 g1] c1] eqn:C. inversion H; subst.
    destruct (step_cb_start _ _ _ _ _ _ C) as [A1 A2 A3 A4]. destruct (A4 S L) as (K1 & K2 & K3 & K4 & K5). auto 10.
  - destruct (l_talive g). 2:{ inversion H; subst. split; auto. split; auto. split; [apply own_refl|]. auto. }
    destruct (step_cb_alive _ _ _ _ _ _ _ _ _ H) as [A1 A2 A3 A4]. destruct (A4 S L) as (K1 & K2 & K3 & K4 & K5). auto 10.
Qed.

Lemma lrun_inv : forall f v evs y g b y' g' b' cs, lrun f v y g b evs = Ok (y', g', b', cs) ->
  sys_ok y -> linv y g -> sys_ok y' /\ linv y' g' /\ own (l_ep g) y y' /\ l_ep g' = l_ep g /\ l_ext g' = l_ext g.
Proof.
  induction evs as [|e evs IH]; intros y g b y' g' b' cs H S L; cbn [lrun] in H.
  - inversion H; subst. split; auto. split; auto. split; auto. apply own_refl.
  - inv_bind H. inv_bind H. inversion H; subst. destruct (levent_step _ _ _ _ _ _ _ _ _ _ E S L) as (S1 & L1 & O1 & P1 & X1 & _).
    destruct (IH _ _ _ _ _ _ _ E0 S1 L1) as (S2 & L2 & O2 & P2 & X2). split; auto. split; auto. split.
    { eapply own_trans; [exact O1|]. rewrite <- P1. auto. } split; congruence.
Qed.

Lemma run_target : forall f v evs y b g y' g' b' cs fcu,
  lrun f v y g b evs = Ok (y', g', b', cs) -> sys_ok y -> linv y g -> Forall wf_packet (offered evs) -> l_target g = fcu ->
  l_target g' = monitored fcu (offered evs).
Proof.
  intros f v evs. induction evs as [|e evs IH] using rev_ind; intros y b g y' g' b' cs fcu H S L W T.
  - cbn in H. inversion H; subst. unfold monitored. cbn. destruct (Z.eqb_spec (l_target g') (-1)); auto.
  - apply lrun_snoc in H. destruct H as (y1 & g1 & b1 & c1 & c2 & R & E & ->).
    rewrite offered_app in *. apply Forall_app in W. destruct W as [W1 W2].
    pose proof (IH _ _ _ _ _ _ _ _ R S L W1 T) as T1. destruct (lrun_inv _ _ _ _ _ _ _ _ _ _ R S L) as (S1 & L1 & _).
    destruct (levent_step _ _ _ _ _ _ _ _ _ _ E S1 L1) as (_ & _ & _ & _ & _ & T2). rewrite T2, T1.
    destruct e as [p t| |]; cbn [offered]; rewrite ?app_nil_r; auto.
    rewrite monitored_snoc by auto. destruct ((monitored fcu (offered evs) =? -1) && (p_id p =? 0) && (p_comp p =? 1)) eqn:C; auto.
    cbn [andb]. destruct (Z.eqb_spec fcu (-1)) as [F|F]; auto. exfalso.
    apply andb_prop in C. destruct C as [C _]. apply andb_prop in C. destruct C as [C _]. apply Z.eqb_eq in C.
    unfold monitored in C. destruct (Z.eqb_spec fcu (-1)); congruence.
Qed.

(* what one message that carries no log data does in while-armed mode *)
Lemma armed_message : forall f v y g b p tail y' g' b' mem' cs,
  lwrite f v y g b (encode p ++ tail) (info_of (v_tbl v) p) = Ok (y', g', b', mem', cs) -> sys_ok y -> linv y g ->
  wf_packet p -> (p_id p = 0 -> (7 <= length (p_payload p))%nat) -> data_packet (kind_of b) p = false ->
  kind_of b' = kind_of b /\
  (l_mode g = MDisabled -> l_mode g' = MDisabled /\ l_open g' = l_open g) /\
  (l_mode g = MWhileArmed ->
    if (p_id p =? 0) && (p_comp p =? 1) && (p_sys p =? l_target g')
    then l_open g' = says_armed p /\ l_mode g' = MWhileArmed \/ l_open g' = false /\ l_mode g' = MDisabled /\ says_armed p = true
    else l_open g' = l_open g /\ l_mode g' = MWhileArmed).
Proof.
  intros f v y g b p tail y' g' b' mem' cs H S L W HB D. pose proof (learn_inv _ _ (info_of (v_tbl v) p) L) as L'.
  pose proof (lwrite_step _ _ _ _ _ _ _ _ _ _ _ _ H) as [_ _ _ KC]. destruct (KC S L') as (_ & _ & _ & _ & TG).
  destruct (lwrite_split _ _ _ _ _ _ _ _ _ _ _ _ H) as (y1 & g1 & b1 & c1 & c2 & A & R & _).
  destruct (auto_spec _ _ _ _ _ _ _ _ _ _ _ A S L') as (K & A0 & _ & _ & A2).
  pose proof (step_auto _ _ _ _ _ _ _ _ _ _ _ A) as [B1 B2 _ _].
  rewrite <- K in D. destruct (rest_quiet _ _ _ _ _ _ _ _ _ _ _ _ R D (B1 S L') (B2 S L')) as (O & M & K' & _).
  destruct (learn_ep g (info_of (v_tbl v) p)) as (_ & _ & Q3 & Q4 & _). rewrite Q4 in *.
  split; [congruence|]. split.
  - intros MD. destruct A0 as (-> & -> & _ & _); auto. split; congruence.
  - intros MW. specialize (A2 MW). cbn [m_id m_ssys m_scomp m_poff info_of] in A2. rewrite TG.
    set (t := l_target (learn_target g (info_of (v_tbl v) p))) in *.
    assert (PS : is_byte (p_sys p)) by apply W.
    destruct ((p_id p =? 0) && (p_comp p =? 1) && (p_sys p =? t)) eqn:C.
    + apply andb_prop in C. destruct C as [C C3]. apply andb_prop in C. destruct C as [C1 C2]. rewrite C1, C2, C3 in A2.
      assert (N : negb (t =? -1) = true). { apply negb_true_iff. apply Z.eqb_neq. apply Z.eqb_eq in C3. unfold is_byte in PS. lia. }
      rewrite N in A2. cbn [andb] in A2. destruct A2 as (bm & RD & A2 & _).
      apply Z.eqb_eq in C1. rewrite payload_byte in RD by (specialize (HB C1); lia). injection RD as <-.
      fold (base_mode p) in A2. assert (SA : says_armed p = (128 <=? base_mode p)).
      { apply testbit7. apply nth_byte. apply W. }
      rewrite SA, O, M. destruct A2 as [A2|(A2 & A3 & A4)]; auto. right. split; auto. split; auto. apply Z.leb_le; auto.
    + assert (X : (p_id p =? 0) && (p_sys p =? t) && (p_comp p =? 1) && negb (t =? -1) = false).
      { destruct (p_id p =? 0), (p_sys p =? t), (p_comp p =? 1); cbn in *; congruence. }
      rewrite X in A2. destruct A2 as (-> & -> & _ & _). split; congruence.
Qed.

(* LStart leaves mode and file alone *)
Lemma start_tick : forall f v y g b y' g' b' cs, levent f v y g b LStart = Ok (y', g', b', cs) ->
  l_open g' = l_open g /\ l_mode g' = l_mode g /\ b' = b /\ y_fs y' = y_fs y.
Proof.
  intros f v y g b y' g' b' cs H. cbn [levent] in H. destruct (l_tstart g). 2:{ inversion H; subst; auto. }
  destruct b; cbn [lcb_start] in H.
  - destruct (send_block_status y g BLOCK_START 1) as [[y1 g1] c] eqn:C. inversion H; subst. pose proof (calm_block_status _ _ _ _ _ _ _ C) as [].
    split; auto. split; [apply ca_cfg|]. split; auto. unfold send_block_status, send_ctl in C. pose proof (f_equal (fun t => fst (fst t)) C) as X. cbn in X. subst; reflexivity.
  - destruct (send_command y g CMD_LOGGING_START) as [[y1 g1] c] eqn:C. inversion H; subst. pose proof (calm_send_ctl _ _ _ _ _ _ _ _ C) as [].
    split; auto. split; [apply ca_cfg|]. split; auto. unfold send_command, send_ctl in C. pose proof (f_equal (fun t => fst (fst t)) C) as X. cbn in X. subst; reflexivity.
  - inversion H; subst; auto.
Qed.

Lemma bin_start_mode : forall v y g b y' g' b' ok, lstart v y g b = Ok (y', g', b', ok) -> sys_ok y -> linv y g -> l_mode g' = l_mode g /\ kind_of b' = kind_of b.
Proof. intros. edestruct lstart_open as (_ & A & B); eauto. Qed.

Lemma alive_tick : forall f v y g b y' g' b' cs, levent f v y g b LAlive = Ok (y', g', b', cs) -> sys_ok y -> linv y g ->
  l_mode g' = l_mode g /\ kind_of b' = kind_of b /\ (l_open g = false -> y' = y /\ g' = g).
Proof.
  intros f v y g b y' g' b' cs H S L. cbn [levent] in H. destruct (l_talive g) eqn:TA. 2:{ inversion H; subst; auto. }
  assert (OP : l_open g = true). { destruct (l_open g) eqn:O; auto. destruct (li_closed _ _ L O) as (_ & _ & X). congruence. }
  unfold lcb_alive in H. inv_bind H. inversion H; subst. cbn [l_mode set_counts].
  destruct (_ =? _).
  - inv_bind E. inv_bind E. inversion E; subst. destruct (lstop_open _ _ _ _ _ _ _ _ _ E0 S L) as (_ & M1 & K1).
    destruct (step_lstop _ _ _ _ _ _ _ _ _ E0) as [B1 B2 _ _].
    destruct (lstart_open _ _ _ _ _ _ _ _ E1 (B1 S L) (B2 S L)) as (_ & M2 & K2). split; [congruence|]. split; [congruence|]. congruence.
  - inversion E; subst. split; auto. split; auto. congruence.
Qed.

(* the modes never change, except to disabled *)
Lemma bin_restart_mode : forall v y g a y' g' a' cs, bin_restart v y g a = Ok (y', g', a', cs) -> sys_ok y -> linv y g -> l_mode g' = l_mode g.
Proof.
  intros v y g a y' g' a' cs H S L. unfold bin_restart in H. inv_bind H. inv_bind H. inversion H; subst.
  assert (X : lstop 0 v y g (BBin a) = Ok (s, l0, BBin a, cs)) by (cbn [lstop]; rewrite E; reflexivity).
  destruct (lstop_open _ _ _ _ _ _ _ _ _ X S L) as (_ & M1 & _). destruct (step_lstop _ _ _ _ _ _ _ _ _ X) as [B1 B2 _ _].
  assert (X2 : lstart v s l0 (BBin a) = Ok (y', g', BBin a', b)) by (cbn [lstart]; rewrite E0; reflexivity).
  destruct (lstart_open _ _ _ _ _ _ _ _ X2 (B1 S L) (B2 S L)) as (_ & M2 & _). congruence.
Qed.

Lemma ul_restart_mode : forall f v y g u y' g' u' cs, ul_restart f v y g u = Ok (y', g', u', cs) -> sys_ok y -> linv y g -> l_mode g' = l_mode g.
Proof.
  intros f v y g u y' g' u' cs H S L. unfold ul_restart in H. inv_bind H. inv_bind H. inversion H; subst.
  assert (X : lstop f v y g (BULog u) = Ok (s, l0, BULog u0, cs)) by (cbn [lstop]; rewrite E; reflexivity).
  destruct (lstop_open _ _ _ _ _ _ _ _ _ X S L) as (_ & M1 & _). destruct (step_lstop _ _ _ _ _ _ _ _ _ X) as [B1 B2 _ _].
  assert (X2 : lstart v s l0 (BULog u0) = Ok (y', g', BULog u', b)) by (cbn [lstart]; rewrite E0; reflexivity).
  destruct (lstart_open _ _ _ _ _ _ _ _ X2 (B1 S L) (B2 S L)) as (_ & M2 & _). congruence.
Qed.

Lemma rest_mode : forall f v y g b mem m y' g' b' mem' cs,
  lwrite_rest f v y g b mem m = Ok (y', g', b', mem', cs) -> sys_ok y -> linv y g -> l_mode g' = l_mode g /\ kind_of b' = kind_of b.
Proof.
  intros f v y g b mem m y' g' b' mem' cs H S L. destruct b as [a|u|]; cbn [lwrite_rest] in H; inv_bind H; inversion H; subst; cbn [kind_of]; split; auto.
  - unfold bin_write in E. destruct (negb _). { inversion E; subst; auto. }
    destruct (v_tbl v (m_id m)). 2:{ inversion E; subst; auto. }
    inv_bind E. inv_bind E. inv_bind E. inv_bind E.
    match goal with X : match l_tstart g with _ => _ end = Ok (?s, ?l, _, _) |- _ => assert (C : step_ok y g s l /\ l_mode l = l_mode g); [|clear X] end.
    { destruct (l_tstart g) as [ts|] eqn:TS.
      - destruct (a0 =? 0).
        + inv_bind E3. destruct (start_alive v _ _) as [y2 g2] eqn:A. inversion E3; subst. destruct (step_started _ _ _ _ _ _ _ E4 A) as (X & _ & _ & _ & _ & _ & M & _). auto.
        + destruct (send_block_status y g BLOCK_STOP 1) as [[y2 g2] c] eqn:SB. inversion E3; subst.
          apply calm_block_status in SB. split; [apply step_calm; auto|apply SB].
      - inversion E3; subst. split; auto. apply step_refl. }
    destruct C as [[C1 C2 _ _] C3]. match goal with X : (if ?q then _ else _) = Ok _ |- _ => destruct q end. 2:{ inversion E; subst; auto. }
    inv_bind E. inv_bind E. inversion E; subst. cbn [l_mode count_write set_counts]. rewrite <- C3.
    unfold bin_process in E4. destruct (negb _). { eapply bin_restart_mode; eauto. }
    destruct (ask v _) as [r y2] eqn:A. pose proof (calm_ask _ _ l1 _ _ A) as CA.
    destruct (r <? 0). { eapply bin_restart_mode; eauto using calm_sys, calm_linv. }
    destruct (file_write _ _ _ _ _) as [[r3 y3] g3] eqn:FW. apply calm_file_write in FW.
    assert (CC := calm_trans _ _ _ _ _ _ CA FW).
    destruct (_ && _). { rewrite (bin_restart_mode _ _ _ _ _ _ _ _ E4); eauto using calm_sys, calm_linv. apply CC. }
    destruct (negb _). { inversion E4; subst. apply CC. }
    destruct (send_ack y3 g3 a a0) as [[[y4 g4] a4] c4] eqn:K. inversion E4; subst. apply calm_send_ack in K.
    assert (CD := calm_trans _ _ _ _ _ _ CC K). apply CD.
  - unfold ul_write in E. destruct (negb _). { inversion E; subst; auto. }
    destruct (v_tbl v (m_id m)). 2:{ inversion E; subst; auto. }
    inv_bind E. destruct (m_id m =? 77).
    + inv_bind E. destruct (ask_bytes _ _ _) as [junk y1] eqn:J. apply (calm_ask_bytes _ _ _ g) in J.
      inv_bind E. inv_bind E. inv_bind E. destruct (l_tstart g). 2:{ inversion E; subst; auto. }
      destruct (_ =? _). 2:{ inversion E; subst; auto. }
      destruct (_ =? _). 2:{ inversion E; subst; auto. }
      inv_bind E. destruct (start_alive v _ _) as [y2 g2] eqn:A. inversion E; subst. cbn [l_mode count_write set_counts].
      match goal with R : remove_start_timeout _ _ = _ |- _ => destruct (step_started _ _ _ _ _ _ _ R A) as (_ & _ & _ & _ & _ & _ & M & _) end. auto.
    + inv_bind E.
      match goal with X : (if m_id m =? 267 then _ else _) = Ok (?s, ?l, _) |- _ => assert (C : calm y g s l); [|clear X] end.
      { destruct (m_id m =? 267).
        - inv_bind E1. inv_bind E1. destruct (send_ctl _ _ _ _ _) as [[y2 g2] c] eqn:SC. inversion E1; subst. eapply calm_send_ctl; eauto.
        - inversion E1; subst. apply calm_refl. }
      assert (X : forall mm b y2 g2 u2 mm2 cs2, ul_process f v s l0 u mm b = Ok (y2, g2, u2, mm2, cs2) -> l_mode g2 = l_mode g).
      { intros mm b y2 g2 u2 mm2 cs2 P. assert (ML : l_mode l0 = l_mode g) by apply C. rewrite <- ML.
        assert (S1 : sys_ok s) by (eapply calm_sys; eauto). assert (L1 : linv s l0) by (eapply calm_linv; eauto).
        unfold ul_process in P. inv_bind P. inv_bind P.
        destruct (logging_seq _ _) as [[u3 d]|]. 2:{ inversion P; subst; auto. }
        destruct (u_hdr u3).
        - inv_bind P. destruct (_ <? _). { inv_bind P. inversion P; subst. eapply ul_restart_mode; eauto. }
          inv_bind P. destruct (negb _). { inv_bind P. inversion P; subst. eapply ul_restart_mode; eauto. }
          do 5 inv_bind P. inversion P; subst. eapply calm_ul_data; eauto.
        - inv_bind P. inversion P; subst. eapply calm_ul_data; eauto. }
      destruct (_ =? 0).
      * inv_bind E. inversion E; subst. cbn [l_mode count_write set_counts]. eauto.
      * inv_bind E. inv_bind E. inversion E; subst. cbn [l_mode count_write set_counts]. eauto.
  - eapply calm_tele_write in E. apply E.
Qed.
