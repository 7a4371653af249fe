(* The telemetry logger along the run of the program. *)
From Verif Require Import Base Mav SpecCrc SpecFrame Frame FrameProofs Names NamesProofs Sys LogFile LogFileProofs ULog Loggers LogInv LogStep SpecLog LogRun LogModes LogModes2 BinProofs Prop_LogModes Prop_TLog
  Router RouterTimers LogSpare LogHist LogLive.

(* files called [n] are writable *)
Definition all_w (y : sys) (n : list Z) : Prop := forall l e, y_fs y = Some l -> In e l -> d_name e = n -> d_w e = true.
Lemma kept_content : forall y n d, kept_file y n d <-> content y n d /\ all_w y n.
Proof.
  intros. split.
  - intros (l & F & E & A). split. { exists l. split; auto. split; auto. intros e I N. apply (A e I N). } intros l0 e F0 I N. rewrite F in F0. injection F0 as <-. apply (A e I N).
  - intros ((l & F & E & A) & W). exists l. split; auto. split; auto. intros e I N. split; [apply (A e I N)|apply (W l e F I N)].
Qed.
Lemma touch_w : forall m y y' n, touch m (y_fs y) (y_fs y') -> all_w y n -> all_w y' n.
Proof.
  intros m y y' n T W l' e' F' I' N'. unfold all_w, touch in *. rewrite F' in T. destruct (y_fs y) as [l|]; [|destruct T]. specialize (W l).
  assert (X : forall e, In e l -> d_name e = n -> d_w e = true) by (intros; apply W; auto). clear W F'.
  induction T as [|a a' l l' (T1 & T2 & T3 & _) T IH]; [destruct I'|]. destruct I' as [->|I']; [|apply IH; auto; intros; apply X; auto; right; auto].
  rewrite T3. apply X; [left; auto|congruence].
Qed.
Lemma start_w : forall v y g y' g', log_start v y g = Ok (y', g', true) -> all_w y' (l_name g') /\ exists k t, l_name g' = log_name k t (l_ext g).
Proof.
  intros v y g y' g' H. unfold log_start in H. destruct (l_open g); [discriminate|]. destruct (get_file v (delete_old_logs v y g) g) as [r y2] eqn:GF. destruct r as [name|]; [|discriminate].
  destruct (get_file_spec _ _ _ _ _ GF) as (_ & k & t & _ & _ & N & NI & _ & F). cbv zeta in *.
  destruct (add_timer v y2 1000 _) as [[ts|] y3] eqn:A1; [|discriminate]. apply fs_add in A1.
  destruct (add_timer v y3 1000 _) as [[tf|] y4] eqn:A2; [|inv_bind H; discriminate]. apply fs_add in A2. injection H as <- <-. cbn [l_name set_timeouts set_file]. split; [|eauto].
  intros l e FS I E. rewrite A2, A1, F in FS. injection FS as <-. apply in_app_or in I. destruct I as [I|[<-|[]]]; auto. exfalso. apply NI. rewrite <- E. apply in_map. auto.
Qed.

Section Tele.
Variables (P : list Z -> Prop) (f : nat) (v : env) (fcu : Z) (R : packet -> list Z -> Prop).
Hypothesis names : forall k t, P (log_name k t ext_tlog).
(* what one message adds to the file *)
Hypothesis adds : forall y g p tail data, l_open g = true -> content y (l_name g) data -> l_off g = length data -> wf_packet p ->
  exists y' g' x, tele_write v y g (encode p ++ tail) (info_of (v_tbl v) p) = Ok (y', g') /\ R p x /\ content y' (l_name g') (data ++ x) /\ l_off g' = length (data ++ x) /\
    l_open g' = true /\ l_name g' = l_name g /\ l_mode g' = l_mode g /\ l_talive g' = l_talive g.

(* the logger after it was given [ps] *)
Definition tele_state (ps : list packet) (y : sys) (g : lg) : Prop :=
  l_talive g = None /\ l_ext g = ext_tlog /\
  (l_open g = false /\ l_mode g = MAlways /\ l_target g = fcu /\ covered fcu ps = [] \/
   l_open g = false /\ l_mode g = MDisabled \/
   l_open g = true /\ l_mode g = MAlways /\ P (l_name g) /\ covered fcu ps <> [] /\
     exists xs, Forall2 R (covered fcu ps) xs /\ kept_file y (l_name g) (concat xs) /\ l_off g = length (concat xs)).

Lemma state_spared : forall ps y g y', spared P y y' -> tele_state ps y g -> tele_state ps y' g.
Proof.
  intros ps y g y' [SP _] (A & X & [B|[B|(O & M & N & C & xs & F & K & L)]]); (split; [auto|]); (split; [auto|]); auto. right. right. repeat split; auto. exists xs. auto.
Qed.

Lemma covered_none : forall ps p, covered fcu ps = [] -> covered fcu (ps ++ [p]) = covered fcu [p].
Proof. induction ps as [|q ps IH]; intros p H; auto. cbn [covered app] in *. destruct (_ && _); [auto|discriminate]. Qed.
Lemma covered_more : forall ps p, covered fcu ps <> [] -> covered fcu (ps ++ [p]) = covered fcu ps ++ [p].
Proof. induction ps as [|q ps IH]; intros p H; [destruct H; auto|]. cbn [covered app] in *. destruct (_ && _); auto. Qed.
Lemma wrote_w : forall y g mem m y' g' n, tele_write v y g mem m = Ok (y', g') -> all_w y n -> all_w y' n.
Proof. intros y g mem m y' g' n H. apply calm_tele_write in H. destruct H. eapply touch_w; eauto. Qed.
Lemma wrote_ext : forall y g mem m y' g', tele_write v y g mem m = Ok (y', g') -> l_ext g' = l_ext g.
Proof. intros y g mem m y' g' H. apply calm_tele_write in H. destruct H. apply ca_cfg. Qed.

Lemma tele_event : forall ps y g p tail y' g' b' cs, sys_ok y -> linv y g -> tele_state ps y g -> wf_packet p -> levent f v y g BTele (LMsg p tail) = Ok (y', g', b', cs) ->
  b' = BTele /\ tele_state (ps ++ [p]) y' g'.
Proof.
  intros ps y g p tail y' g' b' cs S L (TA & EX & ST) W H. cbn [levent] in H. unfold lwrite in H.
  destruct (learn_same g (info_of (v_tbl v) p)) as (Q1 & Q2 & Q3 & Q4 & Q5). destruct (learn_ep g (info_of (v_tbl v) p)) as (_ & Q7 & _). set (g0 := learn_target g (info_of (v_tbl v) p)) in *.
  assert (Q6 : l_talive g0 = l_talive g) by (unfold g0, learn_target; destruct (_ && _); reflexivity).
  assert (PS : is_byte (p_sys p)) by apply W.
  destruct ST as [(O & M & T & C)|[(O & M)|(O & M & N & C & xs & F & K & LE)]].
  - assert (TG : l_target g0 = if (fcu =? -1) && autopilot_heartbeat p then p_sys p else fcu).
    { unfold g0, learn_target, autopilot_heartbeat. cbn [m_id m_scomp m_ssys info_of]. rewrite andb_assoc, T. destruct (_ && _ && _); auto. }
    destruct (Z.eqb_spec (l_target g0) (-1)) as [T0|T0].
    + unfold auto_start_stop in H. rewrite T0 in H. cbn [Z.eqb Pos.eqb bind] in H. rewrite tele_closed in H by congruence. cbn [bind] in H. injection H as <- <- <- <-. split; auto.
      assert (X : (fcu =? -1) && negb (autopilot_heartbeat p) = true).
      { rewrite TG in T0. unfold is_byte in PS. destruct (Z.eqb_spec fcu (-1)); destruct (autopilot_heartbeat p); cbn in *; auto; lia. }
      assert (FM : fcu = -1). { apply andb_prop in X. destruct X as [X _]. apply Z.eqb_eq in X. auto. }
      split; [congruence|]. split; [congruence|]. left. rewrite (covered_none ps p C). cbn [covered]. rewrite X. repeat split; congruence.
    + assert (X : (fcu =? -1) && negb (autopilot_heartbeat p) = false).
      { rewrite TG in T0. destruct (Z.eqb_spec fcu (-1)); destruct (autopilot_heartbeat p); cbn [andb negb] in *; auto; try congruence. }
      pose proof (learn_inv _ _ (info_of (v_tbl v) p) L) as L0. fold g0 in L0.
      destruct (log_start_spec v y g0 S L0) as (y1 & g1 & ok & LS & S1 & L1 & OW & SC & _ & _ & O1 & _ & F1).
      assert (AU : auto_start_stop f v y g0 BTele (encode p ++ tail) (info_of (v_tbl v) p) = Ok (y1, if ok then g1 else set_mode g1 MDisabled, BTele, [])).
      { unfold auto_start_stop. rewrite (proj2 (Z.eqb_neq _ _) T0), Q2, M, Q1, O. cbn [lstart]. rewrite LS. cbn [bind]. reflexivity. }
      rewrite AU in H. cbn [bind] in H. assert (EX1 : l_ext g1 = ext_tlog) by (destruct SC as (_ & SC & _); congruence). destruct ok.
      * destruct (start_content _ _ _ _ _ LS S) as (C1 & OF & OP & M1 & T1). destruct (start_w _ _ _ _ _ LS) as (W1 & k & t & NM).
        destruct (adds y1 g1 p tail [] OP C1 OF W) as (y2 & g2 & x & TW & RX & C2 & F2 & O2 & N2 & M2 & A2). rewrite TW in H. cbn [bind] in H. injection H as <- <- <- <-. split; auto.
        split; [congruence|]. split; [rewrite (wrote_ext _ _ _ _ _ _ TW); auto|]. right. right. split; auto. split; [congruence|].
        split. { rewrite N2, NM, Q7, EX. apply names. } rewrite (covered_none ps p C). cbn [covered]. rewrite X. split; [discriminate|]. exists [x]. split; [constructor; auto|].
        cbn [concat]. rewrite app_nil_r. split; [|exact F2]. apply kept_content. split; [exact C2|]. rewrite N2. eapply wrote_w; eauto.
      * assert (OC : l_open g1 = false) by (rewrite O1, Q1, O; reflexivity). destruct (li_closed _ _ L1 OC) as (_ & _ & TN).
        rewrite tele_closed in H by (cbn; auto). cbn [bind] in H. injection H as <- <- <- <-. split; auto. split; [exact TN|]. split; [exact EX1|]. right. left. split; [exact OC|reflexivity].
  - assert (AU : auto_start_stop f v y g0 BTele (encode p ++ tail) (info_of (v_tbl v) p) = Ok (y, g0, BTele, [])).
    { unfold auto_start_stop. rewrite Q2, M. destruct (_ =? _); reflexivity. }
    rewrite AU in H. cbn [bind] in H. rewrite tele_closed in H by congruence. cbn [bind] in H. injection H as <- <- <- <-. split; auto. split; [congruence|]. split; [congruence|]. right. left. split; congruence.
  - rewrite auto_idle in H by congruence. cbn [bind] in H. apply kept_content in K. destruct K as [K KW]. rewrite <- Q3 in K, KW.
    destruct (adds y g0 p tail (concat xs)) as (y2 & g2 & x & TW & RX & C2 & F2 & O2 & N2 & M2 & A2); auto; try congruence.
    rewrite TW in H. cbn [bind] in H. injection H as <- <- <- <-. split; auto. split; [congruence|]. split; [rewrite (wrote_ext _ _ _ _ _ _ TW); congruence|]. right. right. split; auto. split; [congruence|].
    split; [congruence|]. rewrite (covered_more ps p C). split; [destruct (covered fcu ps); discriminate|]. exists (xs ++ [x]). split; [apply Forall2_app; auto|].
    rewrite concat_app. cbn [concat]. rewrite app_nil_r. split; [|exact F2]. apply kept_content. split; [exact C2|]. rewrite N2. eapply wrote_w; eauto.
Qed.

(* the packets handed to endpoint [i] *)
Definition handed (i : nat) (its : list item) : list (list Z) :=
  flat_map (fun x => match x with IRecv _ bs _ _ ds => if existsb (Nat.eqb i) (map dl_to ds) then [bs] else [] | _ => [] end) its.
Lemma handed_app : forall i a b, handed i (a ++ b) = handed i a ++ handed i b.
Proof. intros. unfold handed. apply flat_map_app. Qed.
Lemma handed_none : forall i r, filter (concerns i) r = [] -> handed i r = [].
Proof.
  induction r as [|x r IH]; intros H; auto. cbn [filter] in H. destruct (concerns i x) eqn:C; [discriminate|]. cbn [handed flat_map]. fold (handed i r). rewrite (IH H), app_nil_r.
  destruct x; auto. cbn [concerns] in C. rewrite C. auto.
Qed.
Lemma handed_ctls : forall i r, only_ctls r -> handed i r = [].
Proof. induction r as [|x r IH]; intros H; auto. cbn [handed flat_map]. fold (handed i r). rewrite IH by (intros y Y; apply H; right; auto). destruct (H x (or_introl eq_refl)) as (j & bs & m & ds & ->). auto. Qed.

Definition tele_log (its : list item) (i : nat) (y : sys) (l : logger) : Prop :=
  exists g ps, l = LFile g BTele /\ Forall wf_packet ps /\ handed i its = map encode ps /\ tele_state ps y g.

Lemma tele_hist : forall i y l n y' l' cs, lhist P f v i y l n y' l' cs -> n = [] -> forall its, tele_log its i y l -> tele_log its i y' l'.
Proof.
  intros i y l n y' l' cs H. induction H; intros N its T; [auto|discriminate|]. apply IHlhist; auto. destruct T as (g & ps & -> & W & E & ST). exists g, ps. repeat split; auto; apply (state_spared _ _ _ _ H1 ST).
Qed.

Lemma tele_lives : forall i y l its y' l', lives P f v i y l its y' l' -> held y i l -> tele_log [] i y l -> tele_log its i y' l'.
Proof.
  intros i y l its y' l' H. induction H; intros Q T0; auto.
  - pose proof (lives_held _ _ _ _ _ _ _ _ _ H Q) as Q1. pose proof (held_hist _ _ _ _ _ _ _ H0 Q1) as Q2. pose proof (tele_hist _ _ _ _ _ _ _ H0 eq_refl _ (IHlives Q T0)) as (g & ps & -> & W & E & ST).
    eapply tele_hist; [eassumption|reflexivity|]. cbn [kevent] in H4. inv_bind H4. injection H4 as <- <- <-. destruct Q2 as [S [_ L]].
    rewrite (app_assoc its [x] r) || idtac. unfold tele_log. change (x :: r) with ([x] ++ r). rewrite !handed_app, (handed_ctls i r H5), app_nil_r. destruct e as [p tail| |].
    + destruct x as [|j bs m d ds| |t cb| |]; try contradiction; [|destruct cb; contradiction]. destruct H2 as (WP & -> & _). destruct (tele_event _ _ _ _ _ _ _ _ _ S L ST WP E0) as [-> ST'].
      eexists. exists (ps ++ [p]). split; [reflexivity|]. split; [apply Forall_app; auto|]. split; auto. rewrite map_app, E. f_equal. cbn [handed flat_map]. cbn [concerns] in H1. rewrite H1. auto.
    + assert (LE : levent f v y2 g BTele LStart = Ok (y2, g, BTele, [])) by (cbn; destruct (l_tstart g); reflexivity). rewrite LE in E0. injection E0 as <- <- <- <-.
      eexists. exists ps. split; [reflexivity|]. split; auto. split; auto. rewrite E. destruct x as [| | |t []| |]; try contradiction. cbn [handed flat_map]. rewrite app_nil_r. auto.
    + destruct ST as (TA & ST). assert (LE : levent f v y2 g BTele LAlive = Ok (y2, g, BTele, [])) by (cbn; rewrite TA; reflexivity). rewrite LE in E0. injection E0 as <- <- <- <-.
      eexists. exists ps. split; [reflexivity|]. split; auto. split; [|split; auto]. rewrite E. destruct x as [| | |t []| |]; try contradiction. cbn [handed flat_map]. rewrite app_nil_r. auto.
  - pose proof (tele_hist _ _ _ _ _ _ _ H2 eq_refl _ (IHlives Q T0)) as (g & ps & -> & W & E & ST). exists g, ps. split; auto. split; auto. split; auto. rewrite handed_app, (handed_none i r H0), app_nil_r. auto.
Qed.
End Tele.
