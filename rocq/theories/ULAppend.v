(* An open log of the streaming logger is only written at its end. *)
From Verif Require Import RouterCtl RouterRoute RouterRoute2 RouterStep RouterLearn RouterHist RouterBytes.
From Verif Require Import Base Mav SpecCrc SpecFrame Frame FrameProofs Names NamesProofs Sys LogFile LogFileProofs ULog Loggers LogInv LogStep SpecLog SpecULog LogRun LogModes LogModes2
  ExFrame Accept BinProofs ULogProofs ULogStream ULogRun ULogMore CrcProofs Prop_LogModes Prop_BinLog Prop_ULog Prop_ULogEx Prop_TLog Prop_ULogNew SpecVehicle ULogVehicle Prop_ULogFile SpecAsk LogAsk LogAsk2 LogAsk3 Prop_Ask
  Router RouterSetup RouterActs RouterInv RouterStart RouterTimers2 RouterLogs RouterTimers SpecRouter LogHist RouterLives ExRouter SpecTalk SpecSession LogLive LogLive2 Prop_Dialogue LogSpare TeleRun BinRun Prop_BinRun Prop_ULAck ULRun.

Section Events.
Variable P : list Z -> Prop.
Hypothesis names : forall k t, P (log_name k t ext_ulg).

(* the open file, if there is one, is a log of this logger, and the next write goes to its end *)
Definition sound (y : sys) (g : lg) : Prop := l_open g = true -> P (l_name g) /\ all_w y (l_name g) /\ exists d, at_end y g d.
(* unless a stop was requested, an open file is still open, and has at most grown *)
Definition grow (y : sys) (g : lg) (y' : sys) (g' : lg) (cs : list ctl) : Prop := sound y g ->
  sound y' g' /\ (l_open g = true -> ~ told cs -> l_open g' = true /\ l_name g' = l_name g /\ forall d, content y (l_name g) d -> exists m, content y' (l_name g) (d ++ m)).

Lemma grow_same : forall y g y' g' cs, y_fs y' = y_fs y -> l_open g' = l_open g -> l_name g' = l_name g -> l_off g' = l_off g -> grow y g y' g' cs.
Proof.
  intros y g y' g' cs E1 E2 E3 E4 S. split.
  - intros O. rewrite E2 in O. destruct (S O) as (A & B & d & [C1 C2 C3]). rewrite E3. split; auto. split. { intros l e X. rewrite E1 in X. apply B; auto. }
    exists d. split; [congruence|rewrite E3; eapply content_fs; eauto|congruence].
  - intros O _. split; [congruence|]. split; auto. intros d C. exists []. rewrite app_nil_r. eapply content_fs; eauto.
Qed.
Lemma grow_refl : forall y g, grow y g y g []. Proof. intros. apply grow_same; auto. Qed.
Lemma grow_trans : forall y g y1 g1 c1 y2 g2 c2, grow y g y1 g1 c1 -> grow y1 g1 y2 g2 c2 -> grow y g y2 g2 (c1 ++ c2).
Proof.
  intros y g y1 g1 c1 y2 g2 c2 A B S. destruct (A S) as (S1 & A1). destruct (B S1) as (S2 & B1). split; auto. intros O N. rewrite told_app in N.
  destruct A1 as (O1 & N1 & G1); auto. destruct B1 as (O2 & N2 & G2); auto. split; auto. split; [congruence|]. intros d C. destruct (G1 d C) as (m & C1). rewrite N1 in G2. destruct (G2 _ C1) as (m2 & C2).
  exists (m ++ m2). rewrite app_assoc. auto.
Qed.
Lemma grow_trans0 : forall y g y1 g1 y2 g2, grow y g y1 g1 [] -> grow y1 g1 y2 g2 [] -> grow y g y2 g2 [].
Proof. intros. apply (grow_trans _ _ _ _ [] _ _ []) with (1 := H); auto. Qed.
Lemma grow_quiet : forall y g y' g' cs, grow y g y' g' [] -> grow y g y' g' cs.
Proof. intros y g y' g' cs G S. destruct (G S) as (A & B). split; auto. intros O _. apply B; auto. apply told_nil. Qed.
Lemma grow_after : forall y g y1 g1 y' g' cs, grow y g y1 g1 cs -> y_fs y' = y_fs y1 -> l_open g' = l_open g1 -> l_name g' = l_name g1 -> l_off g' = l_off g1 -> grow y g y' g' cs.
Proof. intros. rewrite <- (app_nil_r cs). eapply grow_trans; eauto. apply grow_same; auto. Qed.

(* ---- writing ---- *)
Lemma grow_write : forall v y g bs r y' g', file_write v y g (l_off g) bs = (r, y', g') -> grow y g y' g' [].
Proof.
  intros v y g bs r y' g' W S. pose proof (calm_file_write _ _ _ _ _ _ _ _ W) as [_ _ _ _ O NM _ _ _ FS]. destruct (l_open g) eqn:G. 2:{ split; [intros X; congruence|discriminate]. }
  destruct (S G) as (A & B & d & C). destruct (write_end _ _ _ _ _ _ _ _ C W) as (_ & _ & D).
  assert (E : exists m, at_end y' g' (d ++ m)). { destruct D as [(_ & _ & D)|(_ & _ & D)]; [exists []; rewrite app_nil_r; auto|eauto]. }
  destruct E as (m & E). split.
  - intros _. rewrite NM. split; auto. split; [eapply touch_w; eauto|eauto].
  - intros _ _. split; auto. split; auto. intros d' C'. rewrite (content_unique _ _ _ _ C' (ae_data _ _ _ C)). exists m. rewrite <- NM. apply E.
Qed.
Lemma grow_flush_part : forall f v y g u y' g' u' r, flush_part f v y g u = Ok (y', g', u', r) -> grow y g y' g' [].
Proof.
  induction f; intros v y g u y' g' u' r H; cbn [flush_part] in H; destruct (u_plen u =? 0); try discriminate;
  try (inversion H; subst; apply grow_refl).
  inv_bind H. destruct (file_write v y g (l_off g) a) as [[r0 y1] g1] eqn:W. apply grow_write in W.
  destruct ((r0 =? 0) || (r0 =? - EAGAIN)). { inversion H; subst; auto. }
  destruct (r0 <? 0). { inversion H; subst; auto. }
  inv_bind H. eapply grow_trans0; eauto.
Qed.
Lemma grow_flush_msgs : forall f v y g u y' g' u' r, flush_msgs f v y g u = Ok (y', g', u', r) -> grow y g y' g' [].
Proof.
  induction f; intros v y g u y' g' u' r H; cbn [flush_msgs] in H; destruct (negb _); try discriminate;
  try (inversion H; subst; apply grow_refl).
  inv_bind H. inv_bind H. destruct (u_len u <? _). { inversion H; subst; apply grow_refl. }
  inv_bind H. destruct (file_write v y g (l_off g) a1) as [[r0 y1] g1] eqn:W. apply grow_write in W.
  destruct (r0 =? _). { eapply grow_trans0; eauto. }
  destruct ((r0 =? 0) || (r0 =? - EAGAIN)). { inversion H; subst; auto. }
  destruct (r0 <? 0). { inversion H; subst; auto. }
  destruct (_ <? _). { inversion H; subst; auto. }
  inv_bind H. inv_bind H. inversion H; subst; auto.
Qed.
Lemma grow_flush : forall f v y g u y' g' u' r, ul_flush f v y g u = Ok (y', g', u', r) -> grow y g y' g' [].
Proof.
  intros f v y g u y' g' u' r H. unfold ul_flush in H. inv_bind H. apply grow_flush_part in E.
  destruct o. { inversion H; subst; auto. } eapply grow_trans0; eauto. eapply grow_flush_msgs; eauto.
Qed.
Lemma grow_ul_data : forall f v y g u mm b d y' g' u' mm', ul_data f v y g u mm b d = Ok (y', g', u', mm') -> grow y g y' g' [].
Proof.
  intros f v y g u mm b d y' g' u' mm' H. unfold ul_data in H. inv_bind H.
  assert (C : grow y g s l []).
  { destruct d.
    - inv_bind E. apply grow_flush in E0. inversion E; subst; auto.
    - inversion E; subst. apply grow_refl. }
  inv_bind H. inv_bind H. inv_bind H. destruct (_ && _). { inversion H; subst; auto. }
  destruct (a =? 0). { inversion H; subst; auto. }
  inv_bind H. inv_bind H. inv_bind H. inv_bind H. inversion H; subst. eapply grow_trans0; eauto. eapply grow_flush; eauto.
Qed.

(* ---- stop() and start() ---- *)
Lemma grow_stop : forall f v y g u y' g' b' cs, lstop f v y g (BULog u) = Ok (y', g', b', cs) -> grow y g y' g' cs.
Proof.
  intros f v y g u y' g' b' cs H S. destruct (lstop_fresh _ _ _ _ _ _ _ _ _ H) as (_ & (_ & F & _) & O1 & _). split; [intros X; congruence|].
  intros O N. exfalso. apply N. eapply told_stopped. apply F; auto. discriminate.
Qed.
Lemma grow_start : forall v y g u y' g' b' ok cs, lstart v y g (BULog u) = Ok (y', g', b', ok) -> sys_ok y -> linv y g -> l_ext g = ext_ulg -> l_open g = false -> grow y g y' g' cs.
Proof.
  intros v y g u y' g' b' ok cs H S L X O _. destruct (start_begun P names _ _ _ _ _ _ _ _ H S L X O) as (u' & -> & OP & BG). split; [|congruence].
  intros Q. destruct BG as (A & B & C & D & E & _); [congruence|]. split; auto. split; auto. exists []. split; auto.
Qed.
Lemma grow_restart : forall f v y g u y1 g1 b1 cs y' g' b' ok, lstop f v y g (BULog u) = Ok (y1, g1, b1, cs) -> lstart v y1 g1 b1 = Ok (y', g', b', ok) -> sys_ok y -> linv y g -> l_ext g = ext_ulg -> grow y g y' g' cs.
Proof.
  intros f v y g u y1 g1 b1 cs y' g' b' ok SP ST S L X. pose proof (lstop_fresh _ _ _ _ _ _ _ _ _ SP) as (_ & _ & O1 & _ & PR). destruct b1 as [|u1|]; try discriminate PR.
  destruct (step_lstop _ _ _ _ _ _ _ _ _ SP) as [S1 L1 _ K1]. destruct (K1 S L) as (_ & X1 & _).
  rewrite <- (app_nil_r cs). eapply grow_trans; [eapply grow_stop; eauto|]. eapply grow_start; eauto. congruence.
Qed.
Lemma grow_ul_restart : forall f v y g u y' g' u' cs, ul_restart f v y g u = Ok (y', g', u', cs) -> sys_ok y -> linv y g -> l_ext g = ext_ulg -> grow y g y' g' cs.
Proof.
  intros f v y g u y' g' u' cs H S L X. unfold ul_restart in H. inv_bind H. inv_bind H. injection H as <- <- <- <-.
  assert (X1 : lstop f v y g (BULog u) = Ok (s, l0, BULog u0, l)) by (cbn [lstop]; rewrite E; reflexivity).
  assert (X2 : lstart v s l0 (BULog u0) = Ok (s0, l1, BULog u1, b)) by (cbn [lstart]; rewrite E0; reflexivity).
  eapply grow_restart; eauto.
Qed.

(* ---- messages ---- *)
Lemma grow_process : forall f v y g u mm b y' g' u' mm' cs, ul_process f v y g u mm b = Ok (y', g', u', mm', cs) -> sys_ok y -> linv y g -> l_ext g = ext_ulg -> grow y g y' g' cs.
Proof.
  intros f v y g u mm b y' g' u' mm' cs H S L X. unfold ul_process in H. inv_bind H. inv_bind H.
  destruct (logging_seq u _) as [[u1 d]|]. 2:{ injection H as <- <- <- <- <-. apply grow_refl. }
  assert (RS : forall u0 y' g' u' cs, ul_restart f v y g u0 = Ok (y', g', u', cs) -> grow y g y' g' cs) by (intros; eapply grow_ul_restart; eauto).
  assert (DD : forall u0 m y' g' u' mm' cs, (let* (y, g, u, mm) := ul_data f v y g u0 m b d in Ok (y, g, u, mm, @nil ctl)) = Ok (y', g', u', mm', cs) -> grow y g y' g' cs).
  { intros u0 m ya ga ua ma ca Q. inv_bind Q. injection Q as <- <- <- <- <-. eapply grow_ul_data; eauto. }
  destruct (u_hdr u1); [|eapply DD; eauto].
  inv_bind H. destruct (_ <? 16). { inv_bind H. injection H as <- <- <- <- <-. eapply RS; eauto. }
  inv_bind H. destruct (negb _). { inv_bind H. injection H as <- <- <- <- <-. eapply RS; eauto. }
  inv_bind H. inv_bind H. inv_bind H. inv_bind H. eapply DD; eauto.
Qed.
Lemma grow_ul_write : forall f v y g u mem m y' g' u' mem' cs, ul_write f v y g u mem m = Ok (y', g', u', mem', cs) -> sys_ok y -> linv y g -> l_ext g = ext_ulg -> grow y g y' g' cs.
Proof.
  intros f v y g u mem m y' g' u' mem' cs H S L X. destruct ((m_id m =? 266) || (m_id m =? 267)) eqn:D.
  2:{ apply orb_false_elim in D. destruct D as [D1 D2]. apply Z.eqb_neq in D1. apply Z.eqb_neq in D2. destruct (other_write _ _ _ _ _ _ _ _ _ _ _ _ H D1 D2) as (-> & A & B & C & E & _). apply grow_same; auto. }
  unfold ul_write in H. assert (N77 : m_id m =? 77 = false) by lia. assert (C : negb ((m_id m =? 77) || (m_id m =? 266) || (m_id m =? 267)) = false) by lia. rewrite C, N77 in H.
  destruct (v_tbl v (m_id m)). 2:{ injection H as <- <- <- <- <-. apply grow_refl. }
  inv_bind H. inv_bind H. rename E0 into A.
  assert (CA : calm y g s l0 /\ grow y g s l0 []).
  { destruct (m_id m =? 267). 2:{ injection A as <- <- <-. split; [apply calm_refl|apply grow_refl]. }
    inv_bind A. inv_bind A. destruct (send_ctl y g 268 14 _) as [[ya ga] c] eqn:SC. injection A as <- <- <-. split; [eapply calm_send_ctl; eauto|].
    unfold send_ctl in SC. pose proof (f_equal (fun t => fst (fst t)) SC) as C1. pose proof (f_equal (fun t => snd (fst t)) SC) as C2. cbn [fst snd] in C1, C2. subst. apply grow_same; reflexivity. }
  destruct CA as [CA N]. pose proof (calm_sys _ _ _ _ CA S) as S1. pose proof (calm_linv _ _ _ _ CA L) as L1. assert (X1 : l_ext l0 = ext_ulg) by (rewrite <- X; apply (ca_cfg _ _ _ _ CA)).
  assert (N' : grow y g s l0 l) by (apply grow_quiet; auto).
  destruct (_ =? 0).
  - inv_bind H. injection H as <- <- <- <- <-. eapply grow_trans; eauto. eapply grow_after; [eapply grow_process; eauto|reflexivity..].
  - inv_bind H. inv_bind H. injection H as <- <- <- <- <-. eapply grow_trans; eauto. eapply grow_after; [eapply grow_process; eauto|reflexivity..].
Qed.
Lemma grow_auto : forall f v y g u mem m y' g' b' cs, auto_start_stop f v y g (BULog u) mem m = Ok (y', g', b', cs) -> sys_ok y -> linv y g -> l_ext g = ext_ulg -> grow y g y' g' cs.
Proof.
  intros f v y g u mem m y' g' b' cs H S L X. unfold auto_start_stop in H.
  assert (NO : Ok (y, g, BULog u, @nil ctl) = Ok (y', g', b', cs) -> grow y g y' g' cs).
  { intros Q. injection Q as <- <- <- <-. apply grow_refl. }
  assert (ST : l_open g = false -> (let* (y, g, b, ok) := lstart v y g (BULog u) in Ok (y, if ok then g else set_mode g MDisabled, b, @nil ctl)) = Ok (y', g', b', cs) -> grow y g y' g' cs).
  { intros O Q. inv_bind Q. injection Q as <- <- <- <-. eapply grow_after; [eapply grow_start; eauto|..]; match goal with |- context [if ?o then _ else _] => destruct o | _ => idtac end; reflexivity. }
  destruct (l_target g =? -1); auto. destruct (l_mode g); auto.
  - destruct (l_open g) eqn:O; auto.
  - destruct (_ && _); auto. inv_bind H. destruct (l_open g) eqn:O; cbn [negb andb] in H.
    + destruct (negb _); auto. eapply grow_stop; eauto.
    + destruct (128 <=? a); auto.
Qed.
Lemma grow_event : forall f v y g u e y' g' b' cs, levent f v y g (BULog u) e = Ok (y', g', b', cs) -> sys_ok y -> linv y g -> l_ext g = ext_ulg -> grow y g y' g' cs.
Proof.
  intros f v y g u e y' g' b' cs H S L X. destruct e as [p tail| |]; cbn [levent] in H.
  - inv_bind H. injection H as <- <- <- <-. unfold lwrite in E. destruct (learn_same g (info_of (v_tbl v) p)) as (Q1 & Q2 & Q3 & Q4 & Q5).
    pose proof (learn_inv _ _ (info_of (v_tbl v) p) L) as L0. assert (X0 : l_ext (learn_target g (info_of (v_tbl v) p)) = ext_ulg) by (unfold learn_target; destruct (_ && _); auto).
    assert (G0 : grow y g y (learn_target g (info_of (v_tbl v) p)) []) by (apply grow_same; auto). set (g0 := learn_target g (info_of (v_tbl v) p)) in *. clearbody g0.
    inv_bind E. rename E0 into A. pose proof (grow_auto _ _ _ _ _ _ _ _ _ _ _ A S L0 X0) as GA. destruct (auto_strong P names _ _ _ _ _ _ _ _ _ _ _ A S L0 X0) as (u1 & -> & _). pose proof (step_auto _ _ _ _ _ _ _ _ _ _ _ A) as [B1 B2 _ B4].
    destruct (B4 S L0) as (_ & X1 & _). inv_bind E. injection E as <- <- <- <- <-. rename E0 into W.
    pose proof (grow_ul_write _ _ _ _ _ _ _ _ _ _ _ _ W (B1 S L0) (B2 S L0) ltac:(congruence)) as GW. apply (grow_trans _ _ _ _ [] _ _ _ G0). eapply grow_trans; eauto.
  - destruct (l_tstart g). 2:{ injection H as <- <- <- <-. apply grow_refl. }
    cbn [lcb_start] in H. destruct (send_command y g CMD_LOGGING_START) as [[y1 g1] c] eqn:SC. injection H as <- <- <- <-.
    unfold send_command, send_ctl in SC. pose proof (f_equal (fun t => fst (fst t)) SC) as C1. pose proof (f_equal (fun t => snd (fst t)) SC) as C2. cbn [fst snd] in C1, C2. apply grow_same; subst; reflexivity.
  - destruct (l_talive g). 2:{ injection H as <- <- <- <-. apply grow_refl. }
    unfold lcb_alive in H. inv_bind H. injection H as <- <- <- <-. destruct (l_mark g =? l_wtotal g).
    + inv_bind E. inv_bind E. injection E as <- <- <- <-. eapply grow_after; [eapply grow_restart; eauto|reflexivity..].
    + injection E as <- <- <- <-. apply grow_same; auto.
Qed.
End Events.

(* ---- along the run ------------------------------------------------------------------------------------------------------ *)
Section Run.
Variables (P : list Z -> Prop) (f : nat) (v : env) (i : nat).
Hypothesis names : forall k t, P (log_name k t ext_ulg).

Definition lsound (y : sys) (l : logger) : Prop := match inner l with Some (g, BULog _) => l_ext g = ext_ulg /\ sound P y g | _ => True end.
(* the open file [n], which held [d], has at most grown *)
Definition grown (n d : list Z) (y : sys) (l : logger) : Prop := exists g u m, inner l = Some (g, BULog u) /\ l_open g = true /\ l_name g = n /\ content y n (d ++ m).

Lemma spared_sound : forall y y' g, spared P y y' -> sound P y g -> sound P y' g.
Proof.
  intros y y' g SP S O. destruct (S O) as (A & B & d & [C1 C2 C3]). assert (K : kept_file y (l_name g) d) by (apply kept_content; auto). apply SP in K; auto. apply kept_content in K. destruct K as [K1 K2].
  split; auto. split; auto. exists d. split; auto.
Qed.
Lemma sound_hist : forall y l n y' l' cs, lhist P f v i y l n y' l' cs -> n = [] -> lsound y l -> lsound y' l' /\ forall a d, grown a d y l -> grown a d y' l'.
Proof.
  intros y l n y' l' cs H. induction H; intros N T; [auto|discriminate|].
  assert (X : lsound y1 l /\ forall a d, grown a d y l -> grown a d y1 l).
  { unfold lsound, grown in *. split. { destruct (inner l) as [[g []]|]; auto. destruct T. split; auto. eapply spared_sound; eauto. }
    intros a d (g & u & m & I & O & NM & C). rewrite I in T. destruct T as [_ T]. destruct (T O) as (A & B & _). exists g, u, m. split; auto. split; auto. split; auto.
    assert (K : kept_file y a (d ++ m)) by (apply kept_content; subst a; auto). apply H1 in K; [|subst a; auto]. apply kept_content in K. apply K. }
  destruct X as [X1 X2]. destruct (IHlhist N X1) as [Y1 Y2]. split; auto.
Qed.
Lemma sound_event : forall y l e y' l' cs, kevent f v y l e = Ok (y', l', cs) -> held y i l -> lsound y l -> lsound y' l' /\ (~ told cs -> forall a d, grown a d y l -> grown a d y' l').
Proof.
  intros y l e y' l' cs H HE OK. unfold lsound in *. destruct (inner l) as [[g b]|] eqn:I.
  - destruct (kevent_inner _ _ _ _ _ _ _ _ _ _ H I) as (g' & b' & LE & I'). rewrite I'. destruct b as [a|u|].
    1,3: destruct (kevent_keeps _ _ _ _ _ _ _ _ H _ _ I) as (g2 & b2 & I2 & PR); rewrite I' in I2; injection I2 as <- <-; (split; [destruct b'; auto; discriminate PR|]); intros _ a0 d0 (g3 & u3 & m3 & I3 & _); rewrite I in I3; discriminate I3.
    destruct OK as (EX & SD). destruct (held_linv _ _ _ _ _ HE I) as (_ & LI). destruct HE as [SYS _].
    destruct (grow_event P names _ _ _ _ _ _ _ _ _ _ LE SYS LI EX SD) as (SD' & G). destruct (event_weak P names _ _ _ _ _ _ _ _ _ _ LE SYS LI EX) as (u' & -> & _).
    destruct (levent_step _ _ _ _ _ _ _ _ _ _ LE SYS LI) as (_ & _ & _ & _ & EX' & _). split. { split; auto. congruence. }
    intros NT a d (g3 & u3 & m3 & I3 & O & NM & C). rewrite I in I3. injection I3 as <- <-. destruct (G O NT) as (O' & NM' & G1). rewrite NM in *. destruct (G1 _ C) as (m & C'). exists g', u', (m3 ++ m). split; auto. split; auto. split; auto. rewrite app_assoc. auto.
  - destruct (none_new f v _ _ _ _ _ _ H I) as (_ & IN). split. { destruct IN as [->|(g & b & -> & O & X)]; auto. destruct b; auto. destruct X as [X1 X2]. split; auto. intros Q. congruence. }
    intros _ a d (g3 & u3 & m3 & I3 & _). rewrite I in I3. discriminate I3.
Qed.
Lemma lives_sound : forall y l its y' l', lives P f v i y l its y' l' -> held y i l -> lsound y l ->
  lsound y' l' /\ ((forall s, In s its -> ~ stops Streaming i s) -> forall a d, grown a d y l -> grown a d y' l').
Proof.
  intros y l its y' l' H. induction H; intros Q S; auto.
  - destruct (IHlives Q S) as (S1 & G1). pose proof (lives_held _ _ _ _ _ _ _ _ _ H Q) as Q1. pose proof (held_hist _ _ _ _ _ _ _ H0 Q1) as Q2.
    destruct (sound_hist _ _ _ _ _ _ H0 eq_refl S1) as (S2 & G2). destruct (sound_event _ _ _ _ _ _ H4 Q2 S2) as (S3 & G3). destruct (sound_hist _ _ _ _ _ _ H7 eq_refl S3) as (S4 & G4). split; auto.
    intros N a d G. apply G4, G3. { rewrite <- H6. rewrite told_item. intros (s & IS & X). apply (N s); auto. apply in_or_app. right. right. auto. }
    apply G2, G1; auto. intros s IS. apply N. apply in_or_app. auto.
  - destruct (IHlives Q S) as (S1 & G1). destruct (sound_hist _ _ _ _ _ _ H2 eq_refl S1) as (S2 & G2). split; auto. intros N a d G. apply G2, G1; auto. intros s IS. apply N. apply in_or_app. auto.
Qed.
End Run.

(* ---- two points of a run ------------------------------------------------------------------------------------------------ *)
Definition lived (P : list Z -> Prop) (f : nat) (v : env) (i : nat) (y0 : sys) (l0 : logger) (h : list item) (w : world) : Prop :=
  Inv w /\ (exists arm, T v arm w) /\ clean i w /\ others i P w /\ exists l, at_log i w l /\ lives P f v i y0 l0 h (w_sys w) l.
Lemma lived_act : forall P f v i y0 l0 h w its w', wf_table (v_tbl v) -> lived P f v i y0 l0 h w -> act f v w its w' -> lived P f v i y0 l0 (h ++ its) w'.
Proof.
  intros P f v i y0 l0 h w its w' WT (I & (arm & Tw) & C & SO & l & AL & LV) A.
  assert (TL : the_log i w) by (destruct AL as (e & L & K); exists e; split; auto; unfold is_log; rewrite K; auto).
  destruct (act_evolve i P f v arm w its w' WT A I Tw C SO TL) as (O' & evs & EV & HE).
  destruct (lives_step _ _ _ _ _ _ _ _ _ _ _ _ WT A I AL EV HE LV) as (l2 & AL2 & LV2).
  split; [eapply inv_act; eauto|]. split; [exists (arms arm its); apply (act_T f v w its w' WT A I); auto|]. split; [eapply clean_kinds; eauto using act_kinds|]. split; auto. eauto.
Qed.
Lemma lives_from : forall f v c its w lc its2 w2, wf_table (v_tbl v) -> RouterSetup.runs f v c its w -> cf_log c = Some lc -> acts f v w its2 w2 ->
  exists y0 l0 l l2, new_flight c lc l0 /\ held y0 (flight c) l0 /\ lives flight_names f v (flight c) y0 l0 its (w_sys w) l /\ at_log (flight c) w l /\
    lives flight_names f v (flight c) (w_sys w) l its2 (w_sys w2) l2 /\ at_log (flight c) w2 l2.
Proof.
  intros f v c its w lc its2 w2 WT (d & pos & w0 & ST & E) CL A. pose proof (start_T _ _ _ _ _ ST) as T0. destruct (start_flight _ _ _ _ _ ST CL) as ((l0 & AL0 & NF) & C0 & SO0).
  assert (X0 : lived flight_names f v (flight c) (w_sys w0) l0 [] w0). { split; [eapply inv_start; eauto|]. split; [eauto|]. split; auto. split; auto. exists l0. split; auto. constructor. }
  destruct (exec_inv f v (lived flight_names f v (flight c) (w_sys w0) l0) (fun h w its w' => lived_act _ _ _ _ _ _ h w its w' WT) _ _ _ E X0) as (I & Tw & C & SO & l & AL & LV).
  assert (X1 : lived flight_names f v (flight c) (w_sys w) l [] w). { split; auto. split; auto. split; auto. split; auto. exists l. split; auto. constructor. }
  destruct (acts_ind_inv f v (lived flight_names f v (flight c) (w_sys w) l) (fun h w its w' => lived_act _ _ _ _ _ _ h w its w' WT) _ _ _ A [] X1) as (_ & _ & _ & _ & l2 & AL2 & LV2).
  exists (w_sys w0), l0, l, l2. destruct (T_log_timers _ _ _ _ _ T0 AL0) as [Sy TO]. split; auto. split; [split; auto|]. auto.
Qed.
