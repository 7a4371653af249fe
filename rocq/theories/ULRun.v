(* The streaming logger along the run of the program: what happens to its file. *)
From Verif Require Import Base Mav SpecCrc SpecFrame Frame FrameProofs Names NamesProofs Sys LogFile LogFileProofs ULog Loggers LogInv LogStep SpecLog SpecULog LogRun LogModes LogModes2 BinProofs ULogProofs ULogStream ULogRun ULogMore
  Prop_LogModes Prop_TLog Prop_BinLog Prop_ULog Prop_ULogNew SpecVehicle ULogVehicle SpecAsk LogAsk LogAsk2 LogAsk3 Router RouterStep RouterTimers LogSpare LogHist SpecTalk SpecSession LogLive LogLive2 TeleRun.

(* among these messages is a stop request *)
Definition told (cs : list ctl) : Prop := exists c t, In c cs /\ stop_request Streaming t (fst c).
Lemma told_app : forall a b, told (a ++ b) <-> told a \/ told b.
Proof.
  intros a b. split.
  - intros (c & t & I & S). apply in_app_or in I. destruct I; [left|right]; exists c, t; auto.
  - intros [(c & t & I & S)|(c & t & I & S)]; exists c, t; split; auto; apply in_or_app; auto.
Qed.
Lemma told_nil : ~ told []. Proof. intros (c & t & [] & _). Qed.
Lemma told_stopped : forall t cs, stopped Streaming t cs -> told cs.
Proof. intros t cs (c & I & S). exists c, (t mod 256). auto. Qed.
Lemma not_told_one : forall c, (forall t, ~ stop_request Streaming t (fst c)) -> ~ told [c].
Proof. intros c N (c' & t & [<-|[]] & S). apply (N t S). Qed.

Section Events.
Variable P : list Z -> Prop.
Hypothesis names : forall k t, P (log_name k t ext_ulg).

(* an empty log has just been opened *)
Definition begun (y : sys) (g : lg) (u : ulst) : Prop :=
  l_open g = true /\ P (l_name g) /\ all_w y (l_name g) /\ l_off g = 0%nat /\ content y (l_name g) [] /\
  exists buf part, u = mkUl 0 true false buf 0 0 part 0.
(* the same log before and after; without log data ([d = false]) nothing else changed *)
Definition still (d : bool) (y : sys) (g : lg) (u : ulst) (y' : sys) (g' : lg) (u' : ulst) (cs : list ctl) : Prop :=
  l_open g = true /\ l_open g' = true /\ ~ told cs /\ l_name g' = l_name g /\ touch (l_name g) (y_fs y) (y_fs y') /\
  (d = false -> u' = u /\ y_fs y' = y_fs y /\ l_off g' = l_off g).
Definition renewed (y : sys) (g : lg) (y' : sys) (g' : lg) (u' : ulst) (cs : list ctl) : Prop :=
  (l_open g = false \/ told cs) /\ (l_open g' = true -> begun y' g' u').
Definition strong d y g u y' g' u' cs : Prop := still d y g u y' g' u' cs \/ renewed y g y' g' u' cs.
Definition weak (d : bool) y g u y' g' u' cs : Prop :=
  still d y g u y' g' u' cs \/ (l_open g = false \/ told cs) /\ (l_open g' = true -> d = false \/ told cs -> begun y' g' u').

Lemma begun_same : forall y g u y' g', begun y g u -> y_fs y' = y_fs y -> l_open g' = l_open g -> l_name g' = l_name g -> l_off g' = l_off g -> begun y' g' u.
Proof.
  intros y g u y' g' (A & B & C & D & E & F) E1 E2 E3 E4. split; [congruence|]. rewrite E3. split; auto. split. { intros l e X. rewrite E1 in X. apply C; auto. }
  split; [congruence|]. split; auto. eapply content_fs; eauto.
Qed.
Lemma strong_weak : forall d y g u y' g' u' cs, strong d y g u y' g' u' cs -> weak d y g u y' g' u' cs.
Proof. intros d y g u y' g' u' cs [H|(A & B)]; [left; auto|right]. split; auto. Qed.
Lemma calm_strong : forall y g u y' g' u' cs, calm y g y' g' -> ~ told cs -> strong true y g u y' g' u' cs.
Proof.
  intros y g u y' g' u' cs C N. destruct C as [_ _ _ _ O NM _ _ _ FS]. destruct (l_open g) eqn:G.
  - left. split; auto. split; auto. split; auto. split; auto. split; auto. discriminate.
  - right. split; auto. congruence.
Qed.
Lemma same_strong : forall d y g u y' g' cs, y_fs y' = y_fs y -> l_open g' = l_open g -> l_name g' = l_name g -> l_off g' = l_off g -> ~ told cs -> strong d y g u y' g' u cs.
Proof.
  intros d y g u y' g' cs E1 E2 E3 E4 N. destruct (l_open g) eqn:G.
  - left. split; auto. split; auto. split; auto. split; auto. split; auto. rewrite E1. apply touch_refl.
  - right. split; auto. congruence.
Qed.
Lemma strong_before : forall y g u y1 g1 u1 y' g' u' c1 cs, calm y g y1 g1 -> ~ told c1 -> strong true y1 g1 u1 y' g' u' cs -> strong true y g u y' g' u' (c1 ++ cs).
Proof.
  intros y g u y1 g1 u1 y' g' u' c1 cs [_ _ _ _ O NM _ _ _ FS] N [(A & B & C & D & E & _)|(A & B)].
  - left. split; [congruence|]. split; auto. split. { rewrite told_app. tauto. } split; [congruence|]. rewrite NM in E. split; [eapply touch_trans; eauto|discriminate].
  - right. split; auto. rewrite told_app. destruct A; [left; congruence|auto].
Qed.
Lemma strong_after : forall d y g u y1 g1 y' g' u' cs, strong d y g u y1 g1 u' cs -> y_fs y' = y_fs y1 -> l_open g' = l_open g1 -> l_name g' = l_name g1 -> l_off g' = l_off g1 -> strong d y g u y' g' u' cs.
Proof.
  intros d y g u y1 g1 y' g' u' cs [(A & B & C & D & E & F)|(A & B)] E1 E2 E3 E4.
  - left. split; auto. split; [congruence|]. split; auto. split; [congruence|]. rewrite E1. split; auto. intros Q. destruct (F Q) as (F1 & F2 & F3). split; auto. split; congruence.
  - right. split; auto. rewrite E2. intros Q. eapply begun_same; eauto.
Qed.
Lemma strong_seq : forall d y g u y1 g1 u1 c1 y' g' u' c2, strong false y g u y1 g1 u1 c1 -> (l_open g1 = true -> c1 = []) -> strong d y1 g1 u1 y' g' u' c2 -> weak d y g u y' g' u' (c1 ++ c2).
Proof.
  intros d y g u y1 g1 u1 c1 y' g' u' c2 [(A1 & A2 & A3 & A4 & A5 & A6)|(A & B)] Q [(B1 & B2 & B3 & B4 & B5 & B6)|(C & D)].
  - left. destruct (A6 eq_refl) as (-> & F & O). split; auto. split; auto. split. { rewrite told_app. tauto. } split; [congruence|]. rewrite A4, F in B5. split; auto. intros X. destruct (B6 X) as (-> & F2 & O2). split; auto. split; congruence.
  - right. destruct C as [C|C]; [congruence|]. split; [right; apply told_app; auto|auto].
  - right. rewrite (Q B1) in *. cbn [app]. split. { destruct A as [A|A]; auto. destruct (told_nil A). } intros _ [X|X]; [|tauto]. destruct (B6 X) as (-> & F & O). eapply begun_same; [apply B; auto|auto|congruence|auto|auto].
  - right. split; auto. rewrite told_app. tauto.
Qed.

(* ---- stop() and start() ---- *)
Lemma start_begun : forall v y g u y' g' b' ok, lstart v y g (BULog u) = Ok (y', g', b', ok) -> sys_ok y -> linv y g -> l_ext g = ext_ulg -> l_open g = false ->
  exists u', b' = BULog u' /\ l_open g' = ok /\ (ok = true -> begun y' g' u').
Proof.
  intros v y g u y' g' b' ok H S L X O. cbn [lstart] in H. unfold ul_start in H.
  destruct (log_start_spec v y g S L) as (y1 & g1 & ok1 & LS & S1 & L1 & _ & SC & _ & _ & OP & _). rewrite LS in H. cbn [bind] in H. injection H as <- <- <- <-.
  rewrite O in OP. cbn [orb] in OP. exists (if ok1 then ul_reset u else u). split; auto. split; auto. intros ->.
  destruct (start_content _ _ _ _ _ LS S) as (C & F & O1 & _ & _). destruct (start_w _ _ _ _ _ LS) as (W & k & t & NM).
  split; auto. split. { rewrite NM, X. auto. } split; auto. split; auto. split; auto. exists (u_buf u), (u_part u). reflexivity.
Qed.
Lemma restart_strong : forall f v y g u y1 g1 b1 cs y' g' b' ok d, lstop f v y g (BULog u) = Ok (y1, g1, b1, cs) -> lstart v y1 g1 b1 = Ok (y', g', b', ok) -> sys_ok y -> linv y g -> l_ext g = ext_ulg ->
  exists u', b' = BULog u' /\ strong d y g u y' g' u' cs.
Proof.
  intros f v y g u y1 g1 b1 cs y' g' b' ok d SP ST S L X. destruct (lstop_fresh _ _ _ _ _ _ _ _ _ SP) as (_ & (_ & F & _) & O1 & _ & PR). destruct b1 as [|u1|]; try discriminate PR.
  destruct (step_lstop _ _ _ _ _ _ _ _ _ SP) as [S1 L1 _ K1]. destruct (K1 S L) as (_ & X1 & _).
  destruct (start_begun _ _ _ _ _ _ _ _ ST (S1 S L) (L1 S L)) as (u' & -> & OP & BG); [congruence|auto|]. exists u'. split; auto. right. split.
  - destruct (l_open g); auto. right. eapply told_stopped. apply F; auto. discriminate.
  - intros Q. apply BG. congruence.
Qed.
Lemma ul_restart_strong : forall f v y g u y' g' u' cs d, ul_restart f v y g u = Ok (y', g', u', cs) -> sys_ok y -> linv y g -> l_ext g = ext_ulg -> strong d y g u y' g' u' cs.
Proof.
  intros f v y g u y' g' u' cs d H S L X. unfold ul_restart in H. inv_bind H. inv_bind H. injection H as <- <- <- <-.
  assert (X1 : lstop f v y g (BULog u) = Ok (s, l0, BULog u0, l)) by (cbn [lstop]; rewrite E; reflexivity).
  assert (X2 : lstart v s l0 (BULog u0) = Ok (s0, l1, BULog u1, b)) by (cbn [lstart]; rewrite E0; reflexivity).
  destruct (restart_strong _ _ _ _ _ _ _ _ _ _ _ _ _ d X1 X2 S L X) as (u' & EQ & R). injection EQ as <-. exact R.
Qed.

(* ---- messages ---- *)
Lemma process_strong : forall f v y g u mm b y' g' u' mm' cs, ul_process f v y g u mm b = Ok (y', g', u', mm', cs) -> sys_ok y -> linv y g -> l_ext g = ext_ulg -> strong true y g u y' g' u' cs.
Proof.
  intros f v y g u mm b y' g' u' mm' cs H S L X. unfold ul_process in H. inv_bind H. inv_bind H.
  destruct (logging_seq u _) as [[u1 d]|]. 2:{ injection H as <- <- <- <- <-. apply calm_strong; [apply calm_refl|apply told_nil]. }
  assert (RS : forall u0 y' g' u' cs, ul_restart f v y g u0 = Ok (y', g', u', cs) -> strong true y g u y' g' u' cs).
  { intros u0 ya ga ua ca R. destruct (ul_restart_strong _ _ _ _ _ _ _ _ _ true R S L X) as [(Z1 & Z2 & Z3 & Z4 & Z5 & _)|Z]; [left|right; auto]. repeat (split; auto). discriminate. discriminate. discriminate. }
  assert (DD : forall u0 m y' g' u' mm' cs, (let* (y, g, u, mm) := ul_data f v y g u0 m b d in Ok (y, g, u, mm, @nil ctl)) = Ok (y', g', u', mm', cs) -> strong true y g u y' g' u' cs).
  { intros u0 m ya ga ua ma ca Q. inv_bind Q. injection Q as <- <- <- <- <-. apply calm_strong; [eapply calm_ul_data; eauto|apply told_nil]. }
  destruct (u_hdr u1); [|eapply DD; eauto].
  inv_bind H. destruct (_ <? 16). { inv_bind H. injection H as <- <- <- <- <-. eapply RS; eauto. }
  inv_bind H. destruct (negb _). { inv_bind H. injection H as <- <- <- <- <-. eapply RS; eauto. }
  inv_bind H. inv_bind H. inv_bind H. inv_bind H. eapply DD; eauto.
Qed.

Definition data_ev (e : lev) : bool := match e with LMsg p _ => is_ulog p | _ => false end.

Lemma write_strong : forall f v y g u mem m y' g' u' mem' cs, ul_write f v y g u mem m = Ok (y', g', u', mem', cs) -> sys_ok y -> linv y g -> l_ext g = ext_ulg ->
  strong ((m_id m =? 266) || (m_id m =? 267)) y g u y' g' u' cs.
Proof.
  intros f v y g u mem m y' g' u' mem' cs H S L X. destruct ((m_id m =? 266) || (m_id m =? 267)) eqn:D.
  2:{ apply orb_false_elim in D. destruct D as [D1 D2]. apply Z.eqb_neq in D1. apply Z.eqb_neq in D2. destruct (other_write _ _ _ _ _ _ _ _ _ _ _ _ H D1 D2) as (-> & A & B & C & E & _).
    apply same_strong; auto. unfold ul_write in H. rewrite (proj2 (Z.eqb_neq _ _) D1), (proj2 (Z.eqb_neq _ _) D2) in H.
    enough (cs = []) as -> by apply told_nil. destruct (m_id m =? 77); cbn [orb negb] in H; [|inversion H; auto]. destruct (v_tbl v (m_id m)); [|inversion H; auto]. inv_bind H. inv_bind H. destruct (ask_bytes _ v y). inv_bind H. inv_bind H. inv_bind H.
    destruct (l_tstart g); [|inversion H; auto]. destruct (_ =? CMD_LOGGING_START); [|inversion H; auto]. destruct (_ =? 0); [|inversion H; auto].
    inv_bind H. destruct (start_alive _ _ _). inversion H; auto. }
  unfold ul_write in H. assert (N77 : m_id m =? 77 = false) by lia. assert (C : negb ((m_id m =? 77) || (m_id m =? 266) || (m_id m =? 267)) = false) by lia. rewrite C, N77 in H.
  destruct (v_tbl v (m_id m)). 2:{ injection H as <- <- <- <- <-. apply calm_strong; [apply calm_refl|apply told_nil]. }
  inv_bind H. inv_bind H. rename E0 into A.
  assert (CA : calm y g s l0 /\ ~ told l).
  { destruct (m_id m =? 267). 2:{ injection A as <- <- <-. split; [apply calm_refl|apply told_nil]. }
    inv_bind A. inv_bind A. destruct (send_ctl y g 268 14 _) as [[ya ga] c] eqn:SC. injection A as <- <- <-. split; [eapply calm_send_ctl; eauto|]. apply not_told_one. intros t (R & _).
    unfold send_ctl in SC. pose proof (f_equal snd SC) as SS. cbn [snd] in SS. subst c. cbn [fst] in R. rewrite pack2_raw in R by lia. lia. }
  destruct CA as [CA N]. pose proof (calm_sys _ _ _ _ CA S) as S1. pose proof (calm_linv _ _ _ _ CA L) as L1. assert (X1 : l_ext l0 = ext_ulg) by (rewrite <- X; apply (ca_cfg _ _ _ _ CA)).
  destruct (_ =? 0).
  - inv_bind H. injection H as <- <- <- <- <-. eapply strong_before; eauto. eapply strong_after; [eapply process_strong; eauto|reflexivity..].
  - inv_bind H. inv_bind H. injection H as <- <- <- <- <-. eapply strong_before; eauto. eapply strong_after; [eapply process_strong; eauto|reflexivity..].
Qed.

Lemma auto_strong : forall f v y g u mem m y' g' b' cs, auto_start_stop f v y g (BULog u) mem m = Ok (y', g', b', cs) -> sys_ok y -> linv y g -> l_ext g = ext_ulg ->
  exists u', b' = BULog u' /\ strong false y g u y' g' u' cs /\ (l_open g' = true -> cs = []).
Proof.
  intros f v y g u mem m y' g' b' cs H S L X. unfold auto_start_stop in H.
  assert (NO : Ok (y, g, BULog u, @nil ctl) = Ok (y', g', b', cs) -> exists u', b' = BULog u' /\ strong false y g u y' g' u' cs /\ (l_open g' = true -> cs = [])).
  { intros Q. injection Q as <- <- <- <-. exists u. split; auto. split; auto. apply same_strong; auto. apply told_nil. }
  assert (ST : l_open g = false -> (let* (y, g, b, ok) := lstart v y g (BULog u) in Ok (y, if ok then g else set_mode g MDisabled, b, @nil ctl)) = Ok (y', g', b', cs) -> exists u', b' = BULog u' /\ strong false y g u y' g' u' cs /\ (l_open g' = true -> cs = [])).
  { intros O Q. inv_bind Q. injection Q as <- <- <- <-. destruct (start_begun _ _ _ _ _ _ _ _ E S L X O) as (u' & -> & OP & BG). exists u'. split; auto. split; auto. right. split; auto. match type of OP with _ = ?o => destruct o end; auto. cbn [set_mode l_open]. congruence. }
  destruct (l_target g =? -1); auto. destruct (l_mode g); auto.
  - destruct (l_open g) eqn:O; auto.
  - destruct (_ && _); auto. inv_bind H. destruct (l_open g) eqn:O; cbn [negb andb] in H.
    + destruct (negb _); auto. destruct (lstop_fresh _ _ _ _ _ _ _ _ _ H) as (_ & (_ & F & _) & O1 & _ & PR). destruct b' as [|u'|]; try discriminate PR. exists u'. split; auto. split; [|congruence].
      right. split; [|congruence]. right. eapply told_stopped. apply F; auto. discriminate.
    + destruct (128 <=? a); auto.
Qed.

Lemma event_weak : forall f v y g u e y' g' b' cs, levent f v y g (BULog u) e = Ok (y', g', b', cs) -> sys_ok y -> linv y g -> l_ext g = ext_ulg ->
  exists u', b' = BULog u' /\ weak (data_ev e) y g u y' g' u' cs.
Proof.
  intros f v y g u e y' g' b' cs H S L X. destruct e as [p tail| |]; cbn [levent] in H.
  - inv_bind H. injection H as <- <- <- <-. unfold lwrite in E. destruct (learn_same g (info_of (v_tbl v) p)) as (Q1 & Q2 & Q3 & Q4 & Q5).
    pose proof (learn_inv _ _ (info_of (v_tbl v) p) L) as L0. assert (X0 : l_ext (learn_target g (info_of (v_tbl v) p)) = ext_ulg) by (unfold learn_target; destruct (_ && _); auto). set (g0 := learn_target g (info_of (v_tbl v) p)) in *. clearbody g0.
    inv_bind E. rename E0 into A. destruct (auto_strong _ _ _ _ _ _ _ _ _ _ _ A S L0 X0) as (u1 & -> & SA & OC). pose proof (step_auto _ _ _ _ _ _ _ _ _ _ _ A) as [B1 B2 _ B4].
    destruct (B4 S L0) as (_ & X1 & _). inv_bind E. injection E as <- <- <- <- <-. rename E0 into W. eexists. split; [reflexivity|].
    pose proof (write_strong _ _ _ _ _ _ _ _ _ _ _ _ W (B1 S L0) (B2 S L0) ltac:(congruence)) as SW. cbn [m_id info_of] in SW.
    pose proof (strong_seq _ _ _ _ _ _ _ _ _ _ _ _ SA OC SW) as R. unfold weak, still in R |- *. rewrite Q1, Q3, Q5 in R. exact R.
  - destruct (l_tstart g). 2:{ injection H as <- <- <- <-. exists u. split; auto. apply strong_weak. apply same_strong; auto. apply told_nil. }
    cbn [lcb_start] in H. destruct (send_command y g CMD_LOGGING_START) as [[y1 g1] c] eqn:SC. injection H as <- <- <- <-. exists u. split; auto. apply strong_weak. 
    pose proof (calm_send_ctl _ _ _ _ _ _ _ _ SC) as CA. assert (R : 0 <= CMD_LOGGING_START < 65536) by (unfold CMD_LOGGING_START; lia). destruct (command_request _ _ _ _ _ _ R SC) as (_ & CM & _).
    unfold send_command, send_ctl in SC. pose proof (f_equal (fun t => fst (fst t)) SC) as C1. pose proof (f_equal (fun t => snd (fst t)) SC) as C2. cbn [fst snd] in C1, C2. apply same_strong; try (subst; reflexivity).
    apply not_told_one. intros t (_ & R2 & _). rewrite CM in R2. discriminate R2.
  - destruct (l_talive g). 2:{ injection H as <- <- <- <-. exists u. split; auto. apply strong_weak. apply same_strong; auto. apply told_nil. }
    unfold lcb_alive in H. inv_bind H. injection H as <- <- <- <-. destruct (l_mark g =? l_wtotal g).
    + inv_bind E. inv_bind E. injection E as <- <- <- <-. destruct (restart_strong _ _ _ _ _ _ _ _ _ _ _ _ _ false E0 E1 S L X) as (u' & -> & R). exists u'. split; auto. apply strong_weak. eapply strong_after; [exact R|reflexivity..].
    + injection E as <- <- <- <-. exists u. split; auto. apply strong_weak. apply same_strong; auto. apply told_nil.
Qed.
End Events.

(* ---- along the run ------------------------------------------------------------------------------------------------------ *)

Lemma follow_app : forall i ps a b e e', follow i ps e (a ++ b) e' -> exists e1, follow i ps e a e1 /\ follow i ps e1 b e'.
Proof.
  intros i ps. induction a as [|x a IH]; intros b e e' H; cbn [app] in H. { exists e. split; auto. constructor. }
  inversion H; subst.
  - match goal with F : follow _ _ _ (a ++ b) _ |- _ => destruct (IH _ _ _ F) as (e1 & A & B) end. exists e1. split; auto. apply fo_other; auto.
  - match goal with F : follow _ _ _ (a ++ b) _ |- _ => destruct (IH _ _ _ F) as (e1 & A & B) end. exists e1. split; auto. eapply fo_data; eauto.
Qed.

Section Run.
Variables (P : list Z -> Prop) (f : nat) (v : env) (i : nat) (hd x : list Z) (ms : list (list Z)) (ps : list packet).
Hypothesis names : forall k t, P (log_name k t ext_ulg).
Hypothesis KN : knows v Streaming.
Hypothesis DIA : ulog_dialect v.
Hypothesis VE : vehicle ms x ps.
Hypothesis MW : tame v ms.
Hypothesis FU : (2049 <= f)%nat.

Lemma mild : forall y, mild_writes v y ms. Proof. intros y k m _ I. apply MW. auto. Qed.

Lemma data_gets : forall j k p m d ds, nth_error ps k = Some p -> In i (map dl_to ds) -> gets is_ulog i (IRecv j (encode p) m d ds).
Proof. intros j k p m d ds N I. destruct (ve_packets _ _ _ VE _ _ N) as (IU & (W & _) & _). do 5 eexists. split; [reflexivity|]. auto. Qed.
Lemma follow_others : forall b e e', follow i ps e b e' -> (forall s, In s b -> ~ gets is_ulog i s) -> e' = e.
Proof.
  intros b e e' H. induction H; intros N; auto. { apply IHfollow. intros s I. apply N. right. auto. }
  exfalso. eapply N; [left; reflexivity|]. eapply data_gets; eauto.
Qed.
Lemma gets_concerns : forall Q s, gets Q i s -> concerns i s = true.
Proof. intros Q s (j & p & m & d & ds & -> & _ & _ & I). cbn [concerns]. apply existsb_exists. exists i. split; auto. apply Nat.eqb_refl. Qed.
Lemma header_concerns : forall h, gets_header i hd x h -> concerns i h = true.
Proof. intros h (j & p & m & d & ds & -> & I & _). cbn [concerns]. apply existsb_exists. exists i. split; auto. apply Nat.eqb_refl. Qed.
Lemma ctls_quiet : forall r, only_ctls r -> forall s, In s r -> concerns i s = false.
Proof. intros r O s I. destruct (O s I) as (j & bs & m & ds & ->). reflexivity. Qed.
Lemma filter_quiet : forall r, filter (concerns i) r = [] -> forall s, In s r -> concerns i s = false.
Proof. intros r E s I. destruct (concerns i s) eqn:C; auto. assert (X : In s (filter (concerns i) r)) by (apply filter_In; auto). rewrite E in X. destruct X. Qed.
Lemma quiet_no : forall r, (forall s, In s r -> concerns i s = false) -> forall Q s, In s r -> ~ gets Q i s.
Proof. intros r H Q s I G. apply gets_concerns in G. rewrite (H s I) in G. discriminate. Qed.
Lemma told_item : forall r, told (sent_by i r) <-> exists s, In s r /\ stops Streaming i s.
Proof.
  intros r. split.
  - intros (c & t & I & S). destruct (in_sent _ _ _ I) as (ds & J). eexists. split; [exact J|]. exists (fst c), (snd c), ds, t. auto.
  - intros (s & I & bs & m & ds & t & -> & S). exists (bs, m), t. split; auto. unfold sent_by. apply in_flat_map. eexists. split; [exact I|]. cbn. rewrite Nat.eqb_refl. left. auto.
Qed.

(* the state of the logger's file, given the trace *)
Definition tracks (its : list item) (y : sys) (g : lg) (u : ulst) : Prop :=
  (forall b, since_stop i its b -> (forall s, In s b -> ~ gets is_ulog i s) -> l_open g = true -> begun P y g u) /\
  (forall e, log_session i hd x ps its e -> following hd ms x ps y g u e /\ P (l_name g) /\ all_w y (l_name g)).
Definition ul_ok (its : list item) (y : sys) (l : logger) : Prop :=
  match inner l with
  | None => forall bs m ds, ~ In (ICtl i bs m ds) its
  | Some (g, BULog u) => ul_inv u /\ l_ext g = ext_ulg /\ tracks its y g u
  | _ => True
  end.

Lemma begun_inv : forall y g u, begun P y g u -> u_hdr u = true /\ u_first u = false /\ u_len u = 0 /\ u_exp u = 0 /\ at_end y g [].
Proof. intros y g u (A & B & C & D & E & buf & part & ->). repeat split; auto. Qed.
Lemma following_open : forall y g u e, following hd ms x ps y g u e -> l_open g = true.
Proof. intros y g u e [_ _ _ (k & [(d & s & A & _) _] & _)]. apply A. Qed.
Lemma spared_begun : forall y y' g u, spared P y y' -> begun P y g u -> begun P y' g u.
Proof.
  intros y y' g u SP (A & B & C & D & E & F). assert (K : kept_file y (l_name g) []) by (apply kept_content; auto). apply SP in K; auto. apply kept_content in K. destruct K as [K1 K2].
  split; auto.
Qed.
Lemma spared_following : forall y y' g u e, spared P y y' -> P (l_name g) -> all_w y (l_name g) -> following hd ms x ps y g u e -> following hd ms x ps y' g u e /\ all_w y' (l_name g).
Proof.
  intros y y' g u e SP PN W [I H X (k & [(d & some & [A1 A2 A3] & D) K] & R)]. assert (KF : kept_file y (l_name g) d) by (apply kept_content; auto). apply SP in KF; auto. apply kept_content in KF. destruct KF as [K1 K2].
  split; auto. split; auto. exists k. split; auto. split; auto. exists d, some. split; auto. split; auto.
Qed.
Lemma ok_hist : forall y l n y' l' cs, lhist P f v i y l n y' l' cs -> n = [] -> forall its, ul_ok its y l -> ul_ok its y' l'.
Proof.
  intros y l n y' l' cs H. induction H; intros N its T; [auto|discriminate|]. apply IHlhist; auto. unfold ul_ok in *. destruct (inner l) as [[g []]|]; auto. destruct T as (I & X & A & B). split; auto. split; auto. split.
  - intros b SS ND O. eapply spared_begun; eauto.
  - intros e SE. destruct (B e SE) as (FO & PN & W). destruct (spared_following _ _ _ _ _ H1 PN W FO). auto.
Qed.
Lemma none_new : forall y l e y' l' cs, kevent f v y l e = Ok (y', l', cs) -> inner l = None -> cs = [] /\
  (inner l' = None \/ exists g b, inner l' = Some (g, b) /\ l_open g = false /\ match b with BULog u => ul_inv u /\ l_ext g = ext_ulg | _ => True end).
Proof.
  intros y l e y' l' cs H I. destruct l as [g0 b0|a]; cbn [inner kevent] in *; [discriminate|]. destruct e as [p t| |]; [|rewrite I in H; injection H as <- <- <-; auto|rewrite I in H; injection H as <- <- <-; auto].
  inv_bind H. injection H as <- <- <-. unfold auto_write in E. rewrite I in E. match type of E with context [if negb ?c then _ else _] => destruct (negb c) end.
  { injection E as _ <- _ <-. auto. }
  inv_bind E. destruct (_ =? 12).
  - destruct (ask_bytes _ v y) as [junk y1] eqn:AB. injection E as _ <- _ <-. split; auto. right. cbn [inner a_inner new_inner]. do 2 eexists. split; [reflexivity|]. split; [reflexivity|]. split; [|reflexivity].
    destruct (ask_bytes_ok _ _ _ _ _ AB). apply ul_new_inv; auto.
  - destruct (_ =? 3); injection E as _ <- _ <-; auto. split; auto. right. cbn [inner a_inner new_inner]. do 2 eexists. split; [reflexivity|]. split; [reflexivity|exact Logic.I].
Qed.

(* what is since the last stop after more happened *)
Lemma since_more : forall its r b, since_stop i (its ++ r) b -> (exists b0, since_stop i its b0 /\ b = b0 ++ r /\ forall s, In s r -> ~ stops Streaming i s) \/ (exists r1, r = r1 ++ b /\ exists s, In s r1 /\ stops Streaming i s).
Proof.
  intros its r b (a & E & A & N). apply app_eq_app in E. destruct E as (l & [[E1 E2]|[E1 E2]]).
  - left. exists l. split. { exists a. split; auto. split; auto. intros s I. apply N. rewrite E2. apply in_or_app; auto. } split; auto. intros s I. apply N. rewrite E2. apply in_or_app; auto.
  - destruct l as [|z l].
    + left. exists []. cbn [app] in E2. rewrite app_nil_r in E1. subst a b. split; [|split; auto]. exists its. rewrite app_nil_r. split; [reflexivity|]. split; [exact A|intros s []].
    + right. exists (z :: l). split; auto. destruct A as [A|(a0 & s & A & S)]. { rewrite A in E1. destruct its; discriminate. }
      exists s. split; auto. destruct (@exists_last _ (z :: l)) as (l' & s' & EL); [discriminate|]. rewrite EL in *. rewrite A, app_assoc in E1. apply app_inj_tail in E1. destruct E1 as [_ ->]. apply in_or_app. right. left. auto.
Qed.

Lemma session_more : forall its r e, log_session i hd x ps (its ++ r) e -> (forall s, In s r -> concerns i s = false) -> log_session i hd x ps its e /\ (forall s, In s r -> ~ stops Streaming i s).
Proof.
  intros its r e (b1 & h & b2 & SS & AK & ND & HD & FO) Q. pose proof (header_concerns _ HD) as HC. destruct (since_more _ _ _ SS) as [(b0 & S0 & E & NS)|(r1 & E & _)].
  - split; auto. apply split_snoc in E. destruct E as [(b3 & -> & ->)|(r1 & -> & ->)].
    + destruct (follow_app _ _ _ _ _ _ FO) as (e1 & F1 & F2). apply follow_others in F2; [|apply (quiet_no _ Q)]. subst e1. exists b1, h, b3. auto.
    + rewrite (Q h) in HC; [discriminate|]. apply in_or_app. right. left. auto.
  - rewrite (Q h) in HC; [discriminate|]. rewrite E. apply in_or_app. right. apply in_or_app. right. left. auto.
Qed.
Lemma tracks_more : forall its r y g u, tracks its y g u -> (forall s, In s r -> concerns i s = false) -> ~ told (sent_by i r) -> tracks (its ++ r) y g u.
Proof.
  intros its r y g u [A B] Q NT. split.
  - intros b SS ND O. destruct (since_more _ _ _ SS) as [(b0 & S0 & -> & _)|(r1 & -> & s & I & S)].
    + apply (A b0); auto. intros s I. apply ND. apply in_or_app; auto.
    + exfalso. apply NT. apply told_item. exists s. split; auto. apply in_or_app; auto.
  - intros e SE. apply session_more in SE; auto. apply B. apply SE.
Qed.

(* one event *)
Lemma ok_event : forall its y l e z r y' l', kevent f v y l e = Ok (y', l', sent_by i r) -> held y i l -> talk_inv Streaming i v its l -> ul_ok its y l -> concerns i z = true -> ev_of v z e -> only_ctls r ->
  ul_ok (its ++ z :: r) y' l'.
Proof.
  intros its y l e z r y' l' H HE TI OK C EV OC. assert (NZ : forall bs m ds, z <> ICtl i bs m ds) by (intros; eapply concern_not_ctl; eauto).
  assert (NSZ : ~ stops Streaming i z). { intros (bs & m & ds & t & E & _). apply (NZ _ _ _ E). }
  pose proof (ctls_quiet r OC) as QR. unfold ul_ok in OK. destruct (inner l) as [[g b]|] eqn:I.
  - destruct (kevent_inner _ _ _ _ _ _ _ _ _ _ H I) as (g' & b' & LE & I'). unfold ul_ok. rewrite I'. destruct b as [a|u|].
    1,3: destruct (kevent_keeps _ _ _ _ _ _ _ _ H _ _ I) as (g2 & b2 & I2 & PR); rewrite I' in I2; injection I2 as <- <-; destruct b'; auto; discriminate PR.
    destruct OK as (UI & EX & T1 & T2). destruct (held_linv _ _ _ _ _ HE I) as (_ & LI). destruct HE as [SYS _].
    assert (LB : lev_bytes e). { destruct e as [p t| |]; try exact Logic.I. destruct z as [|j bs m d ds| |t0 cb| |]; try contradiction; [|destruct cb; contradiction]. destruct EV as (W & _ & _ & BT). split; auto. }
    pose proof (levent_keeps _ _ _ _ _ _ _ _ _ _ LE LB UI) as UI'. destruct (event_weak P names _ _ _ _ _ _ _ _ _ _ LE SYS LI EX) as (u' & -> & WK).
    destruct (levent_step _ _ _ _ _ _ _ _ _ _ LE SYS LI) as (_ & _ & _ & _ & EX' & _). split; auto. split; [congruence|].
    assert (DG : data_ev e = true -> gets is_ulog i z).
    { intros D. destruct e as [p t| |]; try discriminate D. destruct z as [|j bs m d ds| |t0 cb| |]; try contradiction; [|destruct cb; contradiction]. destruct EV as (W & -> & _). cbn [concerns] in C. apply existsb_exists in C. destruct C as (q & IQ & Q). apply Nat.eqb_eq in Q. subst q.
      do 5 eexists. split; [reflexivity|]. auto. }
    assert (OPEN : (exists b0, since_stop i its b0 /\ exists s, In s b0 /\ asks Streaming i s) -> l_open g = true).
    { intros (b0 & (a & E & _ & NS) & s & IS & AS). unfold talk_inv in TI. rewrite I in TI. apply (ta_open _ _ _ _ _ (TI eq_refl)). apply in_split in IS. destruct IS as (p1 & p2 & ->). exists (a ++ p1), s, p2. rewrite <- app_assoc. split; auto. split; auto.
      intros q IQ. apply NS. apply in_or_app. right. right. auto. }
    split.
    + intros b SS ND O'. destruct (since_more _ _ _ SS) as [(b0 & S0 & -> & NS)|(r1 & E & s & IS & SS1)].
      * assert (DF : data_ev e = false). { destruct (data_ev e) eqn:D; auto. exfalso. apply (ND z); auto. apply in_or_app. right. left. auto. }
        destruct WK as [(O & _ & _ & NM & _ & SAME)|(CL & BG)]; [|apply BG; auto]. destruct (SAME DF) as (-> & FS & OF). apply (begun_same P y g u y' g'); [|auto|congruence|auto|auto]. apply (T1 b0); auto. intros s IS. apply ND. apply in_or_app; auto.
      * assert (TD : told (sent_by i r)). { apply told_item. exists s. split; auto. destruct r1 as [|q r1]; [destruct IS|]. cbn [app] in E. injection E as -> ->. destruct IS as [->|IS]; [tauto|]. apply in_or_app; auto. }
        destruct WK as [(_ & _ & NT & _)|(CL & BG)]; [tauto|]. apply BG; auto.
    + intros e' (b1 & h & b2 & SS & (sa & ISA & AK) & ND & HD & FO). pose proof (header_concerns _ HD) as HC. destruct (since_more _ _ _ SS) as [(b0 & S0 & E & NS)|(r1 & E & s & IS & SS1)].
      2:{ exfalso. destruct r1 as [|q r1]; [destruct IS|]. cbn [app] in E. injection E as -> ->. rewrite (QR h) in HC; [discriminate|]. apply in_or_app. right. apply in_or_app. right. left. auto. }
      assert (NT : ~ told (sent_by i r)). { rewrite told_item. intros (s & IS & S). apply (NS s); auto. right. auto. }
      assert (QN : forall s, In s r -> ~ gets is_ulog i s) by (apply (quiet_no _ QR)).
      apply split_snoc in E. destruct E as [(b3 & -> & ->)|(r1 & -> & E)].
      * (* the log goes on *)
        apply (follow_app i ps b3 (z :: r)) in FO. destruct FO as (e1 & F1 & F2). assert (SE : log_session i hd x ps its e1). { exists b1, h, b3. split; auto. split; [exists sa; auto|]. auto. }
        destruct (T2 _ SE) as (FW & PN & W). pose proof (following_open _ _ _ _ FW) as O. destruct WK as [(_ & O' & _ & NM & TC & SAME)|([CL|CL] & _)]; [|congruence|tauto].
        split; [|rewrite NM; split; auto; eapply touch_w; eauto]. inversion F2; subst.
        -- match goal with F : follow i ps _ r _ |- _ => apply follow_others in F; [|exact QN] end. subst e'. destruct (data_ev e) eqn:D; [exfalso; auto|]. destruct (SAME eq_refl) as (-> & FS & OF). eapply following_same; eauto; congruence.
        -- match goal with F : follow i ps _ r _, N : nth_error ps _ = Some _, R : _ < _ < _ |- _ => apply follow_others in F; [|exact QN]; rename N into NP, R into RI end. subst e'. destruct e as [q tl| |]; try contradiction. destruct EV as (WQ & EQ & _ & BT). destruct (ve_packets _ _ _ VE _ _ NP) as (_ & (WP & _) & _). apply encode_inj in EQ; auto. subst q.
           destruct (vehicle_data f hd ms x ps v y g u k p tl e1 VE (mild y) FU DIA NP BT RI FW) as (y2 & g2 & u2 & cs2 & LE2 & _ & FW2). rewrite LE in LE2. injection LE2 as -> -> -> _. exact FW2.
      * destruct r1 as [|q r1]; cbn [app] in E; injection E as -> ->.
        -- (* the header *)
           rewrite app_nil_r in *. apply follow_others in FO; auto. subst e'. assert (O : l_open g = true) by (apply OPEN; exists b0; split; auto; exists sa; auto).
           pose proof (T1 b0 S0 ND O) as BG. destruct WK as [(_ & O' & _ & NM & TC & _)|([CL|CL] & _)]; [|congruence|tauto]. destruct BG as (_ & PN & W & BG).
           assert (BG' : begun P y g u) by (split; auto). split; [|rewrite NM; split; auto; eapply touch_w; eauto].
           destruct HD as (j & p & m & d & ds & -> & _ & UP & IU & SQ & SZ & EB & LH & MG). destruct e as [q tl| |]; try contradiction. destruct EV as (WQ & EQ & _ & BT). apply encode_inj in EQ; auto; [|apply UP]. subst q.
           destruct (begun_inv _ _ _ BG') as (B1 & B2 & B3 & B4 & B5).
           destruct (vehicle_header f hd ms x ps v y g u p tl VE FU (mild y) DIA UI B1 B2 B3 B4 SQ B5 IU UP BT) as (y2 & g2 & u2 & cs2 & LE2 & _ & FW2); auto; try lia. rewrite LE in LE2. injection LE2 as -> -> -> _. exact FW2.
        -- exfalso. rewrite (QR h) in HC; [discriminate|]. apply in_or_app. right. left. auto.
  - destruct (none_new _ _ _ _ _ _ H I) as (CS & IN). assert (NO : forall bs m ds, ~ In (ICtl i bs m ds) (its ++ z :: r)).
    { intros bs m ds Q. apply in_app_or in Q. destruct Q as [Q|[Q|Q]]; [apply (OK _ _ _ Q)|apply (NZ _ _ _ Q)|]. apply (sent_nil i r bs m ds CS Q). }
    unfold ul_ok. destruct IN as [->|(g & b & -> & O & X)]; auto. destruct b; auto. destruct X as [X1 X2]. split; auto. split; auto. split; [congruence|].
    intros e' (b1 & h & b2 & (a & E & _) & (s & IS & bs & m & ds & t & -> & _) & _). exfalso. apply (NO bs m ds). rewrite E. apply in_or_app. right. apply in_or_app. left. auto.
Qed.

Lemma ok_lives : forall y l its y' l', lives P f v i y l its y' l' -> held y i l -> proper_trace Streaming its -> talk_inv Streaming i v [] l -> ul_ok [] y l -> ul_ok its y' l'.
Proof.
  intros y l its y' l' H. induction H; intros Q PT TI T0; auto.
  - assert (P1 : proper_trace Streaming its) by (intros j p m d ds I; apply (PT j p m d ds); apply in_or_app; auto).
    pose proof (lives_held _ _ _ _ _ _ _ _ _ H Q) as Q1. pose proof (held_hist _ _ _ _ _ _ _ H0 Q1) as Q2. pose proof (ok_hist _ _ _ _ _ _ H0 eq_refl _ (IHlives Q P1 TI T0)) as T1.
    eapply ok_hist; [eassumption|reflexivity|]. eapply ok_event; eauto; [rewrite H6; exact H4|]. eapply lives_talk; eauto. discriminate.
  - assert (P1 : proper_trace Streaming its) by (intros j p m d ds I; apply (PT j p m d ds); apply in_or_app; auto).
    pose proof (ok_hist _ _ _ _ _ _ H2 eq_refl _ (IHlives Q P1 TI T0)) as T1. unfold ul_ok in *. destruct (inner l1) as [[g []]|]; auto.
    + destruct T1 as (A & B & T1). split; auto. split; auto. apply tracks_more; auto. { apply filter_quiet; auto. } rewrite H1. apply told_nil.
    + intros bs m ds I. apply in_app_or in I. destruct I as [I|I]; [apply (T1 _ _ _ I)|apply (sent_nil i r bs m ds H1 I)].
Qed.
End Run.
