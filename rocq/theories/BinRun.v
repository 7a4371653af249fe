(* The binary logger along the run of the program: what happens to its file and what it reports. *)
From Verif Require Import Base Mav SpecCrc SpecFrame Frame FrameProofs Names NamesProofs Sys LogFile LogFileProofs ULog Loggers LogInv LogStep SpecLog LogRun LogModes LogModes2 BinProofs Prop_LogModes Prop_TLog Prop_BinLog
  SpecAsk LogAsk Router RouterTimers LogSpare LogHist SpecTalk LogLive TeleRun.

Definition NBLOCKS : Z := 21474836.
Definition noacks (s : list (Z * Z)) : Prop := forall n, 0 <= n < NBLOCKS -> ~ In (n, 1) s.
Definition at_block (n : Z) : nat := Z.to_nat (200 * n).

Lemma kept_put : forall l y n d off bs, y_fs y = Some l -> kept_file y n d -> kept_file (set_fs y (Some (fs_upd l n (d_put off bs)))) n (file_put d off bs).
Proof.
  intros l y n d off bs F K. apply kept_content in K. destruct K as [C W]. apply kept_content. split; [apply content_put; auto|].
  intros l' e F' I N. cbn [y_fs set_fs] in F'. injection F' as <-. unfold fs_upd in I. apply in_map_iff in I. destruct I as (e0 & E & I). destruct (beqs (d_name e0) n) eqn:B.
  - subst e. cbn [d_w d_put]. apply (W l e0 F I). apply beqs_eq. auto.
  - subst e0. apply (W l e F I N).
Qed.
Lemma kept_fs : forall y y' n d, y_fs y' = y_fs y -> kept_file y n d -> kept_file y' n d.
Proof. intros y y' n d E (l & F & X). exists l. split; auto. congruence. Qed.
Lemma write_kept : forall v y g off bs r y' g' d, file_write v y g off bs = (r, y', g') -> l_open g = true -> kept_file y (l_name g) d ->
  (r < 0 /\ y_fs y' = y_fs y \/ exists k, r = Z.of_nat k /\ (k <= length bs)%nat /\ kept_file y' (l_name g) (file_put d off (firstn k bs))) /\ l_open g' = true /\ l_name g' = l_name g.
Proof.
  intros v y g off bs r y' g' d H O K. unfold file_write, ask in H. rewrite O in H. destruct (Z.ltb_spec (v_orc v (y_pos y)) 0) as [Q|Q].
  - injection H as <- <- <-. split; [left; split; auto|auto].
  - set (k := Nat.min _ _) in H. assert (K2 : k = Nat.min (Z.to_nat (v_orc v (y_pos y))) (length bs)) by reflexivity. clearbody k.
    pose proof (f_equal (fun t => fst (fst t)) H) as X1. pose proof (f_equal (fun t => snd (fst t)) H) as X2. pose proof (f_equal snd H) as X3. cbn [fst snd] in X1, X2, X3. subst r y' g'. split; [right|auto].
    exists k. split; auto. split; [lia|]. assert (K' : kept_file (set_pos y (Datatypes.S (y_pos y))) (l_name g) d) by (eapply kept_fs; [|exact K]; reflexivity).
    destruct K as (l & F & _). cbn [set_pos y_fs]. rewrite F. apply (kept_put l (set_pos y (Datatypes.S (y_pos y)))); auto.
Qed.

Section Bin.
Variables (P : list Z -> Prop) (v : env) (ent : entry).
Hypothesis T184 : v_tbl v 184 = Some ent.
Hypothesis M206 : e_max_len ent = 206.

Definition good_block (p : packet) : Prop := wf_packet p /\ (p_id p = 184 -> block_number p < NBLOCKS /\ (p_ver p = V1 -> (206 <= length (p_payload p))%nat)).


Lemma noacks_nil : noacks []. Proof. intros n _ []. Qed.
Lemma noacks_app : forall a b, noacks a -> noacks b -> noacks (a ++ b).
Proof. intros a b A B n N I. apply in_app_or in I. destruct I; [eapply A|eapply B]; eauto. Qed.

(* [U s d d']: the content went from [d] to [d'] while [s] was reported *)
Definition same (s : list (Z * Z)) (d d' : list Z) : Prop := d' = d /\ noacks s.
Definition ended (s : list (Z * Z)) : Prop := exists s0, s = s0 ++ [(BLOCK_STOP, 1)].
Definition eff (U : list (Z * Z) -> list Z -> list Z -> Prop) (y : sys) (g : lg) (y' : sys) (g' : lg) (cs : list ctl) : Prop :=
  Forall (fun c : ctl => raw_id (fst c) = 185) cs /\
  exists s1 s2, statuses cs = s1 ++ s2 /\ (s1 = [] \/ ended s1) /\ ~ In (BLOCK_STOP, 1) s2 /\
  (l_open g' = false /\ noacks s2 /\ (l_open g = false \/ ended s1) \/
   l_open g' = true /\ P (l_name g') /\ exists d d', kept_file y' (l_name g') d' /\ U s2 d d' /\
     (l_open g = true /\ l_name g' = l_name g /\ kept_file y (l_name g) d \/ l_open g = false \/ ended s1)).

Definition holding (y : sys) (g : lg) : Prop := l_open g = true -> P (l_name g) /\ exists d, kept_file y (l_name g) d.
Definition ready (y : sys) (g : lg) : Prop := sys_ok y /\ linv y g /\ (forall k t, P (log_name k t (l_ext g))) /\ holding y g.
Definition alike (y : sys) (g : lg) (y' : sys) (g' : lg) : Prop := y_fs y' = y_fs y /\ l_open g' = l_open g /\ l_name g' = l_name g.

Lemma eff_holding : forall U y g y' g' cs, eff U y g y' g' cs -> holding y' g'.
Proof. intros U y g y' g' cs (_ & s1 & s2 & _ & _ & _ & [(A & _)|(A & B & d & d' & C & _)]) O; [congruence|]. split; eauto. Qed.
Lemma step_ready : forall U y g y' g' cs, step_ok y g y' g' -> eff U y g y' g' cs -> ready y g -> ready y' g'.
Proof.
  intros U y g y' g' cs [A1 A2 A3 A4] E (S & L & N & _). split; auto. split; auto. split; [|eapply eff_holding; eauto]. destruct (A4 S L) as (_ & X & _). rewrite X. auto.
Qed.
Lemma alike_ready : forall y g y' g', alike y g y' g' -> holding y g -> holding y' g'.
Proof. intros y g y' g' (F & O & N) H Q. rewrite O in Q. rewrite N. destruct (H Q) as (A & d & B). split; auto. exists d. eapply kept_fs; eauto. Qed.

Lemma eff_quiet : forall y g y' g', alike y g y' g' -> holding y g -> eff same y g y' g' [].
Proof.
  intros y g y' g' (F & O & N) R. split; [constructor|]. exists [], []. split; auto. split; auto. split; [intros []|]. destruct (l_open g) eqn:G.
  - right. destruct (R G) as (PN & d & K). split; auto. rewrite N. split; auto. exists d, d. split; [eapply kept_fs; eauto|]. split; [split; auto; apply noacks_nil|]. left. auto.
  - left. split; auto. split; [apply noacks_nil|auto].
Qed.
Lemma eff_mono : forall (U V : list (Z * Z) -> list Z -> list Z -> Prop) y g y' g' cs, (forall s d d', U s d d' -> V s d d') -> eff U y g y' g' cs -> eff V y g y' g' cs.
Proof.
  intros U V y g y' g' cs M (A & s1 & s2 & B & C & D & E). split; auto. exists s1, s2. split; auto. split; auto. split; auto. destruct E as [E|(E & F & d & d' & G & H & I)]; [left; auto|].
  right. split; auto. split; auto. exists d, d'. auto.
Qed.
Lemma kept_same : forall y n d d', kept_file y n d -> kept_file y n d' -> d = d'.
Proof. intros y n d d' A B. apply kept_content in A. apply kept_content in B. eapply content_unique; [apply A|apply B]. Qed.
Lemma eff_seq : forall (U : list (Z * Z) -> list Z -> list Z -> Prop) y g y1 g1 c1 y' g' c2, (forall s0 s d d', noacks s0 -> U s d d' -> U (s0 ++ s) d d') ->
  eff same y g y1 g1 c1 -> eff U y1 g1 y' g' c2 -> eff U y g y' g' (c1 ++ c2).
Proof.
  intros U y g y1 g1 c1 y' g' c2 M (R1 & s1 & s2 & E1 & S1 & N1 & X1) (R2 & t1 & t2 & E2 & S2 & N2 & X2). split; [apply Forall_app; auto|].
  assert (ST : statuses (c1 ++ c2) = (s1 ++ s2) ++ t1 ++ t2) by (rewrite <- E1, <- E2; apply map_app). rewrite ST. clear ST. destruct S2 as [->|(t0 & ->)].
  - exists s1, (s2 ++ t2). rewrite app_nil_l, <- app_assoc. split; auto. split; auto. split. { intros I. apply in_app_or in I. tauto. }
    assert (NA : noacks s2) by (destruct X1 as [(_ & A & _)|(_ & _ & d & d' & _ & (_ & A) & _)]; auto).
    assert (NE : ~ ended []) by (intros (s0 & E); destruct s0; discriminate).
    destruct X2 as [(A & B & [C|C])|(A & B & d & d' & C & D & [(F & G & H)|[F|F]])]; try tauto.
    + left. split; auto. split; [apply noacks_app; auto|]. destruct X1 as [(_ & _ & X)|(X & _)]; [auto|congruence].
    + right. split; auto. split; auto. destruct X1 as [(X & _)|(_ & _ & e & e' & K & (-> & _) & X)]; [congruence|]. pose proof (kept_same _ _ _ _ K H) as ->. exists d, d'. split; auto. split; auto.
      rewrite G. destruct X as [(X1 & X2 & X3)|X]; auto.
    + right. split; auto. split; auto. exists d, d'. split; auto. split; auto. right. destruct X1 as [(_ & _ & X)|(X & _)]; [auto|congruence].
  - exists ((s1 ++ s2) ++ t0 ++ [(BLOCK_STOP, 1)]), t2. rewrite <- !app_assoc. split; auto. assert (EN : ended (s1 ++ s2 ++ t0 ++ [(BLOCK_STOP, 1)])). { exists (s1 ++ s2 ++ t0). rewrite <- !app_assoc. reflexivity. }
    split; auto. split; auto. destruct X2 as [(A & B & _)|(A & B & d & d' & C & D & _)]; [left; auto|]. right. split; auto. split; auto. exists d, d'. auto.
Qed.
Lemma eff_after : forall U y g y1 g1 y' g' cs, eff U y g y1 g1 cs -> alike y1 g1 y' g' -> eff U y g y' g' cs.
Proof.
  intros U y g y1 g1 y' g' cs (A & s1 & s2 & B & C & D & E) (F & O & N). split; auto. exists s1, s2. split; auto. split; auto. split; auto. rewrite O, N.
  destruct E as [E|(E & G & d & d' & H & I)]; [left; auto|]. right. split; auto. split; auto. exists d, d'. split; auto. eapply kept_fs; eauto.
Qed.
Lemma eff_before : forall U y g y1 g1 y' g' cs, alike y g y1 g1 -> eff U y1 g1 y' g' cs -> eff U y g y' g' cs.
Proof.
  intros U y g y1 g1 y' g' cs (F & O & N) (A & s1 & s2 & B & C & D & E). split; auto. exists s1, s2. split; auto. split; auto. split; auto. rewrite O in E.
  destruct E as [E|(E & G & d & d' & H & I & J)]; [left; auto|]. right. split; auto. split; auto. exists d, d'. split; auto. split; auto. destruct J as [(J & K & L)|J]; auto. left. rewrite N in K, L. split; auto. split; auto.
  eapply kept_fs; [|exact L]. auto.
Qed.

(* a status message that is no acknowledgement *)
Lemma eff_status : forall y g y' g' n c, send_block_status y g n 1 = (y', g', c) -> NBLOCKS <= n < 4294967296 -> holding y g -> eff same y g y' g' [c].
Proof.
  intros y g y' g' n c H N R. assert (NR : 0 <= n < 4294967296) by (unfold NBLOCKS in N; lia). destruct (send_block_status_spec _ _ _ _ _ _ _ NR H) as (ST & CA & F & _). destruct (block_request _ _ _ _ _ _ _ NR H) as (RI & _).
  assert (AL : alike y g y' g'). { split; auto. split; [apply (ca_open _ _ _ _ CA)|apply (ca_name _ _ _ _ CA)]. }
  destruct AL as (_ & O & NN). split; [constructor; auto|].
  assert (NA : noacks [(n, 1)]). { intros k K [Q|[]]. injection Q as Q. lia. }
  unfold statuses. cbn [map]. rewrite ST. destruct (Z.eq_dec n BLOCK_STOP) as [->|NE].
  - exists [(BLOCK_STOP, 1)], []. split; auto. assert (EN : ended [(BLOCK_STOP, 1)]) by (exists []; reflexivity). split; auto. split; [intros []|].
    rewrite O, NN. destruct (l_open g) eqn:G; [right|left; split; auto; split; auto; apply noacks_nil]. destruct (R G) as (PN & d & K). split; auto. split; auto. exists d, d. split; [eapply kept_fs; eauto|]. split; [split; auto; apply noacks_nil|auto].
  - exists [], [(n, 1)]. split; auto. split; auto. split. { intros [Q|[]]. congruence. }
    rewrite O, NN. destruct (l_open g) eqn:G; [right|left; split; auto]. destruct (R G) as (PN & d & K). split; auto. split; auto. exists d, d. split; [eapply kept_fs; eauto|]. split; [split; auto|]. left. auto.
Qed.

(* stop() and start() *)
Lemma eff_stop : forall y g y' g' cs, bin_stop v y g = Ok (y', g', cs) -> holding y g -> eff same y g y' g' cs.
Proof.
  intros y g y' g' cs H R. unfold bin_stop in H. destruct (l_open g) eqn:O; cbn [negb] in H. 2:{ injection H as <- <- <-. apply eff_quiet; auto. split; auto. }
  destruct (send_block_status y g BLOCK_STOP 1) as [[y1 g1] c] eqn:S. inv_bind H. injection H as <- <- <-. destruct (log_stop_ask _ _ _ _ _ E) as (_ & C & _).
  assert (NR : 0 <= BLOCK_STOP < 4294967296) by (unfold BLOCK_STOP; lia). destruct (send_block_status_spec _ _ _ _ _ _ _ NR S) as (ST & _). destruct (block_request _ _ _ _ _ _ _ NR S) as (RI & _).
  split; [constructor; auto|]. exists [(BLOCK_STOP, 1)], []. unfold statuses. cbn [map]. rewrite ST. split; auto. assert (EN : ended [(BLOCK_STOP, 1)]) by (exists []; reflexivity). split; auto. split; [intros []|].
  left. split; auto. split; auto. apply noacks_nil.
Qed.
Lemma eff_start : forall y g y' g' ok, log_start v y g = Ok (y', g', ok) -> ready y g -> eff same y g y' g' [].
Proof.
  intros y g y' g' ok H (S & L & N & R). destruct (log_start_spec v y g S L) as (y0 & g0 & ok0 & H0 & _ & _ & _ & _ & _ & _ & O & K & _). rewrite H in H0. injection H0 as <- <- <-.
  destruct (l_open g) eqn:G. { destruct (K eq_refl) as (_ & -> & ->). apply eff_quiet; auto. split; auto. }
  split; [constructor|]. exists [], []. split; auto. split; auto. split; [intros []|]. destruct ok; cbn [orb] in O.
  - right. destruct (start_w _ _ _ _ _ H) as (W & k & t & NM). destruct (start_content _ _ _ _ _ H S) as (C & _). split; auto. split. { rewrite NM. auto. }
    exists [], []. split; [apply kept_content; auto|]. split; [split; auto; apply noacks_nil|auto].
  - left. split; auto. split; [apply noacks_nil|auto].
Qed.

Lemma same_pre : forall s0 s d d', noacks s0 -> same s d d' -> same (s0 ++ s) d d'.
Proof. intros s0 s d d' N [-> A]. split; auto. apply noacks_app; auto. Qed.
Lemma eff_restart : forall y g a y' g' a' cs, bin_restart v y g a = Ok (y', g', a', cs) -> ready y g -> eff same y g y' g' cs.
Proof.
  intros y g a y' g' a' cs H R. unfold bin_restart in H. inv_bind H. inv_bind H. injection H as <- <- <- <-. unfold bin_start in E0. inv_bind E0. injection E0 as <- <- <- <-. rename E into B. rename E1 into L.
  pose proof (eff_stop _ _ _ _ _ B ltac:(apply R)) as X. pose proof (step_ready _ _ _ _ _ _ (step_bin_stop _ _ _ _ _ _ B) X R) as R1.
  rewrite <- (app_nil_r l). eapply eff_seq; [apply same_pre|exact X|eapply eff_start; eauto].
Qed.

(* a data block: its bytes, or the first of them, replace those of the file; it is acknowledged when all are there *)
Definition stored (p : packet) (s : list (Z * Z)) (d d' : list Z) : Prop :=
  same s d d' \/
  exists k, (k <= 200)%nat /\ d' = file_put d (at_block (block_number p)) (firstn k (block_data p)) /\
    forall n, 0 <= n < NBLOCKS -> In (n, 1) s -> n = block_number p /\ k = 200%nat.
Lemma stored_pre : forall p s0 s d d', noacks s0 -> stored p s d d' -> stored p (s0 ++ s) d d'.
Proof.
  intros p s0 s d d' N [S|(k & A & B & C)]; [left; apply same_pre; auto|right]. exists k. split; auto. split; auto. intros n R I. apply in_app_or in I. destruct I as [I|I]; [destruct (N n R I)|apply C; auto].
Qed.
Lemma eff_process : forall p y g a y' g' a' cs, bin_process v y g a (block_number p) (block_data p) = Ok (y', g', a', cs) -> ready y g -> 0 <= block_number p < NBLOCKS ->
  eff (stored p) y g y' g' cs.
Proof.
  intros p y g a y' g' a' cs H R N. assert (RS : forall y1 g1, bin_restart v y1 g1 a = Ok (y', g', a', cs) -> ready y1 g1 -> alike y g y1 g1 -> eff (stored p) y g y' g' cs).
  { intros y1 g1 B R1 A. eapply eff_before; eauto. eapply eff_mono; [|eapply eff_restart; eauto]. intros. left. auto. }
  unfold bin_process in H. destruct (l_open g) eqn:O; cbn [negb] in H. 2:{ eapply RS; eauto. split; auto. }
  destruct (ask v y) as [q y1] eqn:A. assert (F1 : y_fs y1 = y_fs y) by (unfold ask in A; injection A as _ <-; reflexivity).
  assert (R1 : ready y1 g). { eapply step_ready; [apply step_calm; eapply calm_ask; eauto|apply eff_quiet; [split; auto|apply R]|auto]. }
  destruct (q <? 0). { eapply RS; eauto. split; auto. }
  destruct (file_write v y1 g _ (block_data p)) as [[r y2] g2] eqn:W. assert (OFF : Z.to_nat (u32 (block_number p * 200)) = at_block (block_number p)). { unfold at_block. rewrite u32_small by (unfold NBLOCKS in N; lia). f_equal. lia. }
  rewrite OFF in W. destruct R1 as (S1 & L1 & N1 & H1). destruct (H1 O) as (PN & d & K).
  destruct (write_kept _ _ _ _ _ _ _ _ _ W O K) as (X & O2 & NM2).
  pose proof (step_calm _ _ _ _ (calm_file_write _ _ _ _ _ _ _ _ W)) as SW.
  assert (R2 : ready y2 g2).
  { destruct SW as [A1 A2 A3 A4]. split; auto. split; auto. split. { destruct (A4 S1 L1) as (_ & Q & _). rewrite Q. auto. } intros _. rewrite NM2. split; auto. destruct X as [(_ & F)|(k & _ & _ & C)]; [exists d; eapply kept_fs; eauto|eauto]. }
  destruct X as [(NEG & F2)|(k & -> & KL & C)].
  - assert (AL : alike y g y2 g2) by (split; [congruence|split; congruence]). destruct ((r <? 0) && _). { eapply RS; eauto. }
    assert (Q : r =? 200 = false) by (apply Z.eqb_neq; lia). rewrite Q in H. cbn [negb] in H. injection H as <- <- <- <-. eapply eff_mono; [|apply eff_quiet; [exact AL|apply R]]. intros. left. auto.
  - rewrite block_data_length in KL. assert (Q : Z.of_nat k <? 0 = false) by (apply Z.ltb_ge; lia). rewrite Q in H. cbn [andb] in H.
    assert (K0 : kept_file y (l_name g) d) by (eapply kept_fs; [|exact K]; congruence).
    destruct (Z.eqb_spec (Z.of_nat k) 200) as [K2|K2]; cbn [negb] in H.
    + apply (f_equal (fun r => match r with Ok t => t | _ => (y, g, a, []) end)) in H. assert (NR : 0 <= block_number p < 4294967296) by (unfold NBLOCKS in N; lia). destruct (send_ack_spec _ _ _ _ _ _ _ _ NR H) as (ST & CA & F3 & _).
      split. { clear - H N. unfold NBLOCKS in N. assert (R : 0 <= block_number p < 4294967296) by lia. revert H. generalize (block_number p), R. clear. intros n R H.
        assert (NK : forall j y g y' g' cs, send_nacks j y g n = (y', g', cs) -> Forall (fun c : ctl => raw_id (fst c) = 185) cs).
        { induction j; intros y0 g0 y1 g1 cs0 Q; cbn [send_nacks] in Q. { injection Q as _ _ <-. constructor. } destruct (send_block_status y0 g0 n BLOCK_NACK) as [[yy gg] c] eqn:SB. destruct (send_nacks j yy gg n) as [[y3 g3] c3] eqn:SN. injection Q as _ _ <-.
          constructor; [eapply block_request; eauto|eapply IHj; eauto]. }
        unfold send_ack in H. destruct (n <? a).
        - destruct (send_block_status y2 g2 n BLOCK_ACK) as [[yy gg] c] eqn:SB. injection H as _ _ _ <-. constructor; auto. eapply block_request; eauto.
        - destruct (send_nacks _ y2 g2 n) as [[yy gg] c] eqn:SN. destruct (send_block_status yy gg n BLOCK_ACK) as [[y3 g3] c3] eqn:SB. injection H as _ _ _ <-. apply Forall_app. split; [eapply NK; eauto|]. constructor; auto. eapply block_request; eauto. }
      exists [], (statuses cs). split; auto. split; auto. rewrite ST. split. { intros I. apply in_app_or in I. destruct I as [I|[I|[]]]; [apply repeat_spec in I; discriminate|]. injection I as I. unfold NBLOCKS, BLOCK_STOP in *. lia. }
      right. rewrite (ca_open _ _ _ _ CA), (ca_name _ _ _ _ CA), NM2. split; auto. split; auto. exists d, (file_put d (at_block (block_number p)) (firstn k (block_data p))). split; [eapply kept_fs; eauto|].
      split; [|left; auto]. right. exists k. split; [lia|]. split; auto. intros n RN I. apply in_app_or in I. destruct I as [I|[I|[]]]; [apply repeat_spec in I; discriminate|]. injection I as I. split; auto. lia.
    + injection H as <- <- <- <-. split; [constructor|]. exists [], []. split; auto. split; auto. split; [intros []|]. right. rewrite NM2. split; auto. split; auto. exists d, (file_put d (at_block (block_number p)) (firstn k (block_data p))). split; auto.
      split; [|left; auto]. right. exists k. split; [lia|]. split; auto. intros n _ [].
Qed.

Definition change (e : lev) : list (Z * Z) -> list Z -> list Z -> Prop :=
  match e with LMsg p _ => if p_id p =? 184 then stored p else same | _ => same end.
Lemma change_pre : forall e s0 s d d', noacks s0 -> change e s d d' -> change e (s0 ++ s) d d'.
Proof. intros e s0 s d d' N. unfold change. destruct e as [p t| |]; try (apply same_pre; auto). destruct (p_id p =? 184); [apply stored_pre|apply same_pre]; auto. Qed.
Lemma same_change : forall e s d d', same s d d' -> change e s d d'.
Proof. intros e s d d' S. unfold change. destruct e as [p t| |]; auto. destruct (p_id p =? 184); auto. left. auto. Qed.

Lemma eff_auto : forall f y g a mem m y' g' b' cs, auto_start_stop f v y g (BBin a) mem m = Ok (y', g', b', cs) -> ready y g -> eff same y g y' g' cs /\ exists a', b' = BBin a'.
Proof.
  intros f y g a mem m y' g' b' cs H R. assert (Q : eff same y g y g []) by (apply eff_quiet; [split; auto|apply R]).
  assert (ST : forall y' g' b' ok, lstart v y g (BBin a) = Ok (y', g', b', ok) -> eff same y g y' (if ok then g' else set_mode g' MDisabled) [] /\ exists a', b' = BBin a').
  { intros y0 g0 b0 ok X. cbn [lstart] in X. unfold bin_start in X. inv_bind X. inv_bind E. injection E as <- <- <- <-. injection X as <- <- <- <-. split; eauto. eapply eff_after; [eapply eff_start; eauto|]. match goal with |- context [if ?q then _ else _] => destruct q end; split; auto. }
  unfold auto_start_stop in H. destruct (l_target g =? -1). { injection H as <- <- <- <-. split; eauto. }
  destruct (l_mode g).
  - destruct (l_open g). { injection H as <- <- <- <-. split; eauto. } inv_bind H. injection H as <- <- <- <-. eapply ST; eauto.
  - destruct (_ && _). 2:{ injection H as <- <- <- <-. split; eauto. } inv_bind H. destruct (negb (l_open g) && _). { inv_bind H. injection H as <- <- <- <-. eapply ST; eauto. }
    destruct (l_open g && _). 2:{ injection H as <- <- <- <-. split; eauto. } cbn [lstop] in H. inv_bind H. injection H as <- <- <- <-. split; eauto. eapply eff_stop; eauto. apply R.
  - injection H as <- <- <- <-. split; eauto.
Qed.

Lemma eff_event : forall f y g a e y' g' b' cs, levent f v y g (BBin a) e = Ok (y', g', b', cs) -> ready y g -> (forall p t, e = LMsg p t -> good_block p) ->
  eff (change e) y g y' g' cs /\ exists a', b' = BBin a'.
Proof.
  intros f y g a e y' g' b' cs H R G. destruct e as [p t| |]; cbn [levent] in H.
  - inv_bind H. injection H as <- <- <- <-. rename E into LW. destruct (lwrite_split _ _ _ _ _ _ _ _ _ _ _ _ LW) as (y1 & g1 & b1 & c1 & c2 & A & W & ->). clear LW.
    destruct (learn_ep g (info_of (v_tbl v) p)) as (_ & LX & LO & _ & LN). set (g0 := learn_target g (info_of (v_tbl v) p)) in *.
    assert (AL : alike y g y g0) by (split; auto).
    assert (R0 : ready y g0). { destruct R as (S & L & N & K). split; auto. split; [apply learn_inv; auto|]. split; [rewrite LX; auto|]. eapply alike_ready; eauto. }
    destruct (eff_auto _ _ _ _ _ _ _ _ _ _ A R0) as (E1 & a1 & ->). pose proof (step_ready _ _ _ _ _ _ (step_auto _ _ _ _ _ _ _ _ _ _ _ A) E1 R0) as R1.
    cbn [lwrite_rest] in W. inv_bind W. injection W as <- <- <- <- <-. split; eauto. eapply eff_before; [exact AL|]. eapply eff_seq; [apply change_pre|exact E1|].
    rename E into BW. assert (Q : eff same y1 g1 y1 g1 []) by (apply eff_quiet; [split; auto|apply R1]).
    unfold bin_write in BW. cbn [m_id info_of] in BW. cbn [change]. destruct (G p t eq_refl) as (WP & GB). destruct (Z.eqb_spec (p_id p) 184) as [ID|ID]; cbn [negb] in BW.
    2:{ injection BW as <- <- <- <-. auto. }
    destruct (GB ID) as (NB & V1L). rewrite ID, T184 in BW. destruct (bin_read v ent p t) as (pl & tz & mm & bb & PD & LC & R32 & SL); auto. { split; auto. }
    rewrite PD in BW. cbn [bind] in BW. rewrite LC in BW. cbn [bind] in BW. rewrite R32 in BW. cbn [bind] in BW. inv_bind BW. rename E into TS.
    assert (PR : forall y2 g2 y3 g3 a3 a4 c3 q, ready y2 g2 -> alike y1 g1 y2 g2 -> bin_process v y2 g2 a3 (block_number p) (block_data p) = Ok (y3, g3, a4, c3) -> eff (stored p) y1 g1 y3 (count_write g3 q) c3).
    { intros y2 g2 y3 g3 a3 a4 c3 q RR AA BP. eapply eff_before; eauto. eapply eff_after; [eapply eff_process; eauto|split; auto]. split; auto. apply block_number_range; auto. }
    destruct (l_tstart g1) as [id|].
    + destruct (block_number p =? 0).
      * inv_bind TS. match type of TS with context [start_alive v ?a ?b] => destruct (start_alive v a b) as [y2 g3] eqn:SA end. injection TS as <- <- <- <-. destruct (step_started _ _ _ _ _ _ _ E SA) as (ST & O2 & N2 & _ & _ & F2 & _).
        rewrite SL in BW. cbn [bind] in BW. inv_bind BW. injection BW as <- <- <- <-. cbn [app]. assert (A2 : alike y1 g1 y2 g3) by (split; auto). eapply PR; [|exact A2|eauto].
        eapply step_ready; [exact ST|apply eff_quiet; [exact A2|apply R1]|auto].
      * destruct (send_block_status y1 g1 BLOCK_STOP 1) as [[y2 g2] c] eqn:SB. injection TS as <- <- <- <-. injection BW as <- <- <- <-. eapply eff_mono; [|eapply eff_status; eauto; [unfold NBLOCKS, BLOCK_STOP; lia|apply R1]]. intros. left. auto.
    + injection TS as <- <- <- <-. rewrite SL in BW. cbn [bind] in BW. inv_bind BW. injection BW as <- <- <- <-. cbn [app]. eapply PR; [exact R1|split; auto|eauto].
  - destruct (l_tstart g).
    + cbn [lcb_start] in H. destruct (send_block_status y g BLOCK_START 1) as [[y2 g2] c] eqn:SB. injection H as <- <- <- <-. split; eauto. cbn [change]. eapply eff_status; eauto; [unfold NBLOCKS, BLOCK_START; lia|apply R].
    + injection H as <- <- <- <-. split; eauto. apply eff_quiet; [split; auto|apply R].
  - cbn [change]. destruct (l_talive g). 2:{ injection H as <- <- <- <-. split; eauto. apply eff_quiet; [split; auto|apply R]. }
    unfold lcb_alive in H. inv_bind H. injection H as <- <- <- <-. destruct (l_mark g =? l_wtotal g).
    + inv_bind E. inv_bind E. injection E as <- <- <- <-. cbn [lstop] in E0. inv_bind E0. injection E0 as <- <- <- <-. cbn [lstart] in E1. inv_bind E1. injection E1 as <- <- <- <-. split; eauto.
      assert (X : bin_restart v y g a = Ok (s0, l1, z, l)). { unfold bin_restart. rewrite E. cbn [bind]. rewrite E0. reflexivity. }
      apply (eff_after _ _ _ s0 l1); [eapply eff_restart; eauto|split; auto].
    + injection E as <- <- <- <-. split; eauto. eapply eff_after; [apply eff_quiet; [|apply R]|]; split; auto.
Qed.

(* ---- along the run ------------------------------------------------------------------------------------------------------ *)

Variable f : nat.
Hypothesis names : forall k t, P (log_name k t ext_bin).

Definition acks (n : Z) (i : nat) (x : item) : Prop := exists bs m ds, x = ICtl i bs m ds /\ raw_id bs = 185 /\ status_of bs = (n, 1).
Definition is_block (n : Z) (p : packet) : bool := (p_id p =? 184) && (block_number p =? n).
Definition byte_of (n : Z) (j : nat) (c : Z) (p : packet) : bool := is_block n p && (nth j (block_data p) 0 =? c).
(* an acknowledgement of a block the logger has not taken back *)
Definition live (i : nat) (its : list item) (n : Z) (a : list item) (z : item) (b : list item) : Prop :=
  its = a ++ z :: b /\ 0 <= n < NBLOCKS /\ acks n i z /\ forall s, In s b -> ~ stops Blocks i s.
Definition backed (i : nat) (n : Z) (a : list item) (z : item) (b : list item) (d : list Z) : Prop :=
  (at_block n + 200 <= length d)%nat /\ exists a0 x0 r0, a = a0 ++ x0 :: r0 /\ messages r0 /\ gets (is_block n) i x0 /\
    forall j, (j < 200)%nat -> exists x, In x (x0 :: r0 ++ z :: b) /\ gets (byte_of n j (nth (at_block n + j) d 0)) i x.

Lemma backed_more : forall i n a z b d r, backed i n a z b d -> backed i n a z (b ++ r) d.
Proof.
  intros i n a z b d r (L & a0 & x0 & r0 & E & M & G & H). split; auto. exists a0, x0, r0. split; auto. split; auto. split; auto. intros j J. destruct (H j J) as (x & I & X). exists x. split; auto.
  destruct I as [I|I]; [left; auto|right]. apply in_app_or in I. apply in_or_app. destruct I as [I|[I|I]]; auto; right; [left; auto|right; apply in_or_app; auto].
Qed.
Lemma backed_put : forall i n a z b d p k x r, 0 <= n -> 0 <= block_number p -> backed i n a z b d -> p_id p = 184 -> (k <= 200)%nat -> gets (is_block (block_number p)) i x ->
  (forall j c, nth j (block_data p) 0 = c -> gets (byte_of (block_number p) j c) i x) ->
  backed i n a z (b ++ x :: r) (file_put d (at_block (block_number p)) (firstn k (block_data p))).
Proof.
  intros i n a z b d p k x r N BN B ID K GX GB. apply (backed_more i n a z b d (x :: r)) in B. destruct B as (L & a0 & x0 & r0 & E & M & G & H).
  split. { rewrite file_put_length. lia. } exists a0, x0, r0. split; auto. split; auto. split; auto. intros j J. rewrite file_put_nth, firstn_length, block_data_length.
  destruct ((at_block (block_number p) <=? at_block n + j)%nat && (at_block n + j <? at_block (block_number p) + Nat.min k 200)%nat) eqn:Q; [|apply H; auto].
  apply andb_prop in Q. destruct Q as [Q1 Q2]. apply Nat.leb_le in Q1. apply Nat.ltb_lt in Q2. assert (EN : block_number p = n) by (unfold at_block in *; lia).
  exists x. split. { right. apply in_or_app. right. right. apply in_or_app. right. left. auto. }
  rewrite EN in *. apply GB. replace (at_block n + j - at_block n)%nat with j by lia. symmetry. apply nth_firstn_lt. lia.
Qed.

Definition log_ok (i : nat) (its : list item) (y : sys) (l : logger) : Prop :=
  match inner l with
  | None => forall bs m ds, ~ In (ICtl i bs m ds) its
  | Some (g, BBin _) => l_ext g = ext_bin /\
      (l_open g = true -> P (l_name g) /\ exists d, kept_file y (l_name g) d /\ forall n a z b, live i its n a z b -> backed i n a z b d) /\
      (l_open g = false -> forall n a z b, ~ live i its n a z b)
  | _ => True
  end.
Definition sound_trace (its : list item) : Prop := forall j p m d ds, In (IRecv j (encode p) m d ds) its -> wf_packet p -> good_block p.

Lemma ok_hist : forall i y l n y' l' cs, lhist P f v i y l n y' l' cs -> n = [] -> forall its, log_ok i its y l -> log_ok i its y' l'.
Proof.
  intros i y l n y' l' cs H. induction H; intros N its T; [auto|discriminate|]. apply IHlhist; auto. unfold log_ok in *. destruct (inner l) as [[g []]|]; auto. destruct T as (X & A & B). split; auto. split; auto.
  intros O. destruct (A O) as (PN & d & K & C). split; auto. exists d. split; auto. apply H1; auto.
Qed.
Lemma ok_none : forall y l e y' l' cs, kevent f v y l e = Ok (y', l', cs) -> inner l = None -> cs = [] /\
  (inner l' = None \/ exists g b, inner l' = Some (g, b) /\ l_open g = false /\ match b with BBin _ => l_ext g = ext_bin | _ => True end).
Proof.
  intros y l e y' l' cs H I. destruct l as [g0 b0|a]; cbn [inner kevent] in *; [discriminate|]. destruct e as [p t| |]; [|rewrite I in H; injection H as <- <- <-; auto|rewrite I in H; injection H as <- <- <-; auto].
  inv_bind H. injection H as <- <- <-. unfold auto_write in E. rewrite I in E. match type of E with context [if negb ?c then _ else _] => destruct (negb c) end.
  { injection E as _ <- _ <-. auto. }
  inv_bind E. destruct (_ =? 12).
  - destruct (ask_bytes _ v y) as [junk y1]. injection E as _ <- _ <-. split; auto. right. cbn [inner a_inner new_inner]. do 2 eexists. split; [reflexivity|]. split; reflexivity || exact I.
  - destruct (_ =? 3); injection E as _ <- _ <-; auto. split; auto. right. cbn [inner a_inner new_inner]. do 2 eexists. split; [reflexivity|]. split; reflexivity.
Qed.
Lemma stop_item : forall i r, Forall (fun c : ctl => raw_id (fst c) = 185) (sent_by i r) -> In (BLOCK_STOP, 1) (statuses (sent_by i r)) -> exists s, In s r /\ stops Blocks i s.
Proof.
  intros i r F H. apply in_map_iff in H. destruct H as (c & E & I). rewrite Forall_forall in F. specialize (F c I). destruct (in_sent _ _ _ I) as (ds & J). eexists. split; [exact J|]. do 4 eexists. split; [reflexivity|].
  unfold stop_request, request. split; [exact F|]. unfold status_of in E. injection E as E1 E2. fold (raw_payload 7 (fst c)) in E1, E2. split; [exact E1|]. split; [reflexivity|exact E2].
Qed.
Lemma sent_app : forall i a b, sent_by i (a ++ b) = sent_by i a ++ sent_by i b. Proof. intros. apply flat_map_app. Qed.

(* an acknowledgement of this event that is not taken back is one of the reports after the last stop request *)
Lemma live_last : forall i r1 z b n s1 s2, Forall (fun c : ctl => raw_id (fst c) = 185) (sent_by i (r1 ++ z :: b)) -> statuses (sent_by i (r1 ++ z :: b)) = s1 ++ s2 -> (s1 = [] \/ ended s1) ->
  0 <= n < NBLOCKS -> acks n i z -> (forall s, In s b -> ~ stops Blocks i s) -> In (n, 1) s2.
Proof.
  intros i r1 z b n s1 s2 F E S1 N (bs & m & ds & -> & _ & ST) NS. rewrite sent_app in E, F.
  assert (X : sent_by i (ICtl i bs m ds :: b) = (bs, m) :: sent_by i b) by (cbn; rewrite Nat.eqb_refl; reflexivity). rewrite X in E, F.
  assert (Y : statuses (sent_by i r1) ++ (n, 1) :: statuses (sent_by i b) = s1 ++ s2). { rewrite <- E. unfold statuses. rewrite map_app. cbn [map fst]. rewrite ST. reflexivity. }
  apply split_snoc in Y. destruct Y as [(b1 & E1 & E2)|(t & _ & E2)]; [|rewrite E2; apply in_or_app; right; left; auto].
  exfalso. destruct S1 as [->|(s0 & ->)]; [destruct (statuses (sent_by i r1)); discriminate|].
  assert (I : In (BLOCK_STOP, 1) (statuses (sent_by i b))).
  { rewrite E2. apply in_or_app. left. destruct b1 as [|q b1]. { exfalso. apply app_inj_tail in E1. destruct E1 as [_ E1]. injection E1 as E1. unfold BLOCK_STOP, NBLOCKS in *. lia. }
    destruct (@exists_last _ (q :: b1)) as (b2 & q2 & EQ); [discriminate|]. rewrite EQ in *. apply in_or_app. right. left. assert (Z1 : s0 ++ [(BLOCK_STOP, 1)] = (statuses (sent_by i r1) ++ (n, 1) :: b2) ++ [q2]) by (rewrite E1, <- app_assoc; reflexivity).
    apply app_inj_tail in Z1. symmetry. apply Z1. }
  destruct (stop_item i b) as (s & IS & SS); auto. { apply Forall_app in F. destruct F as [_ F]. inversion F; auto. } apply (NS s IS SS).
Qed.

Lemma ok_event : forall i its y l e x r y' l', kevent f v y l e = Ok (y', l', sent_by i r) -> held y i l -> log_ok i its y l -> concerns i x = true -> ev_of v x e -> only_ctls r -> sound_trace (x :: r) ->
  log_ok i (its ++ x :: r) y' l'.
Proof.
  intros i its y l e x r y' l' H HE OK C EV OC SO. assert (NX : forall bs m ds, x <> ICtl i bs m ds) by (intros; eapply concern_not_ctl; eauto).
  unfold log_ok in OK. destruct (inner l) as [[g b]|] eqn:I.
  - destruct (kevent_inner _ _ _ _ _ _ _ _ _ _ H I) as (g' & b' & LE & I'). unfold log_ok. rewrite I'. destruct b as [a|u|].
    2,3: destruct (kevent_keeps _ _ _ _ _ _ _ _ H _ _ I) as (g2 & b2 & I2 & PR); rewrite I' in I2; injection I2 as <- <-; destruct b'; auto; discriminate PR.
    destruct OK as (EX & OO & OCL). destruct (held_linv _ _ _ _ _ HE I) as (_ & LI). destruct HE as [SYS _].
    assert (RD : ready y g). { split; auto. split; auto. split. { rewrite EX. exact names. } intros O. destruct (OO O) as (PN & d & K & _). eauto. }
    assert (GB : forall p t, e = LMsg p t -> good_block p).
    { intros p t ->. destruct x as [|j bs m d ds| |t0 cb| |]; try contradiction; [|destruct cb; contradiction]. destruct EV as (W & -> & _). eapply SO; [left; reflexivity|auto]. }
    destruct (eff_event f y g a e y' g' b' _ LE RD GB) as ((RI & s1 & s2 & ES & S1 & NS2 & CASES) & a' & ->).
    destruct (levent_step _ _ _ _ _ _ _ _ _ _ LE SYS LI) as (_ & _ & _ & _ & EX' & _).
    split; [congruence|].
    (* acknowledgements of the past survive only if there was no stop *)
    assert (PAST : forall n a0 z b0 b1, live i (its ++ x :: r) n a0 z b0 -> its = a0 ++ z :: b1 -> b0 = b1 ++ x :: r -> live i its n a0 z b1 /\ l_open g = true /\ ~ ended s1).
    { intros n a0 z b0 b1 (_ & N & A & NS) E1 E2. assert (LV : live i its n a0 z b1). { split; auto. split; auto. split; auto. intros s IS. apply NS. rewrite E2. apply in_or_app; auto. }
      split; auto. split. { destruct (l_open g) eqn:O; auto. destruct (OCL eq_refl _ _ _ _ LV). }
      intros (s0 & EN). destruct (stop_item i r RI) as (s & IS & SS). { rewrite ES, EN. apply in_or_app. left. apply in_or_app. right. left. auto. } apply (NS s); auto. rewrite E2. apply in_or_app. right. right. auto. }
    assert (NOW : forall n a0 z b0 r1, live i (its ++ x :: r) n a0 z b0 -> a0 = its ++ r1 -> x :: r = r1 ++ z :: b0 -> exists r2, r1 = x :: r2 /\ r = r2 ++ z :: b0 /\ In (n, 1) s2).
    { intros n a0 z b0 r1 (_ & N & A & NS) E1 E2. destruct r1 as [|q r2]; cbn [app] in E2. { exfalso. injection E2 as E2 _. destruct A as (bs & m & ds & A & _). rewrite A in E2. apply (NX _ _ _ E2). }
      injection E2 as -> ->. exists r2. split; auto. split; auto. eapply live_last; eauto. }
    assert (SPLIT : forall n a0 z b0, live i (its ++ x :: r) n a0 z b0 -> (exists b1, its = a0 ++ z :: b1 /\ b0 = b1 ++ x :: r) \/ (exists r1, a0 = its ++ r1 /\ x :: r = r1 ++ z :: b0)).
    { intros n a0 z b0 (E & _). symmetry in E. apply split_snoc in E. auto. }
    destruct CASES as [(O' & NA & CL)|(O' & PN & d & d' & K' & U & OLD)].
    + split; [congruence|]. intros _ n a0 z b0 LV. destruct (SPLIT _ _ _ _ LV) as [(b1 & E1 & E2)|(r1 & E1 & E2)].
      * destruct (PAST _ _ _ _ _ LV E1 E2) as (_ & O & NE). destruct CL; [congruence|tauto].
      * destruct (NOW _ _ _ _ _ LV E1 E2) as (r2 & _ & _ & IN). destruct LV as (_ & N & _). apply (NA n N IN).
    + split; [|congruence]. intros _. split; auto. exists d'. split; auto. intros n a0 z b0 LV. pose proof LV as (_ & N & _). destruct (SPLIT _ _ _ _ LV) as [(b1 & E1 & E2)|(r1 & E1 & E2)].
      * destruct (PAST _ _ _ _ _ LV E1 E2) as (LV1 & O & NE). destruct OLD as [(_ & _ & K)|[X|X]]; [|congruence|tauto]. destruct (OO O) as (_ & d0 & K0 & BK). pose proof (kept_same _ _ _ _ K0 K) as ->.
        specialize (BK _ _ _ _ LV1). rewrite E2. unfold change in U. destruct e as [p t| |]; try (destruct U as [-> _]; apply backed_more; auto).
        destruct (Z.eqb_spec (p_id p) 184) as [ID|ID]; [|destruct U as [-> _]; apply backed_more; auto]. destruct U as [[-> _]|(k & KL & -> & _)]; [apply backed_more; auto|].
        destruct x as [|j bs m dd ds| |t0 cb| |]; try contradiction; [|destruct cb; contradiction]. destruct EV as (W & -> & _).
        assert (DI : In i (map dl_to ds)). { cbn [concerns] in C. apply existsb_exists in C. destruct C as (q & IQ & Q). apply Nat.eqb_eq in Q. subst. auto. }
        apply backed_put; auto. { lia. } { apply block_number_range; auto. }
        { do 5 eexists. split; [reflexivity|]. split; auto. split; auto. unfold is_block. rewrite ID, !Z.eqb_refl. reflexivity. }
        intros j0 c0 <-. do 5 eexists. split; [reflexivity|]. split; auto. split; auto. unfold byte_of, is_block. rewrite ID, !Z.eqb_refl. reflexivity.
      * destruct (NOW _ _ _ _ _ LV E1 E2) as (r2 & -> & ER & IN). unfold change in U. destruct e as [p t| |]; try (destruct U as [_ NA]; destruct (NA n N IN)).
        destruct (Z.eqb_spec (p_id p) 184) as [ID|ID]; [|destruct U as [_ NA]; destruct (NA n N IN)]. destruct U as [[_ NA]|(k & KL & -> & AK)]; [destruct (NA n N IN)|].
        destruct (AK n N IN) as (-> & ->). clear AK KL.
        destruct x as [|j bs m dd ds| |t0 cb| |]; try contradiction; [|destruct cb; contradiction]. destruct EV as (W & -> & _).
        assert (DI : In i (map dl_to ds)). { cbn [concerns] in C. apply existsb_exists in C. destruct C as (q & IQ & Q). apply Nat.eqb_eq in Q. subst. auto. }
        rewrite (firstn_all2 (block_data p)) by (rewrite block_data_length; lia).
        split. { rewrite file_put_length, block_data_length. lia. } exists its, (IRecv j (encode p) m dd ds), r2. split; auto. split. { intros s IS. apply OC. rewrite ER. apply in_or_app; auto. }
        split. { do 5 eexists. split; [reflexivity|]. split; auto. split; auto. unfold is_block. rewrite ID, !Z.eqb_refl. reflexivity. }
        intros j0 J0. exists (IRecv j (encode p) m dd ds). split; [left; auto|]. do 5 eexists. split; [reflexivity|]. split; auto. split; auto. unfold byte_of, is_block. rewrite ID, Z.eqb_refl. cbn [andb]. rewrite Z.eqb_refl. cbn [andb].
        rewrite file_put_nth, block_data_length. assert (Q : ((at_block (block_number p) <=? at_block (block_number p) + j0) && (at_block (block_number p) + j0 <? at_block (block_number p) + 200) = true)%nat).
        { apply andb_true_intro. split; [apply Nat.leb_le|apply Nat.ltb_lt]; lia. } rewrite Q. apply Z.eqb_eq. f_equal. lia.
  - destruct (ok_none _ _ _ _ _ _ H I) as (CS & IN). assert (NO : forall bs m ds, ~ In (ICtl i bs m ds) (its ++ x :: r)).
    { intros bs m ds Q. apply in_app_or in Q. destruct Q as [Q|[Q|Q]]; [apply (OK _ _ _ Q)|apply (NX _ _ _ Q)|]. apply (sent_nil i r bs m ds CS Q). }
    unfold log_ok. destruct IN as [->|(g & b & -> & O & X)]; auto. destruct b; auto. split; auto. split; [congruence|]. intros _ n a0 z b0 (E & _ & (bs & m & ds & -> & _) & _). apply (NO bs m ds). rewrite E. apply in_or_app. right. left. auto.
Qed.

Lemma ok_lives : forall i y l its y' l', lives P f v i y l its y' l' -> held y i l -> sound_trace its -> log_ok i [] y l -> log_ok i its y' l'.
Proof.
  intros i y l its y' l' H. induction H; intros Q SO T0; auto.
  - assert (SO1 : sound_trace its) by (intros j p m d ds I; eapply SO; apply in_or_app; left; exact I). assert (SO2 : sound_trace (x :: r)) by (intros j p m d ds I; eapply SO; apply in_or_app; right; exact I).
    pose proof (lives_held _ _ _ _ _ _ _ _ _ H Q) as Q1. pose proof (held_hist _ _ _ _ _ _ _ H0 Q1) as Q2. pose proof (ok_hist _ _ _ _ _ _ _ H0 eq_refl _ (IHlives Q SO1 T0)) as T1.
    eapply ok_hist; [eassumption|reflexivity|]. eapply ok_event; eauto. rewrite H6. exact H4.
  - assert (SO1 : sound_trace its) by (intros j p m d ds I; eapply SO; apply in_or_app; left; exact I). pose proof (ok_hist _ _ _ _ _ _ _ H2 eq_refl _ (IHlives Q SO1 T0)) as T1.
    assert (SP : forall n a z b, live i (its ++ r) n a z b -> exists b1, live i its n a z b1 /\ b = b1 ++ r).
    { intros n a z b (E & N & A & NS). symmetry in E. apply split_snoc in E. destruct E as [(b1 & E1 & E2)|(r1 & E1 & E2)].
      - exists b1. split; auto. split; auto. split; auto. split; auto. intros s IS. apply NS. rewrite E2. apply in_or_app; auto.
      - exfalso. destruct A as (bs & m & ds & -> & _). apply (sent_nil i r bs m ds H1). rewrite E2. apply in_or_app. right. left. auto. }
    unfold log_ok in *. destruct (inner l1) as [[g []]|]; auto.
    + destruct T1 as (X & A & B). split; auto. split.
      * intros O. destruct (A O) as (PN & d & K & BK). split; auto. exists d. split; auto. intros n a z b LV. destruct (SP _ _ _ _ LV) as (b1 & LV1 & ->). apply backed_more. auto.
      * intros O n a z b LV. destruct (SP _ _ _ _ LV) as (b1 & LV1 & _). apply (B O _ _ _ _ LV1).
    + intros bs m ds I. apply in_app_or in I. destruct I as [I|I]; [apply (T1 _ _ _ I)|apply (sent_nil i r bs m ds H1 I)].
Qed.
End Bin.
