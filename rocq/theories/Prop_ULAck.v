(* C103: what the streaming logger acknowledges, in every run of the program. *)
From Verif Require Import Base Mav SpecCrc SpecFrame Frame FrameProofs Names Sys LogFile LogFileProofs ULog Loggers LogInv LogStep SpecLog LogRun LogModes LogModes2
  ExFrame Accept BinProofs Prop_LogModes Prop_BinLog SpecAsk LogAsk LogAsk2 LogAsk3 Prop_Ask Router RouterSetup RouterLogs RouterTimers SpecRouter LogHist RouterLives ExRouter SpecTalk LogLive LogLive2 Prop_Dialogue
  TeleRun Prop_TeleRun ModeRun Prop_ULogEx.

(* ---- specification ------------------------------------------------------------------------------------------------- *)

(* the messages handed to logger [i], as they are on the wire, and the sequence numbers logger [i] acknowledges: LOGGING_ACK (268),
   sequence number in bytes 0-1 of the payload *)
Definition handed_to (i : nat) (its : list item) : list (list Z) :=
  flat_map (fun x => match x with IRecv _ bs _ _ ds => if existsb (Nat.eqb i) (map dl_to ds) then [bs] else [] | _ => [] end) its.
Definition acked_by (i : nat) (its : list item) : list Z :=
  flat_map (fun x => match x with ICtl j bs _ _ => if (i =? j)%nat && (raw_id bs =? 268) then [field16 (raw_payload 4 bs) 0] else [] | _ => [] end) its.
(* messages with log data that ask for an acknowledgement (LOGGING_DATA_ACKED, 267), and their sequence numbers *)
Definition wants_ack (p : packet) : bool := p_id p =? 267.
Definition sequence (p : packet) : Z := field16 (restored 2 (p_payload p)) 0.

(* ---- one event --------------------------------------------------------------------------------------------------------- *)

Definition seqs (cs : list ctl) : list Z := flat_map (fun c : ctl => if raw_id (fst c) =? 268 then [field16 (raw_payload 4 (fst c)) 0] else []) cs.
Lemma seqs_app : forall a b, seqs (a ++ b) = seqs a ++ seqs b. Proof. intros. apply flat_map_app. Qed.

Lemma seqs_lstop : forall f v y g u y' g' b' cs, lstop f v y g (BULog u) = Ok (y', g', b', cs) -> seqs cs = [].
Proof.
  intros f v y g u y' g' b' cs H. destruct (lstop_ask _ _ _ _ _ _ _ _ _ H) as (_ & _ & _ & _ & X). destruct (l_open g); [|subst; reflexivity]. destruct X as (c & -> & S). cbn [proto stop_request request] in S. destruct S as (S & _).
  cbn [seqs flat_map]. rewrite S. reflexivity.
Qed.
Lemma seqs_restart : forall f v y g u y' g' u' cs, ul_restart f v y g u = Ok (y', g', u', cs) -> seqs cs = [].
Proof.
  intros f v y g u y' g' u' cs H. unfold ul_restart in H. inv_bind H. inv_bind H. injection H as <- <- <- <-. eapply (seqs_lstop f v y g u). cbn [lstop]. rewrite E. reflexivity.
Qed.
Lemma seqs_process : forall f v y g u mm b y' g' u' mm' cs, ul_process f v y g u mm b = Ok (y', g', u', mm', cs) -> seqs cs = [].
Proof.
  intros f v y g u mm b y' g' u' mm' cs H. unfold ul_process in H. inv_bind H. inv_bind H. destruct (logging_seq u _) as [[u1 dr]|]. 2:{ injection H as <- <- <- <- <-. reflexivity. }
  destruct (u_hdr u1).
  - inv_bind H. destruct (_ <? 16). { inv_bind H. injection H as <- <- <- <- <-. eapply seqs_restart; eauto. }
    inv_bind H. destruct (negb _). { inv_bind H. injection H as <- <- <- <- <-. eapply seqs_restart; eauto. }
    inv_bind H. inv_bind H. inv_bind H. inv_bind H. inv_bind H. injection H as <- <- <- <- <-. reflexivity.
  - inv_bind H. injection H as <- <- <- <- <-. reflexivity.
Qed.
Lemma seqs_auto : forall f v y g u mem m y' g' b' cs, auto_start_stop f v y g (BULog u) mem m = Ok (y', g', b', cs) -> seqs cs = [] /\ exists u', b' = BULog u'.
Proof.
  intros f v y g u mem m y' g' b' cs H. assert (ST : forall y' g' b' ok, lstart v y g (BULog u) = Ok (y', g', b', ok) -> exists u', b' = BULog u').
  { intros y0 g0 b0 ok X. cbn [lstart] in X. inv_bind X. injection X as <- <- <- <-. eauto. }
  unfold auto_start_stop in H. destruct (l_target g =? -1). { injection H as <- <- <- <-. split; eauto. }
  destruct (l_mode g).
  - destruct (l_open g). { injection H as <- <- <- <-. split; eauto. } inv_bind H. injection H as <- <- <- <-. split; [reflexivity|]. eapply ST; eauto.
  - destruct (_ && _). 2:{ injection H as <- <- <- <-. split; eauto. } inv_bind H. destruct (negb (l_open g) && _). { inv_bind H. injection H as <- <- <- <-. split; [reflexivity|]. eapply ST; eauto. }
    destruct (l_open g && _). 2:{ injection H as <- <- <- <-. split; eauto. } split; [eapply seqs_lstop; eauto|]. cbn [lstop] in H. inv_bind H. injection H as <- <- <- <-. eauto.
  - injection H as <- <- <- <-. split; eauto.
Qed.
Lemma seqs_ack : forall y g n t y' g' c, 0 <= n < 65536 -> send_ctl y g 268 14 (le16 n ++ [t; 0]) = (y', g', c) -> seqs [c] = [n].
Proof.
  intros y g n t y' g' c N H. unfold send_ctl in H. pose proof (f_equal snd H) as A. cbn [snd] in A. subst c. cbn [seqs flat_map fst]. rewrite pack2_raw by lia. cbn [Z.eqb Pos.eqb app].
  assert (P : raw_payload 4 (pack2 (y_seq y) 268 14 (le16 n ++ [t; 0])) = le16 n ++ [t; 0]).
  { unfold raw_payload. change 4%nat with (length (le16 n ++ [t; 0])) at 1. apply pack2_payload; [discriminate|cbn; lia]. }
  rewrite P. unfold field16, le16, u8. cbn [app nth Nat.add]. f_equal. Z.div_mod_to_equations. lia.
Qed.
Lemma restored_two : forall l, (2 <= length l)%nat -> restored 2 l = firstn 2 l. Proof. intros. apply restored_long. auto. Qed.

Definition due_ack (e : lev) : list Z := match e with LMsg p _ => if wants_ack p then [sequence p] else [] | _ => [] end.
Lemma seqs_event : forall f v y g u e y' g' b' cs, levent f v y g (BULog u) e = Ok (y', g', b', cs) -> v_tbl v 267 <> None ->
  (forall p t, e = LMsg p t -> wf_packet p /\ (p_id p = 267 -> (2 <= length (p_payload p))%nat)) -> seqs cs = due_ack e.
Proof.
  intros f v y g u e y' g' b' cs H T G. destruct e as [p t| |]; cbn [levent] in H.
  - inv_bind H. injection H as <- <- <- <-. rename E into LW. destruct (lwrite_split _ _ _ _ _ _ _ _ _ _ _ _ LW) as (y1 & g1 & b1 & c1 & c2 & A & W & ->). clear LW.
    destruct (seqs_auto _ _ _ _ _ _ _ _ _ _ _ A) as (S1 & u1 & ->). rewrite seqs_app, S1. cbn [app]. clear A S1. cbn [lwrite_rest] in W. inv_bind W. injection W as <- <- <- <- <-. rename E into UW.
    destruct (G p t eq_refl) as (WP & LP). unfold ul_write in UW. cbn [m_id info_of] in UW. cbn [due_ack]. unfold wants_ack.
    destruct (Z.eq_dec (p_id p) 267) as [ID|ID].
    + rewrite ID in UW |- *. change (negb ((267 =? 77) || (267 =? 266) || (267 =? 267))) with false in UW. cbv iota in UW. destruct (v_tbl v 267) as [ent|]; [|congruence]. inv_bind UW. change (267 =? 77) with false in UW. change (267 =? 267) with true in UW. cbv iota in UW.
      specialize (LP ID). inv_bind UW. rename E0 into SA. inv_bind SA. inv_bind SA. cbn [m_poff info_of] in E0, E1. pose proof (payload_byte p t 0 ltac:(lia)) as B0. pose proof (payload_byte p t 1 ltac:(lia)) as B1.
      rewrite Nat.add_0_r in B0. rewrite B0 in E0. injection E0 as <-. rewrite B1 in E1. injection E1 as <-.
      destruct (send_ctl y1 g1 268 14 _) as [[y2 g2] c] eqn:SC. injection SA as <- <- <-.
      assert (BY : forall k, is_byte (nth k (p_payload p) 0)). { intros k. apply nth_byte. apply WP. }
      pose proof (BY 0%nat) as Q0. pose proof (BY 1%nat) as Q1. unfold is_byte in Q0, Q1.
      apply seqs_ack in SC; [|lia].
      assert (SQ : sequence p = nth 0 (p_payload p) 0 + 256 * nth 1 (p_payload p) 0). { unfold sequence. rewrite restored_two by auto. unfold field16. rewrite !nth_firstn_lt by lia. reflexivity. }
      rewrite SQ. destruct (_ =? 0).
      * inv_bind UW. injection UW as <- <- <- <- <-. match goal with K : ul_process _ _ _ _ _ _ _ = _ |- _ => pose proof (seqs_process _ _ _ _ _ _ _ _ _ _ _ _ K) as SP end. match goal with |- seqs ?z = _ => match z with c :: ?x => change z with ([c] ++ x) | _ => idtac end end. rewrite seqs_app, SC, SP. reflexivity.
      * inv_bind UW. inv_bind UW. injection UW as <- <- <- <- <-. match goal with K : ul_process _ _ _ _ _ _ _ = _ |- _ => pose proof (seqs_process _ _ _ _ _ _ _ _ _ _ _ _ K) as SP end. match goal with |- seqs ?z = _ => match z with c :: ?x => change z with ([c] ++ x) | _ => idtac end end. rewrite seqs_app, SC, SP. reflexivity.
    + rewrite (proj2 (Z.eqb_neq _ _) ID) in UW |- *. destruct (negb _). { injection UW as <- <- <- <- <-. reflexivity. } destruct (v_tbl v (p_id p)) as [ent|]. 2:{ injection UW as <- <- <- <- <-. reflexivity. }
      inv_bind UW. destruct (p_id p =? 77).
      * inv_bind UW. match type of UW with context [ask_bytes ?a ?b ?c] => destruct (ask_bytes a b c) as [junk yj] end. inv_bind UW. inv_bind UW. inv_bind UW.
        destruct (l_tstart g1). 2:{ injection UW as <- <- <- <- <-. reflexivity. } destruct (_ =? CMD_LOGGING_START). 2:{ injection UW as <- <- <- <- <-. reflexivity. }
        destruct (_ =? 0). 2:{ injection UW as <- <- <- <- <-. reflexivity. } inv_bind UW. destruct (start_alive v _ _) as [ys gs]. injection UW as <- <- <- <- <-. reflexivity.
      * cbn [bind] in UW. destruct (_ =? 0).
        -- inv_bind UW. injection UW as <- <- <- <- <-. cbn [app]. eapply seqs_process; eauto.
        -- inv_bind UW. inv_bind UW. injection UW as <- <- <- <- <-. cbn [app]. eapply seqs_process; eauto.
  - destruct (l_tstart g). 2:{ injection H as <- <- <- <-. reflexivity. } cbn [lcb_start] in H. destruct (send_command y g CMD_LOGGING_START) as [[y2 g2] c] eqn:SB. injection H as <- <- <- <-.
    assert (N : 0 <= CMD_LOGGING_START < 65536) by (unfold CMD_LOGGING_START; lia). destruct (command_request _ _ _ _ _ _ N SB) as (R & _). cbn [seqs flat_map]. rewrite R. reflexivity.
  - destruct (l_talive g). 2:{ injection H as <- <- <- <-. reflexivity. } unfold lcb_alive in H. inv_bind H. injection H as <- <- <- <-. destruct (l_mark g =? l_wtotal g).
    + inv_bind E. inv_bind E. injection E as <- <- <- <-. eapply seqs_lstop; eauto.
    + injection E as <- <- <- <-. reflexivity.
Qed.

(* ---- along the run -------------------------------------------------------------------------------------------------------- *)

Lemma acked_app : forall i a b, acked_by i (a ++ b) = acked_by i a ++ acked_by i b. Proof. intros. apply flat_map_app. Qed.
Lemma handed_to_app : forall i a b, handed_to i (a ++ b) = handed_to i a ++ handed_to i b. Proof. intros. apply flat_map_app. Qed.
Lemma acked_sent : forall i r, acked_by i r = seqs (sent_by i r).
Proof.
  induction r as [|x r IH]; auto. change (x :: r) with ([x] ++ r). rewrite acked_app, IH. unfold sent_by. rewrite flat_map_app, seqs_app. f_equal.
  destruct x as [|j bs m d ds|j bs m ds|t cb| |]; try reflexivity. cbn [acked_by flat_map app]. rewrite Nat.eqb_sym. destruct (Nat.eqb_spec j i) as [->|]; cbn [andb]; [|reflexivity].
  cbn [seqs flat_map fst app]. reflexivity.
Qed.

(* no message asking for an acknowledgement is so short that its sequence number was trimmed *)
Definition long_enough (its : list item) : Prop :=
  forall j p m d ds, In (IRecv j (encode p) m d ds) its -> wf_packet p -> p_id p = 267 -> (2 <= length (p_payload p))%nat.
Lemma event_long : forall v x e its, ev_of v x e -> In x its -> long_enough its -> forall p t, e = LMsg p t -> wf_packet p /\ (p_id p = 267 -> (2 <= length (p_payload p))%nat).
Proof.
  intros v x e its EV IX L p t ->. destruct x as [|j bs m d ds|j bs m ds|t0 cb| |]; try contradiction; [|destruct cb; contradiction]. destruct EV as (W & -> & _). split; auto. intros ID. eapply L; eauto.
Qed.

Definition answered (i : nat) (its : list item) : Prop :=
  exists ps, Forall wf_packet ps /\ handed_to i its = map encode ps /\ acked_by i its = map sequence (filter wants_ack ps).
Lemma handed_event : forall v i x e, ev_of v x e -> concerns i x = true -> handed_to i [x] = match e with LMsg p _ => [encode p] | _ => [] end.
Proof.
  intros v i x e EV C. destruct x as [|j bs m d ds|j bs m ds|t0 cb| |]; try contradiction; destruct e as [p t| |]; try contradiction; try (destruct cb; contradiction).
  - destruct EV as (_ & -> & _). cbn [concerns] in C. cbn [handed_to flat_map]. rewrite C. reflexivity.
  - reflexivity.
  - reflexivity.
Qed.
Lemma acked_event : forall v i x e, ev_of v x e -> acked_by i [x] = [].
Proof. intros v i x e EV. destruct x as [|j bs m d ds|j bs m ds|t0 cb| |]; try contradiction; reflexivity. Qed.
Lemma lives_answered : forall P f v i y l its y' l', lives P f v i y l its y' l' -> v_tbl v 267 <> None -> (exists g u, inner l = Some (g, BULog u)) -> long_enough its ->
  answered i its /\ exists g u, inner l' = Some (g, BULog u).
Proof.
  intros P f v i y l its y' l' H T B. induction H; intros LE.
  - split; auto. exists []. auto.
  - destruct IHlives as ((ps & W & HD & AK) & g & u & IN). { intros j p m d ds X. apply (LE j p m d ds). apply in_or_app. auto. }
    pose proof (kevent_keeps _ _ _ _ _ _ _ _ H4 _ _ IN) as (g3 & b3 & IN3 & PR). destruct (kevent_inner _ _ _ _ _ _ _ _ _ _ H4 IN) as (g' & b' & LV & IN').
    assert (EL := event_long v x e _ H2 (in_or_app its (x :: r) x (or_intror (or_introl eq_refl))) LE). pose proof (seqs_event _ _ _ _ _ _ _ _ _ _ LV T EL) as SE.
    split. 2:{ rewrite IN' in IN3. injection IN3 as <- <-. destruct b'; try discriminate PR. eauto. }
    assert (AE : answered i ((its ++ [x]) ++ r)).
    { exists (ps ++ match e with LMsg p _ => [p] | _ => [] end). rewrite !handed_to_app, !acked_app, HD, AK, (handed_event v i x e H2 H1), (acked_event v i x e H2), (acked_sent i r), H6, SE.
      replace (handed_to i r) with (@nil (list Z)) by (symmetry; apply handed_ctls; auto). rewrite filter_app, !map_app, !app_nil_r. split; [|split].
      - apply Forall_app. split; auto. destruct e as [p t| |]; [|constructor|constructor]. constructor; [apply (EL p t eq_refl)|constructor].
      - f_equal. destruct e; reflexivity.
      - f_equal. destruct e as [p t| |]; [|reflexivity|reflexivity]. cbn [due_ack filter]. destruct (wants_ack p); reflexivity. }
    rewrite <- app_assoc in AE. exact AE.
  - destruct IHlives as ((ps & W & HD & AK) & g & u & IN). { intros j p m d ds X. apply (LE j p m d ds). apply in_or_app. auto. }
    split; [|eauto]. exists ps. rewrite handed_to_app, acked_app, (acked_sent i r), H1. replace (handed_to i r) with (@nil (list Z)) by (symmetry; apply handed_none; auto). cbn [seqs flat_map]. rewrite !app_nil_r. auto.
Qed.

(* ---- theorems ------------------------------------------------------------------------------------------------------------- *)

Section Run.
Variables (f : nat) (v : env) (c : config) (lc : logconf) (its : list item) (w : world).
Hypothesis WT : wf_table (v_tbl v).
Hypothesis RUN : runs f v c its w.
Hypothesis LOG : cf_log c = Some lc.
Hypothesis KN : v_tbl v 267 <> None.
Hypothesis LONG : long_enough its.
Let i : nat := length (confs c).

(* The sequence numbers acknowledged are those of the messages handed to the logger that ask for it: each one, once, in order. *)
Theorem C103_acknowledgements_partial : lc_dialect lc = DCommon ->
  exists ps, Forall wf_packet ps /\ handed_to i its = map encode ps /\ acked_by i its = map sequence (filter wants_ack ps).
Proof.
  intros D. destruct (lives_runs f v c its w lc WT RUN LOG) as (y0 & l0 & l & NF & _ & _ & _ & LV). unfold new_flight in NF. rewrite D in NF. destruct NF as (uj & _ & ->).
  refine (proj1 (lives_answered _ _ _ _ _ _ _ _ _ LV KN _ LONG)). cbn [inner]. eauto.
Qed.

(* They are handed the messages addressed to them (C101), so this is true of all messages that were routed and are addressed to the logger. *)
Theorem C103_traffic_partial : lc_dialect lc = DCommon -> 0 <= cf_sniffer c < 256 ->
  exists ps, Forall wf_packet ps /\ to_record (cf_sniffer c) its ps /\ acked_by i its = map sequence (filter wants_ack ps).
Proof.
  intros D SN. destruct (C103_acknowledgements_partial D) as (ps & W & H & A). exists ps. split; auto. split; auto.
  destruct (lives_runs f v c its w lc WT RUN LOG) as (y0 & l0 & l & _ & _ & _ & AT & _).
  assert (LG : is_logger c i). { unfold is_logger, loggers, i. rewrite LOG. destruct (lc_tlog lc); lia. }
  exists (for_logb (cf_sniffer c)). split; [intros; apply for_log_b|]. rewrite <- H. eapply logger_traffic; eauto.
Qed.

(* An acknowledgement follows the message it acknowledges at once (nothing but messages of loggers in between); whatever the configured dialect. *)
Theorem C103_immediately_partial : talks w i Streaming -> forall a bs m ds b, its = a ++ ICtl i bs m ds :: b -> raw_id bs = 268 ->
  exists a' x r, a = a' ++ x :: r /\ messages r /\ gets (fun p => wants_ack p && (sequence p =? field16 (raw_payload 4 bs) 0)) i x.
Proof.
  intros TK a bs m ds b E ID. destruct (lives_runs f v c its w lc WT RUN LOG) as (y0 & l0 & l & _ & _ & _ & AT & LV).
  destruct (lives_ctl _ _ _ _ _ _ _ _ _ LV a bs m ds b E) as (a' & x & r1 & r2 & b' & -> & -> & [(y1 & l1 & y2 & e & y3 & l3 & _ & _ & EV & _ & KE & KP) CC OC]).
  exists a', x, r1. split; [reflexivity|]. split. { intros z Z. apply OC. apply in_or_app. auto. }
  destruct (inner l1) as [[g q]|] eqn:IN. 2:{ destruct (kevent_none _ _ _ _ _ _ _ _ KE IN) as [N _]. unfold sent_by in N. rewrite flat_map_app in N. apply app_eq_nil in N. destruct N as [_ N]. cbn [flat_map] in N. rewrite (Nat.eqb_refl (flight c)) in N. discriminate N. }
  assert (PQ : exists u, q = BULog u).
  { destruct (kevent_keeps _ _ _ _ _ _ _ _ KE _ _ IN) as (g3 & q3 & IN3 & P3). destruct (KP _ _ IN3) as (g4 & q4 & IN4 & P4). destruct AT as (e4 & L4 & K4). destruct TK as (e5 & L5 & Q). fold (flight c) in L4. unfold i in L5. fold (flight c) in L5. rewrite L4 in L5. injection L5 as <-. rewrite K4 in Q.
    assert (PP : proto q4 = Streaming). { destruct l as [g0 b0|au]; cbn [inner] in IN4. { injection IN4 as _ <-. exact Q. } destruct Q as (g0 & b0 & QE & Q). rewrite IN4 in QE. injection QE as _ <-. exact Q. }
    rewrite P4, P3 in PP. destruct q; try discriminate PP. eauto. }
  destruct PQ as (u & ->). destruct (kevent_inner _ _ _ _ _ _ _ _ _ _ KE IN) as (g' & q' & LE & _).
  assert (IX : In x its). { rewrite E. apply in_or_app. left. apply in_or_app. right. left. reflexivity. }
  pose proof (event_long v x e its EV IX LONG) as EL. pose proof (seqs_event _ _ _ _ _ _ _ _ _ _ LE KN EL) as SE.
  assert (IS : In (field16 (raw_payload 4 bs) 0) (due_ack e)).
  { rewrite <- SE. unfold sent_by. rewrite flat_map_app. rewrite seqs_app. apply in_or_app. right. cbn [flat_map]. unfold i. fold (flight c). rewrite Nat.eqb_refl. rewrite seqs_app. apply in_or_app. left. cbn [seqs flat_map fst]. rewrite ID. left. reflexivity. }
  destruct e as [p t| |]; [|destruct IS|destruct IS]. cbn [due_ack] in IS. destruct (wants_ack p) eqn:WA; [|destruct IS]. destruct IS as [IS|[]].
  destruct x as [|j bs0 m0 d0 ds0|j bs0 m0 ds0|t0 cb| |]; try contradiction; [|destruct cb; contradiction]. destruct EV as (WP & -> & _). exists j, p, m0, d0, ds0. split; auto. split; auto. split.
  - rewrite WA, IS. apply Z.eqb_refl.
  - cbn [concerns] in CC. apply existsb_exists in CC. destruct CC as (k & K1 & K2). apply Nat.eqb_eq in K2. unfold i. fold (flight c). rewrite K2. exact K1.
Qed.
End Run.

(* ---- examples and refutations ---------------------------------------------------------------------------------------------- *)

Definition ua_env : env := mkEnv ux_tbl (fun bs => fold_left (fun a b => a * 256 + b + 1) bs 0) (rx_orc []) (fun _ => true).
Lemma ux_tbl_wf : wf_table ux_tbl.
Proof. intros id e. unfold ux_tbl. repeat (destruct (_ =? _); [intros H; inversion H; subst; unfold is_byte; cbn; lia|]). discriminate. Qed.
Definition ua_conf : config := mkCf [] [mkEc (CUdp true 8 14551) true no_filters []] [] 0 (Some (mkLc DCommon 0 0 MAlways (-1) false)) 0 false 0.
(* messages to the logger (system 2) *)
Definition ua_acked (payload : list Z) : packet := seal 35 (mkPacket (V2 0 0 []) 0 1 1 267 payload 0 0).
Definition ua_data (seq off : Z) (data : list Z) : packet := ua_acked (le16 seq ++ [2; 0; Z.of_nat (length data); off] ++ data).
Definition ua_files (w : world) : option (list (list Z)) := option_map (map d_data) (y_fs (w_sys w)).
Definition ua_proto (w : world) : option protocol := match lookup w 1 with Some e => match ep_kind e with KLog (LFile _ b) => Some (proto b) | _ => None end | None => None end.

Definition ua_packets : list packet := [rx_hb 1 1 0; ua_data 0 16 (ux_hd ++ ux_msg); ua_data 258 255 [2; 0; 66; 9; 9]; ua_data 4 255 [3]].
Definition ua_events : list (list event) := dg_recv (rx_hb 1 1 0) :: [ETimer 1 true false] :: map dg_recv (skipn 1 ua_packets).

Lemma ua_talks : forall w, ua_proto w = Some Streaming -> talks w (length (confs ua_conf)) Streaming.
Proof.
  intros w H. unfold ua_proto in H. unfold talks. change (length (confs ua_conf)) with 1%nat. destruct (lookup w 1) as [e|]; [|discriminate H]. exists e. split; [reflexivity|]. destruct (ep_kind e) as [| | |[g b|a]]; try discriminate H. injection H as H. exact H.
Qed.
Example C103_nonvacuous : exists its w, wf_table (v_tbl ua_env) /\ runs 600 ua_env ua_conf its w /\ v_tbl ua_env 267 <> None /\ long_enough its /\ talks w (length (confs ua_conf)) Streaming /\
  handed_to (length (confs ua_conf)) its = map encode ua_packets /\ acked_by (length (confs ua_conf)) its = [0; 258; 4].
Proof.
  destruct (view_runs _ (fun w its => (handed_to 1 its, acked_by 1 its, ua_proto w, dg_received its)) (map encode ua_packets, [0; 258; 4], Some Streaming, map encode ua_packets)
    600 ua_env (Some []) ua_conf ua_events) as (w & its & R & X). { vm_compute. reflexivity. }
  injection X as X1 X2 X3 X4. exists its, w. split; [apply ux_tbl_wf|]. split; [exact R|]. split; [discriminate|]. split; [|split; [apply ua_talks; exact X3|auto]].
  intros j p m d ds I W. assert (J : In (encode p) (dg_received its)). { unfold dg_received. apply in_flat_map. eexists. split; [exact I|]. left; reflexivity. }
  change (dg_received its = map encode ua_packets) in X4. rewrite X4 in J. apply in_map_iff in J. destruct J as (q & EQ & J).
  assert (WQ : wf_packet q). { cbn [ua_packets In] in J. repeat (destruct J as [<-|J]; [wfb|]). destruct J. }
  apply encode_inj in EQ; auto. subst q. clear - J. cbn [ua_packets In] in J. intros ID. repeat (destruct J as [<-|J]; [vm_compute; repeat constructor|]). destruct J.
Qed.

(* the log data a message carries: its length is byte 4 of the payload *)
Definition log_data (p : packet) : list Z := firstn (Z.to_nat (nth 4 (p_payload p) 0)) (skipn 6 (p_payload p)).

(* An acknowledgement does not mean that the data are stored: a vehicle that is already sending its log when the program starts
   gets an acknowledgement, and no file holds a byte. *)
Theorem C103_stored_refuted : exists f v c lc its w p, wf_table (v_tbl v) /\ runs f v c its w /\ cf_log c = Some lc /\ lc_dialect lc = DCommon /\
  talks w (length (confs c)) Streaming /\ wf_packet p /\ wants_ack p = true /\ log_data p = [1; 2; 3] /\
  handed_to (length (confs c)) its = [encode p] /\ acked_by (length (confs c)) its = [sequence p] /\ (forall l e, y_fs (w_sys w) = Some l -> In e l -> d_data e = []).
Proof.
  destruct (view_runs _ (fun w its => (handed_to 1 its, acked_by 1 its, ua_proto w, ua_files w)) ([encode (ua_data 7 255 [1; 2; 3])], [7], Some Streaming, Some [[]])
    9 ua_env (Some []) ua_conf [dg_recv (ua_data 7 255 [1; 2; 3])]) as (w & its & R & X). { vm_compute. reflexivity. }
  injection X as X1 X2 X3 X4. exists 9%nat, ua_env, ua_conf, (mkLc DCommon 0 0 MAlways (-1) false), its, w, (ua_data 7 255 [1; 2; 3]).
  split; [apply ux_tbl_wf|]. split; [exact R|]. split; [reflexivity|]. split; [reflexivity|]. split; [apply ua_talks; exact X3|]. split; [wfb|]. split; [reflexivity|]. split; [reflexivity|]. split; [exact X1|]. split; [exact X2|].
  intros l e FS I. unfold ua_files in X4. rewrite FS in X4. cbn [option_map] in X4. injection X4 as X4. apply (in_map d_data) in I. rewrite X4 in I. destruct I as [I|[]]. auto.
Qed.

(* Nor is the number right if the message is so short that the sequence number itself was trimmed: its second byte is then taken
   from the checksum. *)
Theorem C103_sequence_refuted : exists f v c lc its w p, wf_table (v_tbl v) /\ runs f v c its w /\ cf_log c = Some lc /\ lc_dialect lc = DCommon /\
  wf_packet p /\ wants_ack p = true /\ handed_to (length (confs c)) its = [encode p] /\ sequence p = 5 /\ acked_by (length (confs c)) its = [12805].
Proof.
  destruct (view_runs _ (fun w its => (handed_to 1 its, acked_by 1 its)) ([encode (ua_acked [5])], [12805])
    9 ua_env (Some []) ua_conf [dg_recv (ua_acked [5])]) as (w & its & R & X). { vm_compute. reflexivity. }
  injection X as X1 X2. exists 9%nat, ua_env, ua_conf, (mkLc DCommon 0 0 MAlways (-1) false), its, w, (ua_acked [5]).
  split; [apply ux_tbl_wf|]. split; [exact R|]. split; [reflexivity|]. split; [reflexivity|]. split; [wfb|]. split; [reflexivity|]. split; [exact X1|]. split; [reflexivity|exact X2].
Qed.

Print Assumptions C103_acknowledgements_partial.
Print Assumptions C103_traffic_partial.
Print Assumptions C103_immediately_partial.
Print Assumptions C103_stored_refuted.
Print Assumptions C103_sequence_refuted.
Print Assumptions C103_nonvacuous.
