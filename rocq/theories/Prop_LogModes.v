(* Properties C47-C49, C60: when loggers open files and which system they follow. *)
From Verif Require Import Base Mav SpecCrc SpecFrame Frame FrameProofs Names NamesProofs Sys LogFile LogFileProofs ULog Loggers LogInv LogStep
  SpecLog LogRun LogModes LogModes2 ExFrame.

(* every heartbeat is long enough to carry base_mode *)
Definition full_heartbeats (ps : list packet) : Prop :=
  forall p, In p ps -> p_id p = 0 -> (7 <= length (p_payload p))%nat.

(* A new logger of kind [b] in while-armed mode and the system it runs in. *)
Definition fresh_in (y : sys) (ep : nat) : Prop := sys_ok y /\ no_timers_of y ep.

Lemma armed_run : forall fuel v ep ext mf ml fcu b y evs y' g' b' cs,
  fresh_in y ep -> Forall wf_packet (offered evs) -> full_heartbeats (offered evs) ->
  (forall before p tail after, evs = before ++ LMsg p tail :: after -> data_packet (kind_of b) p = true ->
     reported_armed (monitored fcu (offered before)) (offered before) false = true) ->
  lrun fuel v y (lg_new ep ext mf ml MWhileArmed fcu) b evs = Ok (y', g', b', cs) ->
  let armed := reported_armed (monitored fcu (offered evs)) (offered evs) false in
  let no_data := forall p, In p (offered evs) -> data_packet (kind_of b) p = false in
  sys_ok y' /\ linv y' g' /\ kind_of b' = kind_of b /\ l_target g' = monitored fcu (offered evs) /\
  (l_mode g' = MWhileArmed \/ l_mode g' = MDisabled) /\
  (l_mode g' = MWhileArmed \/ no_data -> l_open g' = true -> armed = true) /\
  (no_data -> l_mode g' = MDisabled -> l_open g' = false) /\
  (no_data -> ~ In LAlive evs -> l_mode g' = MWhileArmed -> l_open g' = armed).
Proof.
  intros fuel v ep ext mf ml fcu b y evs. induction evs as [|e evs IH] using rev_ind; intros y' g' b' cs (S & N) W FH DA R armed no_data.
  { cbn in R. inversion R; subst. cbn. split; auto. split; [apply linv_new; auto|]. split; auto. split.
    { unfold monitored. cbn. destruct (Z.eqb_spec fcu (-1)); auto. } repeat split; auto; discriminate. }
  pose proof (run_target _ _ _ _ _ _ _ _ _ _ fcu R S (linv_new y ep ext mf ml MWhileArmed fcu N) W eq_refl) as TG.
  apply lrun_snoc in R. destruct R as (y1 & g1 & b1 & c1 & c2 & R & E & ->).
  unfold armed, no_data. clear armed no_data.
  rewrite offered_app in *. apply Forall_app in W. destruct W as [W1 W2].
  assert (DA' : forall before p tail after, evs = before ++ LMsg p tail :: after -> data_packet (kind_of b) p = true ->
     reported_armed (monitored fcu (offered before)) (offered before) false = true).
  { intros before p tail after Q. apply (DA before p tail (after ++ [e])). rewrite Q, <- app_assoc. reflexivity. }
  assert (FH' : full_heartbeats (offered evs)). { intros p I. apply FH. apply in_or_app; auto. }
  destruct (IH _ _ _ _ (conj S N) W1 FH' DA' R) as (S1 & L1 & K1 & T1 & M1 & O1 & P1 & Q1).
  destruct (levent_step _ _ _ _ _ _ _ _ _ _ E S1 L1) as (S2 & L2 & _ & _ & _ & T2).
  split; auto. split; auto.
  assert (NDL : (forall p, In p (offered evs ++ offered [e]) -> data_packet (kind_of b) p = false) ->
                (forall p, In p (offered evs) -> data_packet (kind_of b) p = false)).
  { intros X p I. apply X. apply in_or_app; auto. }
  assert (NAL : ~ In LAlive (evs ++ [e]) -> ~ In LAlive evs). { intros X I. apply X, in_or_app; auto. }
  destruct e as [p tail| |].
  - cbn [offered] in *. destruct (data_packet (kind_of b) p) eqn:DP.
    + (* log data *)
      pose proof (DA evs p tail [] eq_refl DP) as ARM.
      assert (HBF : autopilot_heartbeat p = false).
      { unfold autopilot_heartbeat, data_packet in *. destruct (kind_of b); try discriminate;
        destruct (Z.eqb_spec (p_id p) 0) as [Z0|]; auto; rewrite Z0 in DP; discriminate. }
      assert (MS : monitored fcu (offered evs ++ [p]) = monitored fcu (offered evs)).
      { rewrite monitored_snoc by auto. unfold autopilot_heartbeat in HBF. rewrite <- (andb_assoc _ (p_id p =? 0)), HBF, andb_false_r. reflexivity. }
      assert (AR : reported_armed (monitored fcu (offered evs ++ [p])) (offered evs ++ [p]) false = true).
      { rewrite MS, reported_snoc, HBF. auto. }
      cbn [levent] in E. inv_bind E. inversion E; subst.
      pose proof (learn_inv _ _ (info_of (v_tbl v) p) L1) as L1'.
      destruct (lwrite_split _ _ _ _ _ _ _ _ _ _ _ _ E0) as (y3 & g3 & b3 & c3 & c4 & A & RS & _).
      destruct (auto_spec _ _ _ _ _ _ _ _ _ _ _ A S1 L1') as (K & A0 & _ & _ & A2).
      pose proof (step_auto _ _ _ _ _ _ _ _ _ _ _ A) as [B1 B2 _ _].
      destruct (rest_mode _ _ _ _ _ _ _ _ _ _ _ _ RS (B1 S1 L1') (B2 S1 L1')) as (MM & KK).
      assert (NID : p_id p =? 0 = false).
      { unfold data_packet in *. destruct (kind_of b); try discriminate; destruct (Z.eqb_spec (p_id p) 0) as [Z0|]; auto; rewrite Z0 in DP; discriminate. }
      destruct (learn_ep g1 (info_of (v_tbl v) p)) as (_ & _ & Q3 & Q4 & _). rewrite Q4 in *.
      assert (SAME : g3 = learn_target g1 (info_of (v_tbl v) p)).
      { destruct M1 as [M1|M1].
        - specialize (A2 M1). cbn [m_id info_of] in A2. rewrite NID in A2. cbn [andb] in A2. apply A2.
        - destruct A0 as (_ & X & _); auto. }
      split; [congruence|]. split; auto. split. { rewrite MM, SAME, Q4. auto. } split; auto.
      assert (CX : (forall q, In q (offered evs ++ [p]) -> data_packet (kind_of b) q = false) -> False).
      { intros ND. rewrite (ND p) in DP by (apply in_or_app; cbn; auto). discriminate. }
      split; intros ND; destruct (CX ND).
    + cbn [levent] in E. inv_bind E. inversion E; subst. rewrite <- K1 in DP. inversion W2; subst.
      destruct (armed_message _ _ _ _ _ _ _ _ _ _ _ _ E0 S1 L1 H1) as (K2 & D2 & A2); auto.
      { apply FH. apply in_or_app; cbn; auto. }
      split; [congruence|]. split; auto. rewrite reported_snoc. unfold autopilot_heartbeat. rewrite <- TG.
      assert (MSAME : (p_id p =? 0) && (p_comp p =? 1) && (p_sys p =? l_target g') = false ->
                reported_armed (l_target g') (offered evs) false = reported_armed (monitored fcu (offered evs)) (offered evs) false).
      { intros C. rewrite TG, monitored_snoc in * by auto.
        destruct ((monitored fcu (offered evs) =? -1) && (p_id p =? 0) && (p_comp p =? 1) && (fcu =? -1)) eqn:X; auto.
        apply andb_prop in X. destruct X as [X X4]. apply andb_prop in X. destruct X as [X X3]. apply andb_prop in X. destruct X as [X1 X2].
        rewrite X2, X3, Z.eqb_refl in C. discriminate. }
      destruct M1 as [M1|M1].
      * specialize (A2 M1). destruct ((p_id p =? 0) && (p_comp p =? 1) && (p_sys p =? l_target g')) eqn:C.
        -- destruct A2 as [(X1 & X2)|(X1 & X2 & X3)]; rewrite X1, X2.
           ++ split; auto. split; auto. split; auto. intros; discriminate.
           ++ split; auto. split; [discriminate|]. split; auto; intros; discriminate.
        -- destruct A2 as (X1 & X2). rewrite X1, X2, (MSAME eq_refl). split; auto. split; auto. split; intros; [discriminate|].
           apply Q1; auto.
      * destruct (D2 M1) as (X1 & X2). rewrite X1, X2. split; auto. split; [|split; [auto|intros; discriminate]].
        intros [?|ND] OP; [discriminate|]. rewrite P1 in OP; auto. discriminate.
  - cbn [offered] in *. rewrite app_nil_r in *. destruct (start_tick _ _ _ _ _ _ _ _ _ E) as (X1 & X2 & X3 & _). subst b1.
    rewrite X1, X2. repeat (split; auto).
  - cbn [offered] in *. rewrite app_nil_r in *. destruct (alive_tick _ _ _ _ _ _ _ _ _ E S1 L1) as (X1 & X2 & X3).
    rewrite X1. split; [congruence|]. split; auto. split; auto. split.
    + intros MN OP. destruct (l_open g1) eqn:OG; auto. destruct (X3 eq_refl) as (_ & ->). congruence.
    + split.
      * intros ND MD. destruct (X3 (P1 ND MD)) as (_ & ->). auto.
      * intros ND NA. exfalso. apply NA. apply in_or_app; cbn; auto.
Qed.

(* C47. While-armed mode, any interleaving of messages and timers, all outcomes of system calls.
   Without log data packets and without restarts by the alive timer: the log is open exactly when the last
   heartbeat of the monitored autopilot said armed, unless an opening failed (then logging is disabled). *)
Theorem C47_while_armed_partial : forall fuel v ep ext mf ml fcu b y evs y' g' b' cs,
  fresh_in y ep -> Forall wf_packet (offered evs) -> full_heartbeats (offered evs) ->
  (forall p, In p (offered evs) -> data_packet (kind_of b) p = false) -> ~ In LAlive evs ->
  lrun fuel v y (lg_new ep ext mf ml MWhileArmed fcu) b evs = Ok (y', g', b', cs) ->
  l_open g' = reported_armed (monitored fcu (offered evs)) (offered evs) false \/
  l_mode g' = MDisabled /\ l_open g' = false.
Proof.
  intros fuel v ep ext mf ml fcu b y evs y' g' b' cs F W FH ND NA R.
  assert (DA : forall before p tail after, evs = before ++ LMsg p tail :: after -> data_packet (kind_of b) p = true ->
     reported_armed (monitored fcu (offered before)) (offered before) false = true).
  { intros before p tail after E D. rewrite ND in D; [discriminate|]. rewrite E, offered_app. apply in_or_app. cbn; auto. }
  destruct (armed_run _ _ _ _ _ _ _ _ _ _ _ _ _ _ F W FH DA R) as (_ & _ & _ & _ & M & O & P & Q).
  destruct M as [M|M]; auto.
Qed.

(* With log data and alive restarts: if log data only comes while the vehicle says it is armed and no
   opening failed, the log is never open while the vehicle is disarmed. *)
Theorem C47_closed_when_disarmed_partial : forall fuel v ep ext mf ml fcu b y evs y' g' b' cs,
  fresh_in y ep -> Forall wf_packet (offered evs) -> full_heartbeats (offered evs) ->
  (forall before p tail after, evs = before ++ LMsg p tail :: after -> data_packet (kind_of b) p = true ->
     reported_armed (monitored fcu (offered before)) (offered before) false = true) ->
  lrun fuel v y (lg_new ep ext mf ml MWhileArmed fcu) b evs = Ok (y', g', b', cs) ->
  l_mode g' <> MDisabled ->
  reported_armed (monitored fcu (offered evs)) (offered evs) false = false -> l_open g' = false.
Proof.
  intros fuel v ep ext mf ml fcu b y evs y' g' b' cs F W FH DA R MD A.
  destruct (armed_run _ _ _ _ _ _ _ _ _ _ _ _ _ _ F W FH DA R) as (_ & _ & _ & _ & M & O & _).
  destruct (l_open g') eqn:OP; auto. rewrite O in A; auto; destruct M; auto; congruence.
Qed.

(* example traffic: heartbeats of system 1, armed and disarmed, and log data *)
Definition lx_tbl : table := fun id =>
  if id =? 0 then Some (mkEntry 50 9 None None)
  else if id =? 184 then Some (mkEntry 159 206 (Some 4%nat) (Some 5%nat))
  else if id =? 266 then Some (mkEntry 193 255 (Some 2%nat) (Some 3%nat))
  else None.
Definition lx_hb (sysid mode ap : Z) : packet :=
  seal 50 (mkPacket (V2 0 0 []) 0 sysid 1 0 [0;0;0;0;2;ap;mode;4;3] 0 0).
Definition lx_block (n : Z) : packet :=
  seal 159 (mkPacket (V2 0 0 []) 0 1 1 184 ([n mod 256; n / 256; 0; 0; 2; 0] ++ repeat (n mod 256) 200) 0 0).
Definition lx_env : env := mkEnv lx_tbl (fun _ => 0) (fun _ => 65536) (fun _ => true).
Definition lx_sys : sys := mkSys 0 [] 0 (Some []) 0.
Definition lx_bin (mode : lmode) (fcu : Z) : lg := lg_new 0 ext_bin 0 0 mode fcu.

Example C47_nonvacuous :
  match lrun 9 lx_env lx_sys (lx_bin MWhileArmed (-1)) (BBin 0) [LMsg (lx_hb 1 81 3) []; LMsg (lx_hb 1 209 3) [7]; LStart] with
  | Ok (_, g, _, cs) => l_open g = true /\ l_target g = 1 /\ length cs = 1%nat | _ => False end /\
  match lrun 9 lx_env lx_sys (lx_bin MWhileArmed (-1)) (BBin 0) [LMsg (lx_hb 1 209 3) []; LMsg (lx_hb 2 81 3) []; LMsg (lx_hb 1 81 3) []] with
  | Ok (_, g, _, cs) => l_open g = false | _ => False end.
Proof. vm_compute. repeat split. Qed.

(* Refuted in general: a log data block received while disarmed opens a log. *)
Theorem C47_data_block_refuted : exists v y evs y' g' b' cs,
  fresh_in y 0 /\ Forall wf_packet (offered evs) /\ full_heartbeats (offered evs) /\
  lrun 9 v y (lg_new 0 ext_bin 0 0 MWhileArmed (-1)) (BBin 0) evs = Ok (y', g', b', cs) /\
  reported_armed (monitored (-1) (offered evs)) (offered evs) false = false /\ l_open g' = true.
Proof.
  exists lx_env, lx_sys, [LMsg (lx_hb 1 81 3) []; LMsg (lx_block 7) []].
  destruct (Ok_witness _ (lrun 9 lx_env lx_sys (lg_new 0 ext_bin 0 0 MWhileArmed (-1)) (BBin 0) [LMsg (lx_hb 1 81 3) []; LMsg (lx_block 7) []])
    (fun t => l_open (snd (fst (fst t))))) as ([[[y' g'] b'] cs] & R & O); [vm_compute; reflexivity|].
  exists y', g', b', cs. split. { split; [split; constructor|intros t []]. }
  split. { cbn [offered]. repeat apply Forall_cons; [wfb|wfb|apply Forall_nil]. }
  split. { intros p [<-|[<-|[]]]; vm_compute; intros; try discriminate. repeat constructor. }
  split; [exact R|]. split; [vm_compute; reflexivity|]. exact O.
Qed.

(* ... and a heartbeat whose base_mode was cut off (zero bytes at the end of a MAVLink 2 payload) is read as
   whatever follows the payload, here the checksum. *)
Theorem C47_short_heartbeat_refuted : exists v y p y' g' b' cs,
  fresh_in y 0 /\ wf_packet p /\ says_armed p = false /\
  lrun 9 v y (lg_new 0 ext_bin 0 0 MWhileArmed (-1)) (BBin 0) [LMsg p []] = Ok (y', g', b', cs) /\ l_open g' = true.
Proof.
  set (p := seal 50 (mkPacket (V2 0 0 []) 2 1 1 0 [0;0;0;0;2;3] 0 0)).
  exists lx_env, lx_sys, p.
  destruct (Ok_witness _ (lrun 9 lx_env lx_sys (lg_new 0 ext_bin 0 0 MWhileArmed (-1)) (BBin 0) [LMsg p []])
    (fun t => l_open (snd (fst (fst t))))) as ([[[y' g'] b'] cs] & R & O); [vm_compute; reflexivity|].
  exists y', g', b', cs. split. { split; [split; constructor|intros t []]. } split; [wfb|]. split; [vm_compute; reflexivity|].
  split; [exact R|]. exact O.
Qed.

(* C48. A message that calls for an open log (in mode always: any once the monitored system is known; in
   mode while-armed: an armed heartbeat of its autopilot) and does not leave it open disables the logger ... *)
Definition calls_for_log (g : lg) (p : packet) : Prop :=
  l_mode g = MAlways /\ l_target g <> -1 \/
  l_mode g = MWhileArmed /\ l_target g = p_sys p /\ autopilot_heartbeat p = true /\ says_armed p = true.

Theorem C48_failure_disables : forall fuel v y g b p tail y' g' b' cs,
  sys_ok y -> linv y g -> wf_packet p -> (p_id p = 0 -> (7 <= length (p_payload p))%nat) ->
  data_packet (kind_of b) p = false -> calls_for_log g p ->
  levent fuel v y g b (LMsg p tail) = Ok (y', g', b', cs) -> l_open g' = false -> l_mode g' = MDisabled.
Proof.
  intros fuel v y g b p tail y' g' b' cs S L W FH D CF H OP. cbn [levent] in H. inv_bind H. inversion H; subst.
  destruct CF as [(M & T)|(M & T & A & SA)].
  - destruct (lwrite_split _ _ _ _ _ _ _ _ _ _ _ _ E) as (y1 & g1 & b1 & c1 & c2 & A & R & _).
    pose proof (learn_inv _ _ (info_of (v_tbl v) p) L) as L'.
    assert (LT : learn_target g (info_of (v_tbl v) p) = g).
    { unfold learn_target. destruct (Z.eqb_spec (l_target g) (-1)); [congruence|reflexivity]. }
    rewrite LT in *. destruct (auto_spec _ _ _ _ _ _ _ _ _ _ _ A S L) as (K & _ & A1 & _).
    pose proof (step_auto _ _ _ _ _ _ _ _ _ _ _ A) as [B1 B2 _ _]. rewrite <- K in D.
    destruct (rest_quiet _ _ _ _ _ _ _ _ _ _ _ _ R D (B1 S L) (B2 S L)) as (O & MM & _).
    destruct (A1 M T) as [(X1 & X2)|(X1 & X2)]; congruence.
  - destruct (armed_message _ _ _ _ _ _ _ _ _ _ _ _ E S L W FH D) as (_ & _ & A2). specialize (A2 M).
    pose proof (lwrite_step _ _ _ _ _ _ _ _ _ _ _ _ E) as [_ _ _ KC].
    destruct (KC S (learn_inv _ _ (info_of (v_tbl v) p) L)) as (_ & _ & _ & _ & TG).
    assert (LT : l_target (learn_target g (info_of (v_tbl v) p)) = l_target g).
    { unfold learn_target. assert (PS : is_byte (p_sys p)) by apply W. unfold is_byte in PS.
      destruct (Z.eqb_spec (l_target g) (-1)); [lia|reflexivity]. }
    unfold autopilot_heartbeat in A. apply andb_prop in A. destruct A as [A0 A1]. rewrite A0, A1, TG, LT, T, Z.eqb_refl in A2.
    cbn [andb] in A2. rewrite SA in A2. destruct A2 as [(X & _)|(_ & X & _)]; congruence.
Qed.

(* ... and a disabled logger creates, removes or changes no file and sends nothing, whatever is received
   afterwards, except for log data. *)
Theorem C48_disabled_stays_closed_partial : forall fuel v evs y g b y' g' b' cs,
  sys_ok y -> linv y g -> Forall wf_packet (offered evs) -> full_heartbeats (offered evs) ->
  (forall p, In p (offered evs) -> data_packet (kind_of b) p = false) ->
  l_mode g = MDisabled -> l_open g = false ->
  lrun fuel v y g b evs = Ok (y', g', b', cs) ->
  y_fs y' = y_fs y /\ l_open g' = false /\ l_mode g' = MDisabled /\ cs = [].
Proof.
  intros fuel v evs. induction evs as [|e evs IH]; intros y g b y' g' b' cs S L W FH ND M OP R; cbn [lrun] in R.
  { inversion R; subst. auto. }
  inv_bind R. inv_bind R. inversion R; subst.
  destruct (levent_step _ _ _ _ _ _ _ _ _ _ E S L) as (S1 & L1 & _).
  assert (X : y_fs s = y_fs y /\ l_open l0 = false /\ l_mode l0 = MDisabled /\ l = [] /\ kind_of b0 = kind_of b).
  { destruct e as [p tail| |].
    - cbn [levent] in E. inv_bind E. inversion E; subst.
      destruct (lwrite_split _ _ _ _ _ _ _ _ _ _ _ _ E1) as (y1 & g1 & b1 & c1 & c2 & A & RS & ->).
      pose proof (learn_inv _ _ (info_of (v_tbl v) p) L) as L'.
      destruct (learn_ep g (info_of (v_tbl v) p)) as (_ & _ & Q3 & Q4 & _).
      destruct (auto_spec _ _ _ _ _ _ _ _ _ _ _ A S L') as (K & A0 & _).
      destruct A0 as (-> & -> & -> & ->). { left. congruence. }
      destruct (rest_quiet _ _ _ _ _ _ _ _ _ _ _ _ RS) as (O & MM & KK & Z0); auto. { apply ND. cbn; auto. }
      destruct Z0 as (Z1 & ->); [congruence|]. repeat split; congruence.
    - cbn [levent] in E. destruct (li_closed _ _ L OP) as (TS & _). rewrite TS in E. inversion E; subst. auto.
    - cbn [levent] in E. destruct (li_closed _ _ L OP) as (_ & _ & TA). rewrite TA in E. inversion E; subst. auto. }
  destruct X as (X1 & X2 & X3 & -> & X4). cbn [app].
  assert (W' : Forall wf_packet (offered evs)). { destruct e; cbn [offered] in *; auto. inversion W; auto. }
  assert (FH' : full_heartbeats (offered evs)). { intros p I. apply FH. destruct e; cbn [offered]; auto. right; auto. }
  assert (ND' : forall p, In p (offered evs) -> data_packet (kind_of b0) p = false).
  { intros p I. rewrite X4. apply ND. destruct e; cbn [offered]; auto. right; auto. }
  destruct (IH _ _ _ _ _ _ _ S1 L1 W' FH' ND' X3 X2 E0) as (Y1 & Y2 & Y3 & Y4).
  split; [congruence|auto].
Qed.

Definition lx_full (n : nat) : env := mkEnv lx_tbl (fun _ => 0) (fun k => if Nat.eqb k n then -28 else 65536) (fun _ => true).

Example C48_nonvacuous :
  (* openat fails (the call after statvfs, the six parts of the time and opendir) *)
  match lrun 9 (lx_full 8) lx_sys (lx_bin MAlways 1) (BBin 0) [LMsg (lx_hb 1 81 3) []] with
  | Ok (y, g, _, _) => l_open g = false /\ l_mode g = MDisabled /\
      match lrun 9 (lx_full 8) y g (BBin 0) [LMsg (lx_hb 1 209 3) []; LAlive; LStart] with
      | Ok (y', g', _, cs) => l_open g' = false /\ y_fs y' = Some [] /\ cs = [] | _ => False end
  | _ => False end.
Proof. vm_compute. repeat split. Qed.

(* Refuted: a log data block makes a disabled logger open a file. *)
Theorem C48_reopens_refuted : exists v y g p y' g' b' cs,
  sys_ok y /\ linv y g /\ l_mode g = MDisabled /\ l_open g = false /\ wf_packet p /\
  levent 9 v y g (BBin 0) (LMsg p []) = Ok (y', g', b', cs) /\ l_open g' = true.
Proof.
  exists lx_env, lx_sys, (lx_bin MDisabled 1), (lx_block 7).
  destruct (Ok_witness _ (levent 9 lx_env lx_sys (lx_bin MDisabled 1) (BBin 0) (LMsg (lx_block 7) []))
    (fun t => l_open (snd (fst (fst t))))) as ([[[y' g'] b'] cs] & R & O); [vm_compute; reflexivity|].
  exists y', g', b', cs. split; [split; constructor|]. split. { apply linv_new. intros t []. }
  split; [reflexivity|]. split; [reflexivity|]. split; [wfb|]. split; [exact R|exact O].
Qed.

(* C49. The system a logger follows: configured, otherwise the first autopilot heard; for every logger kind,
   mode, interleaving of messages and timers and all outcomes of system calls. *)
Theorem C49_target : forall fuel v ep ext mf ml mode fcu b y evs y' g' b' cs,
  fresh_in y ep -> Forall wf_packet (offered evs) ->
  lrun fuel v y (lg_new ep ext mf ml mode fcu) b evs = Ok (y', g', b', cs) ->
  l_target g' = monitored fcu (offered evs).
Proof.
  intros fuel v ep ext mf ml mode fcu b y evs y' g' b' cs (S & N) W R.
  eapply run_target; eauto. apply linv_new; auto.
Qed.

(* once known it stays *)
Theorem C49_never_changes : forall fcu ps qs, monitored fcu ps <> -1 -> monitored fcu (ps ++ qs) = monitored fcu ps.
Proof.
  intros fcu ps qs. unfold monitored. destruct (Z.eqb_spec fcu (-1)); auto.
  induction ps as [|p ps IH]; cbn [first_autopilot app]; intros H; [congruence|]. destruct (autopilot_heartbeat p); auto.
Qed.

Example C49_nonvacuous :
  match lrun 9 lx_env lx_sys (lx_bin MAlways (-1)) (BBin 0)
     [LMsg (mkPacket (V2 0 0 []) 0 9 7 0 [0;0;0;0;2;3;81;4;3] 0 0) []; LMsg (lx_hb 4 81 3) []; LMsg (lx_hb 1 81 3) []; LStart] with
  | Ok (_, g, _, _) => l_target g = 4 | _ => False end.
Proof. vm_compute. reflexivity. Qed.

(* ---- automatic selection -------------------------------------------------------------------- *)

Definition full_types (ps : list packet) : Prop := forall p, In p ps -> p_id p = 0 -> (6 <= length (p_payload p))%nat.

(* the first recognised autopilot type in a heartbeat of system s: 12 is PX4, 3 is ArduPilot *)
Fixpoint first_type (s : Z) (ps : list packet) : option kind :=
  match ps with
  | [] => None
  | p :: r =>
    if (p_id p =? 0) && (p_sys p =? s) && (autopilot_type p =? 12) then Some KULog
    else if (p_id p =? 0) && (p_sys p =? s) && (autopilot_type p =? 3) then Some KBin
    else first_type s r
  end.

Definition auto_new (ep : nat) (mf ml : Z) (mode : lmode) (fcu : Z) : autolog := mkAuto ep mf ml mode fcu fcu None.

Lemma lwrite_kind : forall f v y g b mem m y' g' b' mem' cs, lwrite f v y g b mem m = Ok (y', g', b', mem', cs) ->
  sys_ok y -> linv y g -> kind_of b' = kind_of b.
Proof.
  intros f v y g b mem m y' g' b' mem' cs H S L. pose proof (learn_inv _ _ m L) as L'.
  destruct (lwrite_split _ _ _ _ _ _ _ _ _ _ _ _ H) as (y1 & g1 & b1 & c1 & c2 & A & R & _).
  destruct (auto_spec _ _ _ _ _ _ _ _ _ _ _ A S L') as (K & _).
  pose proof (step_auto _ _ _ _ _ _ _ _ _ _ _ A) as [B1 B2 _ _].
  destruct (rest_mode _ _ _ _ _ _ _ _ _ _ _ _ R (B1 S L') (B2 S L')) as (_ & KK). congruence.
Qed.

(* with an inner logger, its kind stays *)
Lemma arun_inner : forall f v evs y a y' a' cs g b, arun f v y a evs = Ok (y', a', cs) -> a_inner a = Some (g, b) ->
  sys_ok y -> linv y g -> exists g' b', a_inner a' = Some (g', b') /\ kind_of b' = kind_of b.
Proof.
  induction evs as [|[p t] evs IH]; intros y a y' a' cs g b H I S L; cbn [arun] in H.
  - inversion H; subst. eauto.
  - inv_bind H. inv_bind H. inversion H; subst. unfold auto_write in E. rewrite I in E. inv_bind E. inversion E; subst.
    pose proof (lwrite_kind _ _ _ _ _ _ _ _ _ _ _ _ E1 S L) as K.
    destruct (lwrite_step _ _ _ _ _ _ _ _ _ _ _ _ E1) as [A1 A2 _ _]. pose proof (learn_inv _ _ (info_of (v_tbl v) p) L) as L'.
    match goal with X : lwrite _ _ _ _ _ _ _ = Ok (?s, ?g1, ?b1, _, _) |- _ =>
      destruct (IH _ _ _ _ _ g1 b1 E0 eq_refl (A1 S L') (A2 S L')) as (g' & b' & I' & K') end.
    exists g', b'. split; auto. congruence.
Qed.

(* C60. The kind of log is that of the first recognised autopilot type in a heartbeat of the monitored system,
   from the moment that system is known; until then nothing is written, sent or scheduled. *)
Fixpoint from_first_autopilot (ps : list packet) : list packet :=
  match ps with
  | [] => []
  | p :: r => if autopilot_heartbeat p then ps else from_first_autopilot r
  end.
Definition while_known (fcu : Z) (ps : list packet) : list packet := if fcu =? -1 then from_first_autopilot ps else ps.

Theorem C60_auto_selection : forall fuel v ep mf ml mode fcu y evs y' a' cs,
  fresh_in y ep -> Forall wf_packet (map fst evs) -> full_types (map fst evs) ->
  arun fuel v y (auto_new ep mf ml mode fcu) evs = Ok (y', a', cs) ->
  option_map (fun i => kind_of (snd i)) (a_inner a') =
    first_type (monitored fcu (map fst evs)) (while_known fcu (map fst evs)) /\
  (a_inner a' = None -> y' = y /\ cs = []).
Proof.
  intros fuel v ep mf ml mode fcu y evs y' a' cs (S & N) W FT R.
  assert (X : forall evs a y' a' cs, a_inner a = None -> a_ep a = ep ->
     Forall wf_packet (map fst evs) -> full_types (map fst evs) -> arun fuel v y a evs = Ok (y', a', cs) ->
     option_map (fun i => kind_of (snd i)) (a_inner a') =
       first_type (monitored (a_target a) (map fst evs)) (while_known (a_target a) (map fst evs)) /\
     (a_inner a' = None -> y' = y /\ cs = [])).
  2:{ apply (X evs (auto_new ep mf ml mode fcu) y' a' cs); auto. }
  clear - S N. induction evs as [|[p t] evs IH]; intros a y' a' cs I EP W FT R; cbn [arun] in R.
  { inversion R; subst. rewrite I. unfold while_known. destruct (a_target a' =? -1); cbn; auto. }
  inv_bind R. inv_bind R. inversion R; subst. cbn [map fst] in *. inversion W as [|? ? Wp Ws]; subst.
  assert (FT' : full_types (map fst evs)) by (intros q Iq; apply FT; right; auto).
  unfold auto_write in E. rewrite I in E. cbn [m_id m_scomp m_ssys m_poff info_of] in E.
  set (t' := if (a_target a =? -1) && (p_id p =? 0) && (p_comp p =? 1) then p_sys p else a_target a) in E.
  assert (PS : 0 <= p_sys p). { destruct Wp as (_ & PS & _). unfold is_byte in PS. lia. }
  destruct (Z.eqb_spec t' (-1)) as [T|T].
  { (* not known yet *)
    assert (T0 : a_target a = -1 /\ autopilot_heartbeat p = false).
    { unfold t', autopilot_heartbeat in *. destruct (Z.eqb_spec (a_target a) (-1)); cbn [andb] in T; [|congruence].
      split; auto. destruct ((p_id p =? 0) && (p_comp p =? 1)); auto. lia. }
    destruct T0 as [T0 T1].
    assert (C : (p_id p =? 0) && (p_sys p =? t') = false).
    { destruct (Z.eqb_spec (p_sys p) t'); [lia|]. apply andb_false_r. }
    rewrite C in E. cbn [negb] in E. inversion E; subst. apply IH in E0; auto. cbn [a_target app] in *. rewrite T in E0. rewrite T0.
    unfold monitored, while_known in *. cbn [first_autopilot from_first_autopilot Z.eqb] in *. rewrite T1.  auto. }
  assert (MT : monitored (a_target a) (p :: map fst evs) = t' /\ monitored t' (map fst evs) = t' /\
     while_known (a_target a) (p :: map fst evs) = p :: map fst evs /\ while_known t' (map fst evs) = map fst evs).
  { unfold monitored, while_known. cbn [first_autopilot from_first_autopilot]. 
    destruct (Z.eqb_spec t' (-1)); [congruence|]. unfold t', autopilot_heartbeat in *.
    destruct (Z.eqb_spec (a_target a) (-1)) as [TA|TA]; cbn [andb] in *; auto.
    destruct ((p_id p =? 0) && (p_comp p =? 1)); [auto|congruence]. }
  destruct MT as (MT1 & MT2 & MT3 & MT4). rewrite MT1, MT3.
  assert (IH' : forall a1 y' a' cs, a_inner a1 = None -> a_ep a1 = a_ep a -> a_target a1 = t' -> arun fuel v y a1 evs = Ok (y', a', cs) ->
    option_map (fun i => kind_of (snd i)) (a_inner a') = first_type t' (map fst evs) /\ (a_inner a' = None -> y' = y /\ cs = [])).
  { intros a1 y1 a1' cs1 I1 EP1 TT R1. pose proof (IH a1 y1 a1' cs1 I1 EP1 Ws FT' R1) as X. rewrite TT, MT2, MT4 in X. exact X. }
  clear IH. cbn [first_type].
  destruct ((p_id p =? 0) && (p_sys p =? t')) eqn:C; cbn [negb andb] in *.
  - apply andb_prop in C. destruct C as [C1 C2]. apply Z.eqb_eq in C1, C2.
    rewrite payload_byte in E by (specialize (FT p (or_introl eq_refl) C1); lia). cbn [bind] in E. fold (autopilot_type p) in E.
    destruct (autopilot_type p =? 12).
    + destruct (ask_bytes (UBUF + UPART) v y) as [junk y1] eqn:J. inversion E; subst.
      assert (NT : no_timers_of s (a_ep a)).
      { pose proof (calm_ask_bytes _ _ _ (lg_new 0 [] 0 0 MDisabled 0) _ _ J) as [TT _ _ _ _ _ _ _ _ _]. unfold no_timers_of. rewrite TT. auto. }
      assert (SS : sys_ok s) by (eapply calm_sys; [apply (calm_ask_bytes _ _ _ (lg_new 0 [] 0 0 MDisabled 0) _ _ J)|auto]).
      eapply arun_inner in E0; [|reflexivity|exact SS|apply linv_new; exact NT].
      destruct E0 as (g' & b' & I' & K'). rewrite I'. cbn [option_map snd]. rewrite K'. split; auto. discriminate.
    + destruct (autopilot_type p =? 3).
      * inversion E; subst. eapply arun_inner in E0; [|reflexivity|exact S|apply linv_new; exact N].
        destruct E0 as (g' & b' & I' & K'). rewrite I'. cbn [option_map snd]. rewrite K'. split; auto. discriminate.
      * inversion E; subst. apply IH' in E0; auto.
  - inversion E; subst. apply IH' in E0; auto.
Qed.

Example C60_nonvacuous :
  match arun 9 lx_env lx_sys (auto_new 0 0 0 MAlways (-1)) [(mkPacket (V2 0 0 []) 0 4 7 0 [0;0;0;0;2;12;81;4;3] 0 0, []);
     (lx_hb 4 81 0, []); (lx_hb 9 81 12, []); (lx_hb 4 81 3, []); (lx_hb 4 81 12, [])] with
  | Ok (_, a, _) => match a_inner a with Some (_, BBin _) => True | _ => False end | _ => False end.
Proof. vm_compute. exact I. Qed.

(* C49 is refuted for the automatic selection: the logger it creates looks for an autopilot again, so the
   system that is logged need not be the one of the first heartbeat. *)
Theorem C49_auto_refuted : exists v y evs y' a' cs g b,
  fresh_in y 0 /\ Forall wf_packet (map fst evs) /\ full_types (map fst evs) /\
  arun 9 v y (auto_new 0 0 0 MAlways (-1)) evs = Ok (y', a', cs) /\
  a_inner a' = Some (g, b) /\ l_open g = true /\ l_target g <> monitored (-1) (map fst evs).
Proof.
  exists lx_env, lx_sys, [(lx_hb 4 81 3, []); (lx_hb 9 81 12, [])].
  destruct (Ok_witness _ (arun 9 lx_env lx_sys (auto_new 0 0 0 MAlways (-1)) [(lx_hb 4 81 3, []); (lx_hb 9 81 12, [])])
    (fun t => match a_inner (snd (fst t)) with Some (g, _) => l_open g && (l_target g =? 9) | None => false end))
    as ([[y' a'] cs] & R & O); [vm_compute; reflexivity|]. cbn [fst snd] in O.
  destruct (a_inner a') as [[g b]|] eqn:I; [|discriminate]. apply andb_prop in O. destruct O as [O1 O2]. apply Z.eqb_eq in O2.
  exists y', a', cs, g, b. split. { split; [split; constructor|intros t []]. }
  split. { cbn [map fst]. repeat apply Forall_cons; [wfb|wfb|apply Forall_nil]. }
  split. { intros p [<-|[<-|[]]]; intros _; vm_compute; repeat constructor. }
  split; [exact R|]. split; [exact I|]. split; auto. rewrite O2. vm_compute. discriminate.
Qed.

Print Assumptions C47_while_armed_partial.
Print Assumptions C47_closed_when_disarmed_partial.
Print Assumptions C47_data_block_refuted.
Print Assumptions C47_short_heartbeat_refuted.
Print Assumptions C48_failure_disables.
Print Assumptions C48_disabled_stays_closed_partial.
Print Assumptions C48_reopens_refuted.
Print Assumptions C49_target.
Print Assumptions C49_never_changes.
Print Assumptions C49_auto_refuted.
Print Assumptions C60_auto_selection.
