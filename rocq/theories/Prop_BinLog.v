(* Properties C50-C52: binary log. *)
From Verif Require Import Base Mav SpecCrc SpecFrame Frame FrameProofs Names NamesProofs Sys LogFile LogFileProofs ULog Loggers LogInv LogStep
  SpecLog LogRun LogModes LogModes2 BinProofs CrcProofs ExFrame Prop_LogModes.

(* A binary logger with an open, still empty file; every system call made from here on succeeds, writes are complete. *)
Definition new_log (v : env) (y : sys) (g : lg) : Prop :=
  sys_ok y /\ linv y g /\ l_open g = true /\ l_mode g = MAlways /\ content y (l_name g) [] /\
  (forall k, (y_pos y <= k)%nat -> 200 <= v_orc v k).

(* the dialect knows the data block message, and MAVLink 1 data blocks are not cut short *)
Definition log_dialect (v : env) (ps : list packet) : Prop :=
  (exists e, v_tbl v 184 = Some e /\ e_max_len e = 206) /\
  (forall p, In p ps -> p_id p = 184 -> wf_packet p /\ (p_ver p = V1 -> (206 <= length (p_payload p))%nat)).

(* C50: whatever blocks arrive, in whatever order, with duplicates and gaps and any other traffic between them,
   the file is the image of the accepted blocks. *)
Theorem C50_file_content : forall fuel v y g a evs,
  new_log v y g -> ~ In LAlive evs -> log_dialect v (offered evs) ->
  (forall n d, In (n, d) (blocks (offered evs)) -> n < 4294967296 / 200) ->
  exists y' g' a' cs data, lrun fuel v y g (BBin a) evs = Ok (y', g', BBin a', cs) /\
    l_open g' = true /\ l_name g' = l_name g /\ content y' (l_name g) data /\
    log_image (accepted (waiting g) (blocks (offered evs))) data.
Proof.
  intros fuel v y g a evs B NA ((e & T & ML) & D) N. change (4294967296 / 200) with 21474836 in N.
  destruct (bin_run fuel v e evs y g a [] B NA T ML) as (y' & g' & a' & cs & data & R & B' & N' & A & I & _).
  { intros p P ID. destruct (D p P ID) as [W V]. split; [split; auto|]. apply (N (block_number p) (block_data p)).
    unfold blocks. apply in_map_iff. exists p. split; auto. apply filter_In. split; auto. apply Z.eqb_eq; auto. }
  exists y', g', a', cs, data. destruct B' as (S & L & O & M & C & _). split; auto. split; auto. split; auto. split; [congruence|].
  apply (I []). split; [|reflexivity]. intros n i _ _. cbn [latest]. destruct (Z.to_nat (200 * n) + i)%nat; reflexivity.
Qed.

(* C51, proved part: in such a run the acknowledged blocks are exactly the accepted ones, in order ... *)
Theorem C51_acknowledged_partial : forall fuel v y g a evs y' g' b' cs,
  new_log v y g -> ~ In LAlive evs -> log_dialect v (offered evs) ->
  (forall n d, In (n, d) (blocks (offered evs)) -> n < 4294967296 / 200) ->
  lrun fuel v y g (BBin a) evs = Ok (y', g', b', cs) ->
  acks cs = map (fun b => (fst b, 1)) (accepted (waiting g) (blocks (offered evs))).
Proof.
  intros fuel v y g a evs y' g' b' cs B NA ((e & T & ML) & D) N R. change (4294967296 / 200) with 21474836 in N.
  destruct (bin_run fuel v e evs y g a [] B NA T ML) as (y2 & g2 & a2 & cs2 & data & R' & _ & _ & A & _).
  { intros p P ID. destruct (D p P ID) as [W V]. split; [split; auto|]. apply (N (block_number p) (block_data p)).
    unfold blocks. apply in_map_iff. exists p. split; auto. apply filter_In. split; auto. apply Z.eqb_eq; auto. }
  rewrite R in R'. inversion R'; subst. auto.
Qed.

(* ... and every report is this: for each accepted block, as many negative reports as blocks are skipped since the highest one of this
   log, then its acknowledgement; the count begins anew with every log, whatever the logger did before *)
Lemma opened_zero : forall fuel v y g a p tail y' g' b' cs, levent fuel v y g (BBin a) (LMsg p tail) = Ok (y', g', b', cs) -> sys_ok y -> linv y g ->
  l_open g = false -> l_open g' = true -> p_id p <> 184 -> b' = BBin 0.
Proof.
  intros fuel v y g a p tail y' g' b' cs H S L O O' ID. cbn [levent] in H. unfold lwrite in H. destruct (learn_same g (info_of (v_tbl v) p)) as (Q1 & Q2 & Q3 & Q4 & Q5).
  pose proof (learn_inv _ _ (info_of (v_tbl v) p) L) as L'. set (g0 := learn_target g (info_of (v_tbl v) p)) in *. rewrite O in Q1.
  destruct (auto_start_stop fuel v y g0 (BBin a) (encode p ++ tail) (info_of (v_tbl v) p)) as [[[[y1 g1] b1] c1]| |] eqn:A; cbn [bind] in H; try discriminate.
  assert (ST : forall y2 g2 b2 ok, lstart v y g0 (BBin a) = Ok (y2, g2, b2, ok) -> l_open (if ok then g2 else set_mode g2 MDisabled) = true -> b2 = BBin 0).
  { intros y2 g2 b2 ok X OP. cbn [lstart] in X. unfold bin_start in X. destruct (log_start_spec v y g0 S L') as (y3 & g3 & ok3 & LS & _ & _ & _ & _ & _ & _ & LO & _).
    rewrite LS in X. cbn [bind] in X. injection X as <- <- <- <-. destruct ok3; auto. exfalso. cbn [set_mode l_open] in OP. rewrite LO, Q1 in OP. discriminate. }
  assert (B1 : l_open g1 = true -> b1 = BBin 0).
  { unfold auto_start_stop in A. destruct (l_target g0 =? -1). { injection A as <- <- <- <-. congruence. }
    destruct (l_mode g0).
    - rewrite Q1 in A. inv_bind A. injection A as <- <- <- <-. eauto.
    - destruct (_ && _ && _). 2:{ injection A as <- <- <- <-. congruence. } inv_bind A. rewrite Q1 in A. cbn [negb andb] in A. destruct (128 <=? a0).
      + inv_bind A. injection A as <- <- <- <-. eauto.
      + injection A as <- <- <- <-. congruence.
    - injection A as <- <- <- <-. congruence. }
  assert (BK : exists a1, b1 = BBin a1).
  { assert (LK : forall y2 g2 b2 ok, lstart v y g0 (BBin a) = Ok (y2, g2, b2, ok) -> exists a1, b2 = BBin a1).
    { intros y2 g2 b2 ok X. cbn [lstart] in X. inv_bind X. injection X as <- <- <- <-. eauto. }
    unfold auto_start_stop in A. destruct (l_target g0 =? -1). { injection A as <- <- <- <-. eauto. }
    destruct (l_mode g0).
    - rewrite Q1 in A. inv_bind A. injection A as <- <- <- <-. eauto.
    - destruct (_ && _ && _). 2:{ injection A as <- <- <- <-. eauto. } inv_bind A. rewrite Q1 in A. cbn [negb andb] in A. destruct (128 <=? a0).
      + inv_bind A. injection A as <- <- <- <-. eauto.
      + injection A as <- <- <- <-. eauto.
    - injection A as <- <- <- <-. eauto. }
  destruct BK as (a1 & ->). unfold bin_write in H. cbn [m_id info_of] in H. rewrite (proj2 (Z.eqb_neq _ _) ID) in H. cbn [negb bind] in H. injection H as <- <- <- <-. auto.
Qed.
Theorem C51_reports_partial : forall fuel v y0 g0 a p tail y g b c0 evs y' g' b' cs,
  sys_ok y0 -> linv y0 g0 -> l_open g0 = false -> p_id p <> 184 -> levent fuel v y0 g0 (BBin a) (LMsg p tail) = Ok (y, g, b, c0) ->
  new_log v y g -> ~ In LAlive evs -> log_dialect v (offered evs) ->
  (forall n d, In (n, d) (blocks (offered evs)) -> n < 4294967296 / 200) ->
  lrun fuel v y g b evs = Ok (y', g', b', cs) ->
  reports cs = block_reports 0 (accepted (waiting g) (blocks (offered evs))).
Proof.
  intros fuel v y0 g0 a p tail y g b c0 evs y' g' b' cs S0 L0 O0 ID EV B NA ((e & T & ML) & D) N R. change (4294967296 / 200) with 21474836 in N.
  assert (b = BBin 0) as -> by (eapply opened_zero; eauto; apply B).
  destruct (bin_run fuel v e evs y g 0 [] B NA T ML) as (y2 & g2 & a2 & cs2 & data & R' & _ & _ & _ & _ & RP).
  { intros q P IDq. destruct (D q P IDq) as [W V]. split; [split; auto|]. apply (N (block_number q) (block_data q)).
    unfold blocks. apply in_map_iff. exists q. split; auto. apply filter_In. split; auto. apply Z.eqb_eq; auto. }
  rewrite R in R'. inversion R'; subst. apply RP. lia.
Qed.

Lemma block_event : forall fuel v y g a p tail y' g' b' cs data,
  levent fuel v y g (BBin a) (LMsg p tail) = Ok (y', g', b', cs) -> sys_ok y -> linv y g -> l_open g = true -> l_mode g = MAlways ->
  content y (l_name g) data -> log_dialect v [p] -> p_id p = 184 ->
  (statuses cs = [] \/ statuses cs = [(BLOCK_STOP, 1)]) \/
  (statuses cs = repeat (block_number p, 0) (nack_count a (block_number p)) ++ [(block_number p, 1)] /\
   content y' (l_name g) (file_put data (Z.to_nat (u32 (block_number p * 200))) (block_data p))).
Proof.
  intros fuel v y g a p tail y' g' b' cs data H S L O M C ((ent & T & ML) & D) ID.
  destruct (D p (or_introl eq_refl) ID) as [W V]. assert (B : block_ok p) by (split; auto).
  cbn [levent] in H. unfold lwrite in H. destruct (learn_same g (info_of (v_tbl v) p)) as (Q1 & Q2 & Q3 & Q4 & Q5).
  rewrite auto_idle in H by congruence. cbn [bind] in H. set (g0 := learn_target g (info_of (v_tbl v) p)) in *.
  unfold bin_write in H. cbn [m_id info_of] in H. rewrite ID, T in H. cbn [Z.eqb negb Pos.eqb] in H.
  destruct (bin_read v ent p tail B T ML) as (pl & tz & mm & b & PD & LC & R32 & SL).
  rewrite PD in H. cbn [bind] in H. rewrite LC in H. cbn [bind] in H. rewrite R32 in H. cbn [bind] in H.
  pose proof (block_number_range p W) as BR. rewrite Q4 in H. destruct (l_tstart g) eqn:TS.
  - destruct (Z.eqb_spec (block_number p) 0) as [Z0|Z0].
    + destruct (remove_start_timeout y g0) as [[y1 g1]| |] eqn:RS; cbn [bind] in H; try discriminate.
      destruct (start_alive v y1 g1) as [y2 g2] eqn:SA. cbn [bind] in H. rewrite SL in H. cbn [bind] in H.
      destruct (step_started _ _ _ _ _ _ _ RS SA) as (ST & O2 & N2 & _ & T2 & F2 & M2 & _).
      destruct (bin_process v y2 g2 a (block_number p) (block_data p)) as [[[[y3 g3] a3] c3]| |] eqn:BP; cbn [bind app] in H; try discriminate.
      inversion H; subst. rewrite <- Q3, <- N2. eapply bin_process_cases; eauto. apply block_data_length.
      intros _. rewrite N2, Q3. eapply content_fs; eauto.
    + destruct (send_block_status y g0 BLOCK_STOP 1) as [[y1 g1] c] eqn:SB. cbn [bind app] in H. inversion H; subst. left; right.
      assert (BB : 0 <= BLOCK_STOP < 4294967296) by (unfold BLOCK_STOP; lia).
      destruct (send_block_status_spec _ _ _ _ _ _ _ BB SB) as (A1 & _). unfold statuses. cbn [map]. rewrite A1. reflexivity.
  - cbn [bind] in H. rewrite SL in H. cbn [bind] in H.
    destruct (bin_process v y g0 a (block_number p) (block_data p)) as [[[[y3 g3] a3] c3]| |] eqn:BP; cbn [bind app] in H; try discriminate.
    inversion H; subst. rewrite <- Q3. eapply bin_process_cases; eauto. apply block_data_length.
    intros _. rewrite Q3. auto.
Qed.

(* ... and whatever the system calls return, a block that was not stored completely is not acknowledged ... *)
Theorem C51_only_stored_partial : forall fuel v y g a p tail y' g' b' cs data n,
  sys_ok y -> linv y g -> l_open g = true -> l_mode g = MAlways -> content y (l_name g) data -> log_dialect v [p] ->
  p_id p = 184 -> block_number p < 4294967296 / 200 ->
  levent fuel v y g (BBin a) (LMsg p tail) = Ok (y', g', b', cs) ->
  In (n, 1) (statuses cs) -> n <> BLOCK_STOP ->
  n = block_number p /\ exists data', content y' (l_name g) data' /\
    forall i, (i < 200)%nat -> nth (Z.to_nat (200 * n) + i) data' 0 = nth i (block_data p) 0.
Proof.
  intros fuel v y g a p tail y' g' b' cs data n S L O M C D ID N H I NS. change (4294967296 / 200) with 21474836 in N.
  assert (W : wf_packet p) by (apply (proj2 D p (or_introl eq_refl) ID)). pose proof (block_number_range p W) as BR.
  destruct (block_event _ _ _ _ _ _ _ _ _ _ _ _ H S L O M C D ID) as [[E|E]|[E C']]; rewrite E in I.
  - destruct I.
  - destruct I as [I|[]]. inversion I; congruence.
  - assert (X : n = block_number p).
    { apply in_app_or in I. destruct I as [I|[I|[]]]; [apply repeat_spec in I; congruence|congruence]. }
    split; auto. eexists. split; [exact C'|]. intros i Hi. subst n. rewrite file_put_nth, block_data_length.
    rewrite u32_small by lia. replace (block_number p * 200) with (200 * block_number p) by lia.
    assert (Y : ((Z.to_nat (200 * block_number p) <=? Z.to_nat (200 * block_number p) + i) &&
                 (Z.to_nat (200 * block_number p) + i <? Z.to_nat (200 * block_number p) + 200) = true)%nat).
    { apply andb_true_intro. split; [apply Nat.leb_le|apply Nat.ltb_lt]; lia. }
    rewrite Y. f_equal. lia.
Qed.

Definition bx_trailer : list lev := [LMsg (lx_hb 1 81 3) []; LStart; LMsg (lx_block 0) []].
Definition bx_run (more : list lev) := lrun 9 lx_env lx_sys (lx_bin MAlways 1) (BBin 0) (bx_trailer ++ more).

(* the state after the first heartbeat: an open empty file *)
Definition bx_state : sys * lg :=
  match lrun 9 lx_env lx_sys (lx_bin MAlways 1) (BBin 0) [LMsg (lx_hb 1 81 3) []] with
  | Ok (y, g, _, _) => (y, g) | _ => (lx_sys, lx_bin MAlways 1) end.

Lemma bx_state_new : new_log lx_env (fst bx_state) (snd bx_state).
Proof.
  destruct (lrun_inv 9 lx_env [LMsg (lx_hb 1 81 3) []] lx_sys (lx_bin MAlways 1) (BBin 0) (fst bx_state) (snd bx_state) (BBin 0) []) as (S & L & _).
  { vm_compute. reflexivity. } { split; constructor. } { apply linv_new. intros t []. }
  split; auto. split; auto. split; [vm_compute; reflexivity|]. split; [vm_compute; reflexivity|]. split.
  - eexists. split; [vm_compute; reflexivity|]. split.
    + eexists. split; [left; reflexivity|]. vm_compute. reflexivity.
    + intros e [<-|[]] _. reflexivity.
  - intros. cbn. lia.
Qed.

Definition bx_events : list lev :=
  [LStart; LMsg (lx_block 3) []; LMsg (lx_block 0) [1]; LMsg (lx_block 2) []; LMsg (lx_hb 1 209 3) []; LMsg (lx_block 0) []].

Lemma bx_dialect : log_dialect lx_env (offered bx_events).
Proof.
  split. { eexists. split; reflexivity. }
  assert (W : Forall (fun p => wf_packet p /\ p_ver p <> V1) (offered bx_events)).
  { cbn [offered bx_events]. repeat (apply Forall_cons; [split; [wfb|discriminate]|]). apply Forall_nil. }
  intros p I _. rewrite Forall_forall in W. destruct (W p I). split; auto. congruence.
Qed.

(* block 3 is refused, 0 and 2 are stored, 1 is a hole *)
Example C50_nonvacuous : map fst (accepted (waiting (snd bx_state)) (blocks (offered bx_events))) = [0; 2; 0] /\
  match lrun 9 lx_env (fst bx_state) (snd bx_state) (BBin 0) bx_events with
  | Ok (y, g, _, cs) => match y_fs y with
      | Some [e] => d_name e = l_name g /\ d_data e = repeat 0 400 ++ repeat 2 200 /\ acks cs = [(0, 1); (2, 1); (0, 1)]
      | _ => False end
  | _ => False end.
Proof. vm_compute. auto. Qed.

(* the logger was stopped after block 7; the next log begins with block 0, and leaves a gap of two *)
Example C51_reports_nonvacuous :
  match lrun 9 lx_env lx_sys (lx_bin MAlways 1) (BBin 7) [LMsg (lx_hb 1 81 3) []] with
  | Ok (y, g, b, _) => l_open g = true /\
      match lrun 9 lx_env y g b [LMsg (lx_block 0) []; LMsg (lx_block 3) []; LMsg (lx_block 2) []; LMsg (lx_block 4) []] with
      | Ok (_, _, _, cs) => reports cs = [(0, 1); (3, 0); (3, 0); (3, 1); (2, 1); (4, 1)]
      | _ => False end
  | _ => False end.
Proof. vm_compute. auto. Qed.

Definition pair_dec : forall a b : Z * Z, {a = b} + {a <> b}.
Proof. decide equality; apply Z.eq_dec. Defined.

(* ... but the numbers of skipped blocks are not reported: here blocks 1 and 2 are skipped, and both NACKs name block 3. *)
Theorem C51_nack_refuted : exists v y g a evs y' g' b' cs,
  new_log v y g /\ log_dialect v (offered evs) /\ map fst (accepted (waiting g) (blocks (offered evs))) = [0; 3] /\
  lrun 9 v y g (BBin a) evs = Ok (y', g', b', cs) /\ statuses cs = [(0, 1); (3, 0); (3, 0); (3, 1)].
Proof.
  exists lx_env, (fst bx_state), (snd bx_state), 0, [LMsg (lx_block 0) []; LMsg (lx_block 3) []].
  destruct (Ok_witness _ (lrun 9 lx_env (fst bx_state) (snd bx_state) (BBin 0) [LMsg (lx_block 0) []; LMsg (lx_block 3) []])
    (fun t => if list_eq_dec pair_dec (statuses (snd t)) [(0, 1); (3, 0); (3, 0); (3, 1)] then true else false))
    as ([[[y' g'] b'] cs] & R & E); [vm_compute; reflexivity|].
  exists y', g', b', cs. split; [apply bx_state_new|]. split.
  { split. { eexists. split; reflexivity. }
    assert (W : Forall (fun p => wf_packet p /\ p_ver p <> V1) (offered [LMsg (lx_block 0) []; LMsg (lx_block 3) []])).
    { cbn [offered]. repeat (apply Forall_cons; [split; [wfb|discriminate]|]). apply Forall_nil. }
    intros p I _. rewrite Forall_forall in W. destruct (W p I). split; auto. congruence. }
  split; [vm_compute; reflexivity|]. split; [exact R|].
  cbn [snd] in E. destruct (list_eq_dec _ _ _); auto. discriminate.
Qed.

(* C52, proved part: the traffic caused by one block is bounded by the size of the gap it leaves; a block that
   follows the last acknowledged one, or repeats an older one, causes at most one message. *)
Theorem C52_by_gap_partial : forall fuel v y g a p tail y' g' b' cs data,
  sys_ok y -> linv y g -> l_open g = true -> l_mode g = MAlways -> content y (l_name g) data -> log_dialect v [p] ->
  p_id p = 184 -> 0 <= a < 4294967295 ->
  levent fuel v y g (BBin a) (LMsg p tail) = Ok (y', g', b', cs) ->
  Z.of_nat (length cs) <= Z.max 1 (block_number p - a).
Proof.
  intros fuel v y g a p tail y' g' b' cs data S L O M C D ID A H.
  assert (LL : length cs = length (statuses cs)) by (unfold statuses; rewrite map_length; reflexivity). rewrite LL.
  destruct (block_event _ _ _ _ _ _ _ _ _ _ _ _ H S L O M C D ID) as [[E|E]|[E C']]; rewrite E; cbn [length]; try lia.
  rewrite app_length, repeat_length. unfold nack_count. cbn [length]. rewrite u32_small by lia.
  destruct (Z.ltb_spec (block_number p) a); lia.
Qed.

(* ... but there is no constant bound: for any bound below 2^32 - 2 there is a single packet that makes the
   logger send more messages than that. *)
Definition bx_started : sys * lg :=
  match lrun 9 lx_env (fst bx_state) (snd bx_state) (BBin 0) [LMsg (lx_block 0) []] with
  | Ok (y, g, _, _) => (y, g) | _ => (lx_sys, lx_bin MAlways 1) end.

Lemma bx_started_reached : exists b cs, lrun 9 lx_env lx_sys (lx_bin MAlways 1) (BBin 0) [LMsg (lx_hb 1 81 3) []; LMsg (lx_block 0) []] =
  Ok (fst bx_started, snd bx_started, b, cs) /\ b = BBin 0.
Proof. eexists. eexists. split; vm_compute; reflexivity. Qed.

Definition bx_packet (n : Z) : packet := seal 159 (mkPacket (V2 0 0 []) 0 1 1 184 (le32 n ++ [2; 0] ++ repeat 1 200) 0 0).

Lemma seal_ok : forall x p tbl e, tbl (p_id p) = Some e -> e_crc_extra e = x ->
  is_byte (p_crc0 (seal x p)) /\ is_byte (p_crc1 (seal x p)) /\ acceptable tbl (seal x p).
Proof.
  intros x p tbl e T X. unfold seal. cbn [p_crc0 p_crc1]. set (c := crc_spec (body p ++ [x])).
  assert (R : 0 <= c < 65536) by (apply run_range; lia). unfold is_byte.
  split; [|split]; try (Z.div_mod_to_equations; lia).
  unfold acceptable, crc_matches. cbn [p_id]. rewrite T, X. cbn [p_crc0 p_crc1].
  change (crc_spec (body p ++ [x]) = c mod 256 + 256 * (c / 256)). fold c. Z.div_mod_to_equations. lia.
Qed.

Lemma bx_packet_ok : forall n, wf_packet (bx_packet n) /\ acceptable lx_tbl (bx_packet n).
Proof.
  intros n. destruct (seal_ok 159 (mkPacket (V2 0 0 []) 0 1 1 184 (le32 n ++ [2; 0] ++ repeat 1 200) 0 0) lx_tbl _ eq_refl eq_refl) as (A & B & C).
  split; auto. unfold bx_packet, wf_packet. set (q := seal _ _) in *.
  split; [cbn; unfold is_byte; lia|]. split; [cbn; unfold is_byte; lia|]. split; [cbn; unfold is_byte; lia|]. split; auto. split; auto.
  unfold q, seal. cbn [p_payload p_ver p_id]. split.
  - unfold bytes. apply Forall_app. split.
    + unfold le32, u8. repeat apply Forall_cons; try apply Forall_nil; unfold is_byte; apply Z.mod_pos_bound; lia.
    + apply bytesb_ok. vm_compute. reflexivity.
  - split; [rewrite !app_length, repeat_length; cbn; lia|]. cbn. unfold is_byte. repeat split; try lia; constructor.
Qed.

Lemma bx_number : forall n, 0 <= n < 4294967296 -> block_number (bx_packet n) = n.
Proof.
  intros n N. unfold block_number, bx_packet, seal. cbn [p_payload]. rewrite restored_long by (rewrite !app_length, repeat_length; cbn; lia).
  rewrite firstn_all2 by (rewrite !app_length, repeat_length; cbn; lia). apply le32_field; auto.
Qed.

Theorem C52_constant_refuted : forall bound, 0 <= bound < 4294967294 -> exists v y0 g0 evs y g b p cs0,
  fresh_in y0 0 /\ lrun 9 v y0 g0 (BBin 0) evs = Ok (y, g, b, cs0) /\ wf_packet p /\ acceptable (v_tbl v) p /\
  exists y' g' b' cs, levent 9 v y g b (LMsg p []) = Ok (y', g', b', cs) /\ bound < Z.of_nat (length cs).
Proof.
  intros bound B. set (n := bound + 2).
  exists lx_env, lx_sys, (lx_bin MAlways 1), [LMsg (lx_hb 1 81 3) []; LMsg (lx_block 0) []], (fst bx_started), (snd bx_started), (BBin 0), (bx_packet n).
  destruct bx_started_reached as (b0 & cs0 & R & ->). exists cs0. split. { split; [split; constructor|intros t []]. } split; auto.
  destruct (bx_packet_ok n) as [W A]. split; auto. split; auto.
  assert (BN : block_number (bx_packet n) = n) by (apply bx_number; lia).
  assert (ID : p_id (bx_packet n) = 184) by reflexivity.
  cbn [levent]. unfold lwrite. destruct (learn_same (snd bx_started) (info_of (v_tbl lx_env) (bx_packet n))) as (Q1 & Q2 & Q3 & Q4 & Q5).
  assert (O : l_open (snd bx_started) = true) by (vm_compute; reflexivity). assert (M : l_mode (snd bx_started) = MAlways) by (vm_compute; reflexivity).
  assert (TS : l_tstart (snd bx_started) = None) by (vm_compute; reflexivity).
  rewrite auto_idle by congruence. cbn [bind]. set (g1 := learn_target _ _) in *. unfold bin_write. cbn [m_id info_of]. rewrite ID.
  change (v_tbl lx_env 184) with (Some (mkEntry 159 206 (Some 4%nat) (Some 5%nat))). cbn [Z.eqb negb Pos.eqb].
  destruct (bin_read lx_env (mkEntry 159 206 (Some 4%nat) (Some 5%nat)) (bx_packet n) []) as (pl & tz & mm & b & PD & LC & R32 & SL); try reflexivity.
  { split; auto. }
  rewrite PD. cbn [bind]. rewrite LC. cbn [bind]. rewrite R32. cbn [bind]. rewrite Q4, TS. cbn [bind]. rewrite SL. cbn [bind]. rewrite BN.
  assert (C : exists data, content (fst bx_started) (l_name g1) data).
  { rewrite Q3. exists (repeat 0 200). eexists. split; [vm_compute; reflexivity|]. split.
    + eexists. split; [left; reflexivity|]. vm_compute. reflexivity.
    + intros e [<-|[]] _. vm_compute. reflexivity. }
  destruct C as (data & C).
  assert (O1 : l_open g1 = true) by congruence. clearbody g1. revert C. generalize (fst bx_started) as y1. intros y1 C.
  assert (RO : forall k, (y_pos y1 <= k)%nat -> 200 <= v_orc lx_env k) by (intros; unfold lx_env; cbn [v_orc]; lia).
  assert (NN : 0 <= n < 4294967296) by lia.
  destruct (bin_process_full32 lx_env y1 g1 0 n (block_data (bx_packet n)) data O1 C RO NN (block_data_length _))
    as (y3 & g3 & cs3 & BP & O3 & N3 & C3 & M3 & T3 & P3 & A3).
  rewrite BP. cbn [bind app]. eexists. eexists. eexists. exists cs3. split; [reflexivity|].
  assert (LL : length cs3 = length (statuses cs3)) by (unfold statuses; rewrite map_length; reflexivity). rewrite LL, A3.
  rewrite app_length, repeat_length. unfold nack_count. cbn [length]. change (u32 (0 + 1)) with 1.
  destruct (Z.ltb_spec n 0); lia.
Qed.

Print Assumptions C50_file_content.
Print Assumptions C51_acknowledged_partial.
Print Assumptions C51_only_stored_partial.
Print Assumptions C51_reports_partial.
Print Assumptions C51_nack_refuted.
Print Assumptions C52_by_gap_partial.
Print Assumptions C52_constant_refuted.
