(* Property C59: telemetry log. *)
From Verif Require Import Base Mav SpecCrc SpecFrame Frame FrameProofs Names NamesProofs Sys LogFile LogFileProofs ULog Loggers LogInv LogStep
  SpecLog LogRun LogModes LogModes2 BinProofs ExFrame Prop_LogModes.

Lemma be64_bytes : forall t, be64 t = be_bytes 8 t.
Proof. reflexivity. Qed.

(* times are read back *)
Lemma be_bytes_mod : forall n t, be_bytes n (t mod 256 ^ Z.of_nat n) = be_bytes n t.
Proof.
  assert (G : forall n m t, (n <= m)%nat -> be_bytes n (t mod 256 ^ Z.of_nat m) = be_bytes n t).
  { induction n; intros m t L; cbn [be_bytes]; auto. rewrite IHn by lia. f_equal.
    replace (Z.of_nat m) with (Z.of_nat n + (1 + Z.of_nat (m - n - 1))) by lia.
    rewrite !Z.pow_add_r, Z.pow_1_r by lia. set (q := 256 ^ Z.of_nat n). set (r := 256 ^ Z.of_nat (m - n - 1)).
    assert (Q : 0 < q) by (apply Z.pow_pos_nonneg; lia). assert (R : 0 < r) by (apply Z.pow_pos_nonneg; lia).
    rewrite Z.rem_mul_r by nia. rewrite Z.mul_comm, Z.div_add by lia. rewrite (Z.div_small (t mod q)) by (apply Z.mod_pos_bound; lia).
    cbn [Z.add]. rewrite Z.rem_mul_r by lia. rewrite Z.mul_comm, Z.mod_add by lia. rewrite Z.mod_mod by lia. reflexivity. }
  intros. apply G. lia.
Qed.

Lemma be_value_bytes : forall n t acc, 0 <= t < 256 ^ Z.of_nat n -> be_value acc (be_bytes n t) = acc * 256 ^ Z.of_nat n + t.
Proof.
  induction n; intros t acc T; cbn [be_bytes be_value].
  - change (256 ^ Z.of_nat 0) with 1 in *. lia.
  - rewrite <- (be_bytes_mod n t). rewrite Nat2Z.inj_succ, Z.pow_succ_r in * by lia. set (q := 256 ^ Z.of_nat n) in *.
    assert (Q : 0 < q) by (apply Z.pow_pos_nonneg; lia). rewrite IHn by (apply Z.mod_pos_bound; auto).
    rewrite (Z.mod_small (t / q)). 2:{ split; [apply Z.div_pos; lia|]. apply Z.div_lt_upper_bound; lia. }
    pose proof (Z.div_mod t q). nia.
Qed.

(* the file written by recording [ps] at times [ts] *)
Definition records (ts : list Z) (ps : list packet) : list Z := concat (map (fun tp => record (fst tp) (snd tp)) (combine ts ps)).

(* one message while open *)
Lemma tele_open : forall v y g p tail data, l_open g = true -> content y (l_name g) data -> l_off g = length data -> wf_packet p ->
  (forall k, (y_pos y <= k)%nat -> 280 <= v_orc v k) ->
  exists y' g' t, tele_write v y g (encode p ++ tail) (info_of (v_tbl v) p) = Ok (y', g') /\ 0 <= t < 18446744073709551616 /\
    content y' (l_name g') (data ++ record t p) /\ l_off g' = length (data ++ record t p) /\ l_open g' = true /\ l_name g' = l_name g /\
    l_mode g' = l_mode g /\ l_talive g' = l_talive g /\ l_target g' = l_target g /\ (y_pos y <= y_pos y')%nat.
Proof.
  intros v y g p tail data O C F W R. unfold tele_write, ask at 1. cbn [m_len info_of].
  assert (SL : slice (encode p ++ tail) 0 (length (encode p)) = Ok (encode p)).
  { rewrite slice_Ok by (rewrite app_length; lia). cbn [skipn]. rewrite firstn_app, Nat.sub_diag, firstn_O, firstn_all, app_nil_r. reflexivity. }
  rewrite SL. cbn [bind]. set (y1 := set_pos y (Datatypes.S (y_pos y))). set (t := u64 (v_orc v (y_pos y))).
  assert (C1 : content y1 (l_name g) data) by (eapply content_fs; [|exact C]; reflexivity).
  pose proof (encode_length_bounds p W) as EL.
  destruct (file_write_full v y1 g (l_off g) (be64 t) data O C1) as (y2 & FW & C2 & P2 & _).
  { change (length (be64 t)) with 8%nat. specialize (R (y_pos y1)). cbn [y1 set_pos y_pos] in *. lia. }
  rewrite FW. set (g2 := set_file g true (l_name g) (l_off g + length (be64 t))).
  destruct (file_write_full v y2 g2 (l_off g2) (encode p) (file_put data (l_off g) (be64 t)) eq_refl C2) as (y3 & FW3 & C3 & P3 & _).
  { rewrite P2. specialize (R (S (y_pos y1))). cbn [y1 set_pos y_pos] in *. lia. }
  rewrite FW3. eexists. eexists. exists t. split; [reflexivity|].
  assert (PUT : forall d bs, file_put d (length d) bs = d ++ bs).
  { intros d bs. unfold file_put. rewrite Nat.sub_diag. cbn [repeat]. rewrite app_nil_r, firstn_all, skipn_all2 by lia. rewrite app_nil_r. reflexivity. }
  assert (E : file_put (file_put data (l_off g) (be64 t)) (l_off g2) (encode p) = data ++ record t p).
  { rewrite F, PUT. unfold g2. cbn [l_off set_file]. rewrite F, <- app_length, PUT. unfold record. rewrite <- app_assoc, be64_bytes. reflexivity. }
  split; [apply u64_range|]. split. { cbn [l_name set_file g2]. rewrite <- E. exact C3. }
  split. { cbn [l_off set_file g2]. rewrite F. unfold record. rewrite !app_length, be64_bytes. lia. }
  unfold g2. cbn [l_open l_name l_mode l_talive l_target set_file]. repeat split; auto. unfold y1 in *. cbn [set_pos y_pos] in *. lia.
Qed.

Lemma tele_closed : forall v y g p tail, l_open g = false ->
  tele_write v y g (encode p ++ tail) (info_of (v_tbl v) p) = Ok (set_pos y (Datatypes.S (y_pos y)), g).
Proof.
  intros v y g p tail O. unfold tele_write, ask at 1. cbn [m_len info_of].
  rewrite slice_Ok by (rewrite app_length; lia). cbn [bind]. rewrite !file_write_closed by auto. reflexivity.
Qed.

Lemma start_content : forall v y g y' g', log_start v y g = Ok (y', g', true) -> sys_ok y ->
  content y' (l_name g') [] /\ l_off g' = 0%nat /\ l_open g' = true /\ l_mode g' = l_mode g /\ l_talive g' = l_talive g.
Proof.
  intros v y g y' g' H S. unfold log_start in H. destruct (l_open g); [discriminate|].
  destruct (get_file v (delete_old_logs v y g) g) as [r y2] eqn:GF. destruct r as [name|]; [|discriminate].
  destruct (get_file_spec _ _ _ _ _ GF) as (FS & k & t & _ & _ & _ & NI & _ & F). destruct (delete_old_safe v y g) as (S1 & _).
  assert (K2 : sys_ok y2) by (eapply sys_ok_fs; [exact FS|]; eapply sys_ok_fs; eauto).
  destruct (add_timer v y2 1000 _) as [[ts|] y3] eqn:A1; [|discriminate].
  destruct (add_timer_spec _ _ _ _ _ _ A1 K2) as (K3 & F3 & _).
  destruct (add_timer v y3 1000 _) as [[tf|] y4] eqn:A2.
  2:{ inv_bind H. discriminate. }
  destruct (add_timer_spec _ _ _ _ _ _ A2 K3) as (K4 & F4 & _).
  pose proof (f_equal (fun r => match r with Ok t => t | _ => (y, g, false) end) H) as X. cbn beta iota in X.
  pose proof (f_equal (fun t => fst (fst t)) X) as X1. pose proof (f_equal (fun t => snd (fst t)) X) as X2. cbn [fst snd] in X1, X2.
  subst y' g'. cbn [l_name l_off l_open l_mode l_talive set_timeouts set_file]. split; auto.
  eexists. split. { rewrite F4, F3. exact F. } split.
  - eexists. split. { apply in_or_app. right. left. reflexivity. } reflexivity.
  - intros e I N. apply in_app_or in I. destruct I as [I|[<-|[]]]; auto. exfalso. apply NI. apply in_map_iff. eauto.
Qed.

(* runs while open *)
Lemma open_run : forall f v evs y g data, sys_ok y -> linv y g -> l_open g = true -> l_mode g = MAlways -> l_talive g = None ->
  content y (l_name g) data -> l_off g = length data -> Forall wf_packet (offered evs) -> (forall k, (y_pos y <= k)%nat -> 280 <= v_orc v k) ->
  exists y' g' cs ts, lrun f v y g BTele evs = Ok (y', g', BTele, cs) /\ l_open g' = true /\ l_name g' = l_name g /\
    length ts = length (offered evs) /\ Forall (fun t => 0 <= t < 18446744073709551616) ts /\
    content y' (l_name g') (data ++ records ts (offered evs)).
Proof.
  intros f v. induction evs as [|e evs IH]; intros y g data S L O M TA C F W R.
  - exists y, g, [], []. cbn. unfold records. cbn. rewrite app_nil_r. repeat split; auto.
  - cbn [lrun]. destruct e as [p tail| |].
    + cbn [offered] in *. inversion W as [|? ? W1 W2]; subst.
      destruct (learn_same g (info_of (v_tbl v) p)) as (Q1 & Q2 & Q3 & Q4 & Q5).
      assert (Q6 : l_talive (learn_target g (info_of (v_tbl v) p)) = l_talive g) by (unfold learn_target; destruct (_ && _); reflexivity).
      destruct (tele_open v y (learn_target g (info_of (v_tbl v) p)) p tail data) as (y1 & g1 & t & E & T & C1 & F1 & O1 & N1 & M1 & A1 & _ & P1); auto;
        try congruence.
      assert (LE : levent f v y g BTele (LMsg p tail) = Ok (y1, g1, BTele, [])).
      { cbn [levent]. unfold lwrite. rewrite auto_idle by congruence. cbn [bind]. rewrite E. reflexivity. }
      destruct (levent_step _ _ _ _ _ _ _ _ _ _ LE S L) as (S1 & L1 & _).
      destruct (IH y1 g1 (data ++ record t p)) as (y2 & g2 & cs & ts & R2 & O2 & N2 & LT & FT & C2); auto; try congruence.
      { intros k K. apply R. lia. }
      rewrite LE. cbn [bind]. rewrite R2. cbn [bind]. eexists. eexists. eexists. exists (t :: ts). split; [reflexivity|]. split; auto.
      split; [congruence|]. split; [cbn [length]; congruence|]. split; [constructor; auto|].
      unfold records in *. cbn [combine map concat fst snd]. rewrite app_assoc. exact C2.
    + assert (LE : levent f v y g BTele LStart = Ok (y, g, BTele, [])) by (cbn; destruct (l_tstart g); reflexivity).
      destruct (IH y g data) as (y2 & g2 & cs & ts & R2 & H); auto. rewrite LE. cbn [bind]. rewrite R2. cbn [bind]. eauto 10.
    + assert (LE : levent f v y g BTele LAlive = Ok (y, g, BTele, [])) by (cbn; rewrite TA; reflexivity).
      destruct (IH y g data) as (y2 & g2 & cs & ts & R2 & H); auto. rewrite LE. cbn [bind]. rewrite R2. cbn [bind]. eauto 10.
Qed.

Lemma disabled_run : forall f v evs y g, l_open g = false -> l_mode g = MDisabled -> l_talive g = None ->
  exists y' g' cs, lrun f v y g BTele evs = Ok (y', g', BTele, cs) /\ l_open g' = false.
Proof.
  intros f v. induction evs as [|e evs IH]; intros y g O M TA.
  - exists y, g, []. auto.
  - cbn [lrun].
    assert (X : exists y1 g1, levent f v y g BTele e = Ok (y1, g1, BTele, []) /\ l_open g1 = false /\ l_mode g1 = MDisabled /\ l_talive g1 = None).
    { destruct e as [p tail| |].
      - destruct (learn_same g (info_of (v_tbl v) p)) as (Q1 & Q2 & Q3 & Q4 & Q5).
        assert (Q6 : l_talive (learn_target g (info_of (v_tbl v) p)) = l_talive g) by (unfold learn_target; destruct (_ && _); reflexivity).
        cbn [levent]. unfold lwrite, auto_start_stop. rewrite Q2, M.
        assert (Y : (if l_target (learn_target g (info_of (v_tbl v) p)) =? -1 then Ok (y, learn_target g (info_of (v_tbl v) p), BTele, [])
           else Ok (y, learn_target g (info_of (v_tbl v) p), BTele, @nil ctl)) = Ok (y, learn_target g (info_of (v_tbl v) p), BTele, [])) by (destruct (_ =? _); reflexivity).
        rewrite Y. cbn [bind]. rewrite tele_closed by congruence. cbn [bind]. eexists. eexists. split; [reflexivity|]. repeat split; congruence.
      - exists y, g. cbn. destruct (l_tstart g); auto.
      - exists y, g. cbn. rewrite TA. auto. }
    destruct X as (y1 & g1 & LE & O1 & M1 & T1). rewrite LE. cbn [bind].
    destruct (IH y1 g1 O1 M1 T1) as (y2 & g2 & cs & R2 & O2). rewrite R2. cbn [bind]. eauto.
Qed.

Lemma tele_run : forall f v evs y g, sys_ok y -> linv y g -> l_open g = false -> l_mode g = MAlways ->
  Forall wf_packet (offered evs) -> (forall k, (y_pos y <= k)%nat -> 280 <= v_orc v k) ->
  exists y' g' cs, lrun f v y g BTele evs = Ok (y', g', BTele, cs) /\
    (l_open g' = true -> exists ts, length ts = length (covered (l_target g) (offered evs)) /\
      Forall (fun t => 0 <= t < 18446744073709551616) ts /\ content y' (l_name g') (records ts (covered (l_target g) (offered evs)))).
Proof.
  intros f v. induction evs as [|e evs IH]; intros y g S L O M W R.
  - exists y, g, []. split; auto. congruence.
  - destruct (li_closed _ _ L O) as (_ & _ & TA). cbn [lrun]. destruct e as [p tail| |].
    + cbn [offered] in *. inversion W as [|? ? W1 W2]; subst.
      destruct (learn_same g (info_of (v_tbl v) p)) as (Q1 & Q2 & Q3 & Q4 & Q5). set (g0 := learn_target g (info_of (v_tbl v) p)) in *.
      assert (Q6 : l_talive g0 = l_talive g) by (unfold g0, learn_target; destruct (_ && _); reflexivity).
      pose proof (learn_inv _ _ (info_of (v_tbl v) p) L) as L0. fold g0 in L0.
      assert (TG : l_target g0 = if (l_target g =? -1) && autopilot_heartbeat p then p_sys p else l_target g).
      { unfold g0, learn_target, autopilot_heartbeat. cbn [m_id m_scomp m_ssys info_of]. rewrite andb_assoc. destruct (_ && _ && _); reflexivity. }
      assert (PS : is_byte (p_sys p)) by apply W1. cbn [covered].
      destruct (Z.eqb_spec (l_target g0) (-1)) as [T0|T0].
      * (* not known yet *)
        assert (LE : levent f v y g BTele (LMsg p tail) = Ok (set_pos y (Datatypes.S (y_pos y)), g0, BTele, [])).
        { cbn [levent]. unfold lwrite. fold g0. unfold auto_start_stop. rewrite T0. cbn [Z.eqb Pos.eqb bind]. rewrite tele_closed by congruence. reflexivity. }
        destruct (levent_step _ _ _ _ _ _ _ _ _ _ LE S L) as (S1 & L1 & _).
        destruct (IH (set_pos y (Datatypes.S (y_pos y))) g0) as (y2 & g2 & cs & R2 & H2); auto; try congruence.
        { intros k K. apply R. cbn in K. lia. }
        rewrite LE. cbn [bind]. rewrite R2. cbn [bind]. eexists. eexists. eexists. split; [reflexivity|].
        assert (X : (l_target g =? -1) && negb (autopilot_heartbeat p) = true).
        { rewrite TG in T0. unfold is_byte in PS. destruct (Z.eqb_spec (l_target g) (-1)); destruct (autopilot_heartbeat p); cbn in *; auto; lia. }
        rewrite X. apply andb_prop in X. destruct X as [X1 X2]. apply negb_true_iff in X2. rewrite X1, X2 in TG. cbn [andb] in TG. rewrite TG in H2. exact H2.
      * assert (X : (l_target g =? -1) && negb (autopilot_heartbeat p) = false).
        { rewrite TG in T0. destruct (Z.eqb_spec (l_target g) (-1)); destruct (autopilot_heartbeat p); cbn [andb negb] in *; auto; try congruence. }
        rewrite X. destruct (log_start_spec v y g0 S L0) as (y1 & g1 & ok & LS & S1 & L1 & OW & SC & _ & _ & O1 & _ & F1).
        assert (P1 : (y_pos y <= y_pos y1)%nat) by apply OW.
        assert (AU : auto_start_stop f v y g0 BTele (encode p ++ tail) (info_of (v_tbl v) p) = Ok (y1, if ok then g1 else set_mode g1 MDisabled, BTele, [])).
        { unfold auto_start_stop. rewrite (proj2 (Z.eqb_neq _ _) T0), Q2, M, Q1, O. cbn [lstart]. rewrite LS. cbn [bind]. reflexivity. }
        destruct ok.
        -- destruct (start_content _ _ _ _ _ LS S) as (C1 & OF & OP & M1 & T1).
           destruct (tele_open v y1 g1 p tail []) as (y2 & g2 & t & E & T & C2 & F2 & O2 & N2 & M2 & A2 & _ & P2); auto; try congruence.
           { intros k K. apply R. lia. }
           assert (LE : levent f v y g BTele (LMsg p tail) = Ok (y2, g2, BTele, [])).
           { cbn [levent]. unfold lwrite. fold g0. rewrite AU. cbn [bind]. rewrite E. reflexivity. }
           destruct (levent_step _ _ _ _ _ _ _ _ _ _ LE S L) as (S2 & L2 & _).
           destruct (open_run f v evs y2 g2 ([] ++ record t p)) as (y3 & g3 & cs & ts & R3 & O3 & N3 & LT & FT & C3); auto; try congruence.
           { intros k K. apply R. lia. }
           rewrite LE. cbn [bind]. rewrite R3. cbn [bind]. eexists. eexists. eexists. split; [reflexivity|]. intros _.
           exists (t :: ts). split; [cbn [length]; congruence|]. split; [constructor; auto|].
           unfold records in *. cbn [combine map concat fst snd]. exact C3.
        -- assert (OC : l_open g1 = false) by (rewrite O1, Q1, O; reflexivity).
           assert (LE : levent f v y g BTele (LMsg p tail) = Ok (set_pos y1 (Datatypes.S (y_pos y1)), set_mode g1 MDisabled, BTele, [])).
           { cbn [levent]. unfold lwrite. fold g0. rewrite AU. cbn [bind]. rewrite tele_closed by (cbn; auto). reflexivity. }
           destruct (disabled_run f v evs (set_pos y1 (Datatypes.S (y_pos y1))) (set_mode g1 MDisabled)) as (y3 & g3 & cs & R3 & O3); auto.
           { cbn [l_talive set_mode]. apply (li_closed _ _ L1 OC). }
           rewrite LE. cbn [bind]. rewrite R3. cbn [bind]. eexists. eexists. eexists. split; [reflexivity|]. congruence.
    + assert (LE : levent f v y g BTele LStart = Ok (y, g, BTele, [])) by (cbn; destruct (l_tstart g); reflexivity).
      destruct (IH y g) as (y2 & g2 & cs & R2 & H); auto. rewrite LE. cbn [bind]. rewrite R2. cbn [bind]. eauto 10.
    + assert (LE : levent f v y g BTele LAlive = Ok (y, g, BTele, [])) by (cbn; rewrite TA; reflexivity).
      destruct (IH y g) as (y2 & g2 & cs & R2 & H); auto. rewrite LE. cbn [bind]. rewrite R2. cbn [bind]. eauto 10.
Qed.

(* C59: a telemetry logger that is always on, with system calls that succeed and complete writes.  Whatever
   messages and timer ticks it sees, none of them is undefined behaviour, and if it has a file open at the end
   that file consists of one record for each message since the monitored system was known, in order. *)
Theorem C59_records : forall fuel v y ep ext mf ml fcu evs,
  fresh_in y ep -> Forall wf_packet (offered evs) -> (forall k, 280 <= v_orc v k) ->
  exists y' g' cs, lrun fuel v y (lg_new ep ext mf ml MAlways fcu) BTele evs = Ok (y', g', BTele, cs) /\
    (l_open g' = true -> exists ts, length ts = length (covered fcu (offered evs)) /\
      Forall (fun t => 0 <= t < 2 ^ 64) ts /\ content y' (l_name g') (records ts (covered fcu (offered evs)))).
Proof.
  intros fuel v y ep ext mf ml fcu evs (S & N) W R.
  apply (tele_run fuel v evs y (lg_new ep ext mf ml MAlways fcu)); auto. apply linv_new; auto.
Qed.

(* ... and a reader gets back every time and every packet. *)
Theorem C59_readable : forall ts ps, length ts = length ps -> Forall (fun t => 0 <= t < 2 ^ 64) ts -> Forall wf_packet ps ->
  read_log (S (length ps)) (records ts ps) = combine ts (map encode ps).
Proof.
  induction ts as [|t ts IH]; intros [|p ps] L T W; try discriminate.
  - reflexivity.
  - inversion T as [|? ? T1 T2]; inversion W as [|? ? W1 W2]; subst. injection L as L. unfold records in *. cbn [combine map concat fst snd length].
    set (rest := concat _) in *. change (read_log (S (S (length ps))) (record t p ++ rest)) with
      (match packet_size (skipn 8 (record t p ++ rest)) with
       | Some n => (be_value 0 (firstn 8 (record t p ++ rest)), firstn n (skipn 8 (record t p ++ rest))) ::
            read_log (S (length ps)) (skipn n (skipn 8 (record t p ++ rest)))
       | None => [] end).
    assert (S8 : skipn 8 (record t p ++ rest) = encode p ++ rest) by reflexivity.
    assert (F8 : firstn 8 (record t p ++ rest) = be_bytes 8 t) by reflexivity.
    assert (PS : packet_size (encode p ++ rest) = Some (length (encode p))).
    { pose proof (size_of_encode p rest W1) as Z. rewrite <- Z. clear - W1. unfold encode, body. destruct (p_ver p); reflexivity. }
    rewrite S8, F8, PS. rewrite firstn_app, Nat.sub_diag, firstn_O, firstn_all, app_nil_r.
    rewrite skipn_app, Nat.sub_diag, skipn_all. cbn [skipn app]. f_equal.
    + f_equal. rewrite be_value_bytes; [lia|]. exact T1.
    + apply IH; auto.
Qed.

Example C59_nonvacuous :
  let evs := [LMsg (lx_block 2) []; LMsg (lx_hb 1 81 3) [1; 2; 3]; LStart; LMsg (lx_block 0) []; LAlive; LMsg (lx_hb 7 81 3) []] in
  match lrun 9 lx_env lx_sys (lg_new 0 ext_tlog 0 0 MAlways (-1)) BTele evs with
  | Ok (y, g, _, _) => l_open g = true /\ match y_fs y with
      | Some [e] => map snd (read_log 9 (d_data e)) = map encode [lx_hb 1 81 3; lx_block 0; lx_hb 7 81 3] | _ => False end
  | _ => False end.
Proof. vm_compute. auto. Qed.

(* ---- without assuming anything about the system calls ---------------------------------------- *)
(* what one message leaves in the file: the first part of its time and the first part of its bytes *)
Definition piece (p : packet) (x : list Z) : Prop :=
  exists t j k, 0 <= t < 2 ^ 64 /\ x = firstn j (be_bytes 8 t) ++ firstn k (encode p).

Lemma put_end : forall d bs, file_put d (length d) bs = d ++ bs.
Proof. intros d bs. unfold file_put. rewrite Nat.sub_diag. cbn [repeat]. rewrite app_nil_r, firstn_all, skipn_all2 by lia. rewrite app_nil_r. reflexivity. Qed.

Lemma write_any : forall v y g bs d, l_open g = true -> content y (l_name g) d -> l_off g = length d ->
  exists r y' g' n, file_write v y g (l_off g) bs = (r, y', g') /\ content y' (l_name g') (d ++ firstn n bs) /\
    l_off g' = length (d ++ firstn n bs) /\ l_open g' = true /\ l_name g' = l_name g /\ l_mode g' = l_mode g /\ l_talive g' = l_talive g /\
    l_target g' = l_target g.
Proof.
  intros v y g bs d O C F. unfold file_write. rewrite O. unfold ask. destruct (v_orc v (y_pos y) <? 0).
  - eexists. eexists. exists g, 0%nat. split; [reflexivity|]. cbn [firstn]. rewrite app_nil_r. repeat split; auto.
  - set (n := Nat.min _ _). destruct C as (l & FS & C1 & C2). cbn [set_pos y_fs]. rewrite FS.
    eexists. eexists. eexists. exists n. split; [reflexivity|]. split.
    { cbn [l_name set_file]. rewrite <- put_end, <- F. apply (content_put l (set_pos y (Datatypes.S (y_pos y)))); [exact FS|]. exists l. auto. }
    cbn [l_off l_open l_name l_mode l_talive l_target set_file]. repeat split; auto. rewrite app_length, firstn_length. unfold n. lia.
Qed.

Lemma tele_open_any : forall v y g p tail data, l_open g = true -> content y (l_name g) data -> l_off g = length data ->
  exists y' g' x, tele_write v y g (encode p ++ tail) (info_of (v_tbl v) p) = Ok (y', g') /\ piece p x /\
    content y' (l_name g') (data ++ x) /\ l_off g' = length (data ++ x) /\ l_open g' = true /\ l_name g' = l_name g /\
    l_mode g' = l_mode g /\ l_talive g' = l_talive g /\ l_target g' = l_target g.
Proof.
  intros v y g p tail data O C F. unfold tele_write, ask at 1. cbn [m_len info_of].
  assert (SL : slice (encode p ++ tail) 0 (length (encode p)) = Ok (encode p)).
  { rewrite slice_Ok by (rewrite app_length; lia). cbn [skipn]. rewrite firstn_app, Nat.sub_diag, firstn_O, firstn_all, app_nil_r. reflexivity. }
  rewrite SL. cbn [bind]. set (y1 := set_pos y (Datatypes.S (y_pos y))). set (t := u64 (v_orc v (y_pos y))).
  assert (C1 : content y1 (l_name g) data) by (eapply content_fs; [|exact C]; reflexivity).
  destruct (write_any v y1 g (be64 t) data O C1 F) as (r2 & y2 & g2 & j & E2 & C2 & F2 & O2 & N2 & M2 & A2 & T2). rewrite E2.
  destruct (write_any v y2 g2 (encode p) _ O2 C2 F2) as (r3 & y3 & g3 & k & E3 & C3 & F3 & O3 & N3 & M3 & A3 & T3). rewrite E3.
  exists y3, g3, (firstn j (be_bytes 8 t) ++ firstn k (encode p)). rewrite be64_bytes, <- app_assoc in *. split; [reflexivity|].
  split. { exists t, j, k. split; [apply u64_range|reflexivity]. } repeat split; auto; congruence.
Qed.

Lemma open_run_any : forall f v evs y g data, sys_ok y -> linv y g -> l_open g = true -> l_mode g = MAlways -> l_talive g = None ->
  content y (l_name g) data -> l_off g = length data -> Forall wf_packet (offered evs) ->
  exists y' g' cs xs, lrun f v y g BTele evs = Ok (y', g', BTele, cs) /\ l_open g' = true /\ l_name g' = l_name g /\
    Forall2 piece (offered evs) xs /\ content y' (l_name g') (data ++ concat xs).
Proof.
  intros f v. induction evs as [|e evs IH]; intros y g data S L O M TA C F W.
  - exists y, g, [], []. cbn. rewrite app_nil_r. repeat split; auto.
  - cbn [lrun]. destruct e as [p tail| |].
    + cbn [offered] in *. inversion W as [|? ? W1 W2]; subst.
      destruct (learn_same g (info_of (v_tbl v) p)) as (Q1 & Q2 & Q3 & Q4 & Q5).
      assert (Q6 : l_talive (learn_target g (info_of (v_tbl v) p)) = l_talive g) by (unfold learn_target; destruct (_ && _); reflexivity).
      destruct (tele_open_any v y (learn_target g (info_of (v_tbl v) p)) p tail data) as (y1 & g1 & x & E & T & C1 & F1 & O1 & N1 & M1 & A1 & _);
        try congruence.
      assert (LE : levent f v y g BTele (LMsg p tail) = Ok (y1, g1, BTele, [])).
      { cbn [levent]. unfold lwrite. rewrite auto_idle by congruence. cbn [bind]. rewrite E. reflexivity. }
      destruct (levent_step _ _ _ _ _ _ _ _ _ _ LE S L) as (S1 & L1 & _).
      destruct (IH y1 g1 (data ++ x)) as (y2 & g2 & cs & xs & R2 & O2 & N2 & FT & C2); auto; try congruence.
      rewrite LE. cbn [bind]. rewrite R2. cbn [bind]. eexists. eexists. eexists. exists (x :: xs). split; [reflexivity|]. split; auto.
      split; [congruence|]. split; [constructor; auto|]. cbn [concat]. rewrite app_assoc. exact C2.
    + assert (LE : levent f v y g BTele LStart = Ok (y, g, BTele, [])) by (cbn; destruct (l_tstart g); reflexivity).
      destruct (IH y g data) as (y2 & g2 & cs & ts & R2 & H); auto. rewrite LE. cbn [bind]. rewrite R2. cbn [bind]. eauto 10.
    + assert (LE : levent f v y g BTele LAlive = Ok (y, g, BTele, [])) by (cbn; rewrite TA; reflexivity).
      destruct (IH y g data) as (y2 & g2 & cs & ts & R2 & H); auto. rewrite LE. cbn [bind]. rewrite R2. cbn [bind]. eauto 10.
Qed.

Lemma tele_run_any : forall f v evs y g, sys_ok y -> linv y g -> l_open g = false -> l_mode g = MAlways ->
  Forall wf_packet (offered evs) ->
  exists y' g' cs, lrun f v y g BTele evs = Ok (y', g', BTele, cs) /\
    (l_open g' = true -> exists xs, Forall2 piece (covered (l_target g) (offered evs)) xs /\ content y' (l_name g') (concat xs)).
Proof.
  intros f v. induction evs as [|e evs IH]; intros y g S L O M W.
  - exists y, g, []. split; auto. congruence.
  - destruct (li_closed _ _ L O) as (_ & _ & TA). cbn [lrun]. destruct e as [p tail| |].
    + cbn [offered] in *. inversion W as [|? ? W1 W2]; subst.
      destruct (learn_same g (info_of (v_tbl v) p)) as (Q1 & Q2 & Q3 & Q4 & Q5). set (g0 := learn_target g (info_of (v_tbl v) p)) in *.
      assert (Q6 : l_talive g0 = l_talive g) by (unfold g0, learn_target; destruct (_ && _); reflexivity).
      pose proof (learn_inv _ _ (info_of (v_tbl v) p) L) as L0. fold g0 in L0.
      assert (TG : l_target g0 = if (l_target g =? -1) && autopilot_heartbeat p then p_sys p else l_target g).
      { unfold g0, learn_target, autopilot_heartbeat. cbn [m_id m_scomp m_ssys info_of]. rewrite andb_assoc. destruct (_ && _ && _); reflexivity. }
      assert (PS : is_byte (p_sys p)) by apply W1. cbn [covered].
      destruct (Z.eqb_spec (l_target g0) (-1)) as [T0|T0].
      * assert (LE : levent f v y g BTele (LMsg p tail) = Ok (set_pos y (Datatypes.S (y_pos y)), g0, BTele, [])).
        { cbn [levent]. unfold lwrite. fold g0. unfold auto_start_stop. rewrite T0. cbn [Z.eqb Pos.eqb bind]. rewrite tele_closed by congruence. reflexivity. }
        destruct (levent_step _ _ _ _ _ _ _ _ _ _ LE S L) as (S1 & L1 & _).
        destruct (IH (set_pos y (Datatypes.S (y_pos y))) g0) as (y2 & g2 & cs & R2 & H2); auto; try congruence.
        rewrite LE. cbn [bind]. rewrite R2. cbn [bind]. eexists. eexists. eexists. split; [reflexivity|].
        assert (X : (l_target g =? -1) && negb (autopilot_heartbeat p) = true).
        { rewrite TG in T0. unfold is_byte in PS. destruct (Z.eqb_spec (l_target g) (-1)); destruct (autopilot_heartbeat p); cbn in *; auto; lia. }
        rewrite X. apply andb_prop in X. destruct X as [X1 X2]. apply negb_true_iff in X2. rewrite X1, X2 in TG. cbn [andb] in TG. rewrite TG in H2. exact H2.
      * assert (X : (l_target g =? -1) && negb (autopilot_heartbeat p) = false).
        { rewrite TG in T0. destruct (Z.eqb_spec (l_target g) (-1)); destruct (autopilot_heartbeat p); cbn [andb negb] in *; auto; try congruence. }
        rewrite X. destruct (log_start_spec v y g0 S L0) as (y1 & g1 & ok & LS & S1 & L1 & OW & SC & _ & _ & O1 & _ & F1).
        assert (AU : auto_start_stop f v y g0 BTele (encode p ++ tail) (info_of (v_tbl v) p) = Ok (y1, if ok then g1 else set_mode g1 MDisabled, BTele, [])).
        { unfold auto_start_stop. rewrite (proj2 (Z.eqb_neq _ _) T0), Q2, M, Q1, O. cbn [lstart]. rewrite LS. cbn [bind]. reflexivity. }
        destruct ok.
        -- destruct (start_content _ _ _ _ _ LS S) as (C1 & OF & OP & M1 & T1).
           destruct (tele_open_any v y1 g1 p tail []) as (y2 & g2 & x & E & T & C2 & F2 & O2 & N2 & M2 & A2 & _); auto; try congruence.
           assert (LE : levent f v y g BTele (LMsg p tail) = Ok (y2, g2, BTele, [])).
           { cbn [levent]. unfold lwrite. fold g0. rewrite AU. cbn [bind]. rewrite E. reflexivity. }
           destruct (levent_step _ _ _ _ _ _ _ _ _ _ LE S L) as (S2 & L2 & _).
           destruct (open_run_any f v evs y2 g2 ([] ++ x)) as (y3 & g3 & cs & xs & R3 & O3 & N3 & FT & C3); auto; try congruence.
           rewrite LE. cbn [bind]. rewrite R3. cbn [bind]. eexists. eexists. eexists. split; [reflexivity|]. intros _.
           exists (x :: xs). split; [constructor; auto|]. exact C3.
        -- assert (OC : l_open g1 = false) by (rewrite O1, Q1, O; reflexivity).
           assert (LE : levent f v y g BTele (LMsg p tail) = Ok (set_pos y1 (Datatypes.S (y_pos y1)), set_mode g1 MDisabled, BTele, [])).
           { cbn [levent]. unfold lwrite. fold g0. rewrite AU. cbn [bind]. rewrite tele_closed by (cbn; auto). reflexivity. }
           destruct (disabled_run f v evs (set_pos y1 (Datatypes.S (y_pos y1))) (set_mode g1 MDisabled)) as (y3 & g3 & cs & R3 & O3); auto.
           { cbn [l_talive set_mode]. apply (li_closed _ _ L1 OC). }
           rewrite LE. cbn [bind]. rewrite R3. cbn [bind]. eexists. eexists. eexists. split; [reflexivity|]. congruence.
    + assert (LE : levent f v y g BTele LStart = Ok (y, g, BTele, [])) by (cbn; destruct (l_tstart g); reflexivity).
      destruct (IH y g) as (y2 & g2 & cs & R2 & H); auto. rewrite LE. cbn [bind]. rewrite R2. cbn [bind]. eauto 10.
    + assert (LE : levent f v y g BTele LAlive = Ok (y, g, BTele, [])) by (cbn; rewrite TA; reflexivity).
      destruct (IH y g) as (y2 & g2 & cs & R2 & H); auto. rewrite LE. cbn [bind]. rewrite R2. cbn [bind]. eauto 10.
Qed.

(* C82, what holds for a telemetry log however system calls behave: the file never has bytes of a message out
   of place or overwritten, each covered message contributes a first part of its time and a first part of its
   bytes, in order.  Missing: that these parts are complete or absent together. *)
Theorem C82_telemetry_partial : forall fuel v y ep ext mf ml fcu evs,
  fresh_in y ep -> Forall wf_packet (offered evs) ->
  exists y' g' cs, lrun fuel v y (lg_new ep ext mf ml MAlways fcu) BTele evs = Ok (y', g', BTele, cs) /\
    (l_open g' = true -> exists xs, Forall2 piece (covered fcu (offered evs)) xs /\ content y' (l_name g') (concat xs)).
Proof.
  intros fuel v y ep ext mf ml fcu evs (S & N) W.
  apply (tele_run_any fuel v evs y (lg_new ep ext mf ml MAlways fcu)); auto. apply linv_new; auto.
Qed.

(* That is not enough to read the log back.  The file system takes ten bytes of the first packet and everything
   else in full: all three messages were logged and reported no error, and a reader gets none of them back. *)
Definition tx_env : env := mkEnv lx_tbl (fun _ => 0) (fun k => if Nat.eqb k 13 then 10 else 65536) (fun _ => true).
Definition tx_packets : list packet := [lx_hb 1 81 3; lx_hb 1 82 3; lx_hb 1 83 3].
Definition tx_data : list Z :=
  [0; 0; 0; 0; 0; 1; 0; 0; 253; 9; 0; 0; 0; 1; 1; 0; 0; 0;
   0; 0; 0; 0; 0; 1; 0; 0; 253; 9; 0; 0; 0; 1; 1; 0; 0; 0; 0; 0; 0; 0; 2; 3; 82; 4; 3; 42; 59;
   0; 0; 0; 0; 0; 1; 0; 0; 253; 9; 0; 0; 0; 1; 1; 0; 0; 0; 0; 0; 0; 0; 2; 3; 83; 4; 3; 145; 39].

Theorem C82_telemetry_refuted : exists v y ps y' g' cs data,
  fresh_in y 0 /\ Forall wf_packet ps /\ length ps = 3%nat /\
  (exists short, v_orc v short = 10 /\ forall k, k <> short -> v_orc v k = 65536) /\
  lrun 9 v y (lg_new 0 ext_tlog 0 0 MAlways (-1)) BTele (map (fun p => LMsg p []) ps) = Ok (y', g', BTele, cs) /\
  covered (-1) ps = ps /\ l_open g' = true /\ content y' (l_name g') data /\
  forall n p, In p ps -> ~ In (encode p) (map snd (read_log n data)).
Proof.
  exists tx_env, lx_sys, tx_packets.
  destruct (Ok_witness _ (lrun 9 tx_env lx_sys (lg_new 0 ext_tlog 0 0 MAlways (-1)) BTele (map (fun p => LMsg p []) tx_packets)) (fun t => match t with
    | (y, g, BTele, _) => l_open g && match y_fs y with Some [e] => beqs (d_name e) (l_name g) && beqs (d_data e) tx_data | _ => false end
    | _ => false end)) as ([[[y' g'] b'] cs] & R & O); [vm_compute; reflexivity|].
  destruct b' as [| |]; try (clear - O; discriminate). apply andb_prop in O. destruct O as [O1 O2].
  destruct (y_fs y') as [[|e [|]]|] eqn:F; try (clear - O2; discriminate). apply andb_prop in O2. destruct O2 as [O2 O3]. apply beqs_eq in O2. apply beqs_eq in O3.
  exists y', g', cs, tx_data. split. { split; [split; constructor|intros t []]. } split. { repeat apply Forall_cons; [wfb|wfb|wfb|apply Forall_nil]. }
  split; [reflexivity|]. split. { exists 13%nat. split; [reflexivity|]. intros k K. cbn [v_orc tx_env]. apply Nat.eqb_neq in K. rewrite K. reflexivity. }
  split; [exact R|]. split; [vm_compute; reflexivity|]. split; [exact O1|].
  split. { exists [e]. split; [exact F|]. split. { exists e. split; [left; reflexivity|auto]. } intros e' [<-|[]] _. auto. }
  clear. intros n p [<-|[<-|[<-|[]]]]; (destruct n as [|[|n]]; [exact (fun H => H)| |];
    vm_compute; intros [H|[]]; discriminate).
Qed.


Print Assumptions C82_telemetry_partial.
Print Assumptions C82_telemetry_refuted.
Print Assumptions C59_records.
Print Assumptions C59_readable.
