(* ULog: from single packets to a whole session. *)
From Verif Require Import Base Mav SpecFrame Frame FrameProofs Names NamesProofs Sys LogFile LogFileProofs ULog Loggers LogInv LogStep
  SpecLog SpecULog LogRun LogModes LogModes2 BinProofs ULogProofs ULogStream.

Lemma skipn_app_le : forall (a b : list Z) n, length a = n -> skipn n (a ++ b) = b.
Proof. intros a b n <-. rewrite skipn_app, skipn_all, Nat.sub_diag. reflexivity. Qed.
Lemma firstn_app_le : forall (a b : list Z) n, length a = n -> firstn n (a ++ b) = a.
Proof. intros a b n <-. rewrite firstn_app, firstn_all, Nat.sub_diag. cbn [firstn]. apply app_nil_r. Qed.

(* the packet with the header: what is staged when its data is flushed *)
Lemma header_data : forall f v y g u mm b p hd x, ul_inv u -> u_hdr u = true -> u_first u = false -> u_len u = 0 -> u_exp u = ul_seq p ->
  holds mm b p -> wf_packet p -> 17 <= ul_size p <= 249 -> (b + 22 + Z.to_nat (ul_size p) <= length mm)%nat ->
  ul_bytes p = hd ++ x -> length hd = 16%nat -> firstn 7 hd = ULOG_MAGIC ->
  exists u4 mm4, ul_process f v y g u mm b = (let* (y, g, u, _) := ul_flush f v y g u4 in Ok (y, g, u, mm4, [])) /\
    ubuf_ok u4 /\ u_hdr u4 = false /\ u_first u4 = false /\ u_exp u4 = after (ul_seq p) /\ u_plen u4 = 16 /\ firstn 16 (u_part u4) = hd /\ window u4 = x.
Proof.
  intros f v y g u mm b p hd x I HD FF L0 X HO WF SZ ROOM EB LH MG.
  pose proof (holds_seq _ _ _ HO) as HS. pose proof HO as (BM & LM & _). pose proof (holds_bytes _ _ _ HO ltac:(lia)) as HB.
  pose proof (holds_nth mm b p 4 HO ltac:(lia)) as N4. fold (ul_size p) in N4. set (len := ul_size p) in *.
  pose proof (ui_hdr u I HD) as [P0 _]. pose proof (ui_buf u I) as B. pose proof (seq_range p WF) as SR.
  unfold ul_process. rewrite !rd_Ok by lia. cbn [bind]. rewrite HS. unfold logging_seq. rewrite X, Z.eqb_refl. cbn [set_exp u_hdr u_part u_first]. rewrite HD.
  rewrite N4. rewrite (proj2 (Z.ltb_ge len 16)) by lia.
  assert (S7 : slice mm (b + 6) 7 = Ok ULOG_MAGIC).
  { rewrite slice_Ok by lia. f_equal. rewrite <- MG. replace (firstn 7 hd) with (firstn 7 (ul_bytes p)). 
    - rewrite <- HB, firstn_firstn. f_equal. lia.
    - rewrite EB, firstn_app. replace (7 - length hd)%nat with 0%nat by lia. cbn [firstn]. apply app_nil_r. }
  assert (S16 : slice mm (b + 6) 16 = Ok hd).
  { rewrite slice_Ok by lia. f_equal. replace hd with (firstn 16 (ul_bytes p)).
    - rewrite <- HB, firstn_firstn. f_equal. lia.
    - rewrite EB. apply firstn_app_le. auto. }
  rewrite S7. cbn [bind]. rewrite (proj2 (beqs_eq _ _) eq_refl). cbn [negb]. rewrite S16. cbn [bind].
  destruct B as [K1 KB K2 K3 K4 K5 K6] eqn:BE. clear BE. unfold UPART, UBUF in *. rewrite blit_Ok by lia. cbn [bind firstn app Nat.add].
  rewrite memmove_Ok by lia. cbn [bind]. set (mm1 := firstn (b + 6) mm ++ _).
  assert (LX : length x = Z.to_nat (len - 16)).
  { pose proof (ul_bytes_length p ltac:(lia)) as L. rewrite EB, app_length in L. fold len in L. lia. }
  assert (L1 : length mm1 = length mm) by (unfold mm1; rewrite !app_length, !firstn_length, !skipn_length; lia).
  rewrite blit_Ok by (cbn [length]; lia). cbn [bind length]. set (mm2 := firstn (b + 4) mm1 ++ _).
  assert (L2 : length mm2 = length mm) by (unfold mm2; rewrite !app_length, firstn_length, skipn_length; cbn [length]; lia).
  assert (BM1 : bytes mm1).
  { unfold mm1. apply Forall_app. split; [apply bytes_firstn; auto|]. apply Forall_app. split; [apply bytes_firstn, bytes_skipn; auto|apply bytes_skipn; auto]. }
  assert (BM2 : bytes mm2).
  { unfold mm2. apply Forall_app. split; [apply bytes_firstn; auto|]. apply Forall_app. split; [|apply bytes_skipn; auto]. constructor; auto. unfold is_byte; lia. }
  assert (N4' : nth (b + 4) mm2 0 = len - 16).
  { unfold mm2. rewrite app_nth2 by (rewrite firstn_length; lia). rewrite firstn_length. replace (b + 4 - Nat.min (b + 4) (length mm1))%nat with 0%nat by lia. reflexivity. }
  assert (D2 : firstn (Z.to_nat (len - 16)) (skipn (b + 6) mm2) = x).
  { unfold mm2. rewrite app_assoc. rewrite skipn_app. rewrite skipn_all2 by (rewrite app_length, firstn_length; cbn [length]; lia).
    rewrite app_length, firstn_length. cbn [length app]. replace (b + 6 - (Nat.min (b + 4) (length mm1) + 1))%nat with 1%nat by lia.
    rewrite skipn_skipn_add. replace (b + 4 + 1 + 1)%nat with (b + 6)%nat by lia. unfold mm1.
    rewrite skipn_app_le by (rewrite firstn_length; lia). rewrite firstn_app, firstn_firstn, firstn_length, skipn_length.
    replace (Z.to_nat (len - 16) - Nat.min (Z.to_nat len) (length mm - (b + 22)))%nat with 0%nat by lia. cbn [firstn]. rewrite app_nil_r.
    replace (Nat.min (Z.to_nat (len - 16)) (Z.to_nat len)) with (Z.to_nat (len - 16)) by lia.
    replace (skipn (b + 22) mm) with (skipn 16 (skipn (b + 6) mm)) by (rewrite skipn_skipn_add; f_equal; lia).
    rewrite <- (skipn_app_le hd x 16 LH), <- EB, <- HB. rewrite skipn_firstn_comm. f_equal. lia. }
  set (u1 := set_wait _ false _).
  assert (I1 : ul_inv u1).
  { unfold u1. split; cbn [set_exp set_wait set_part u_exp u_hdr u_first u_buf u_len u_idx u_plen u_part]; try congruence.
    - split; cbn [set_exp set_wait set_part u_exp u_hdr u_first u_buf u_len u_idx u_plen u_part]; auto; try lia.
      rewrite app_length, skipn_length. unfold UPART. lia.
    - unfold u16. apply Z.mod_pos_bound. lia. }
  assert (Wn : window u1 = []) by (apply window_nil; exact L0).
  destruct (ul_data_append f v y g u1 mm2 b I1) as (u4 & mm4 & E & B4 & H4 & F4 & X4 & P4 & PA4 & W4); rewrite ?N4'; try lia; auto.
  { unfold u1. cbn [set_exp set_wait set_part u_len]. lia. }
  { unfold u1. cbn [set_exp set_wait set_part u_first]. congruence. }
  { unfold u1. cbn [set_exp set_wait set_part u_first]. rewrite FF. lia. }
  unfold u1 in W4 at 2. cbn [set_exp set_wait set_part u_first] in W4. rewrite FF, N4', D2, Wn in W4. cbn [Z.to_nat skipn app] in W4.
  exists u4, mm4. split. { rewrite E. destruct (ul_flush f v y g u4) as [[[[? ?] ?] ?]| |]; reflexivity. }
  split; [exact B4|]. split; [exact H4|]. split; [exact F4|]. split. { rewrite X4. unfold u1. cbn [set_exp set_wait set_part u_exp]. rewrite ?X. reflexivity. }
  split. { rewrite P4. reflexivity. } split; auto. rewrite PA4. exact (firstn_app_le hd _ 16%nat LH).
Qed.

Lemma header_step : forall f v y g u mm b p base hd x, ul_inv u -> u_hdr u = true -> u_first u = false -> u_len u = 0 -> u_exp u = ul_seq p ->
  at_end y g base -> holds mm b p -> wf_packet p -> 17 <= ul_size p <= 249 -> (b + 22 + Z.to_nat (ul_size p) <= length mm)%nat ->
  ul_bytes p = hd ++ x -> length hd = 16%nat -> firstn 7 hd = ULOG_MAGIC -> streamable x ->
  (forall k, (y_pos y <= k)%nat -> 2048 <= v_orc v k) -> (700 <= f)%nat ->
  exists y' g' u' mm', ul_process f v y g u mm b = Ok (y', g', u', mm', []) /\ keeps y g y' g' /\
    exists ms r, strm y' g' u' (base ++ hd) x ms r (after (ul_seq p)) false.
Proof.
  intros f v y g u mm b p base hd x I HD FF L0 X A HO WF SZ ROOM EB LH MG (ms & r & ST) R F.
  destruct (header_data f v y g u mm b p hd x I HD FF L0 X HO WF SZ ROOM EB LH MG) as (u4 & mm4 & E & B4 & H4 & F4 & X4 & P4 & PA4 & W4).
  destruct ST as (E3 & F3 & T3) eqn:STE. clear STE. rewrite E3 in W4.
  destruct (ul_flush_complete ms f v y g u4 base r B4 W4 F3 T3 A R F) as (y' & g' & u' & EF & K & A' & W' & P').
  destruct (flush_flags _ _ _ _ _ _ _ _ _ B4 EF) as (B' & X' & H' & F').
  rewrite E, EF. cbn [bind]. eexists _, _, _, _. split; [reflexivity|]. split; auto. exists ms, r.
  split; auto; try congruence; try discriminate.
  - split; auto; try congruence. rewrite X', X4. apply Z.mod_pos_bound. lia.
  - rewrite P4 in A'. change (Z.to_nat 16) with 16%nat in A'. rewrite PA4 in A'. rewrite <- app_assoc. auto.
Qed.

(* ---- packets as the logger gets them ------------------------------------------------------------------------ *)

(* a packet the logger can read: MAVLink 1 packets are not trimmed *)
Definition ul_packet (p : packet) : Prop := wf_packet p /\ match p_ver p with V1 => length (p_payload p) = 255%nat | _ => True end.

Lemma firstn_payload : forall p tail n, (n <= length (p_payload p))%nat -> firstn n (skipn (hlen p) (encode p ++ tail)) = firstn n (p_payload p).
Proof.
  intros p tail n L. pose proof (payload_slice p tail 0 n ltac:(lia)) as S. rewrite Nat.add_0_r in S. cbn [skipn] in S.
  unfold slice in S. destruct (_ <=? _)%nat; inversion S. auto.
Qed.

Lemma ul_read : forall v e p tail, ul_packet p -> e_max_len e = 255 -> bytes tail ->
  exists pl tz, payload_dims e (encode p ++ tail) (info_of (v_tbl v) p) = Ok (pl, tz) /\
    ((tz = 0 /\ length (p_payload p) = 255%nat /\ holds (encode p ++ tail) (hlen p) p) \/
     (tz <> 0 /\ length (p_payload p) <> 255%nat /\ exists loc, local_copy 255 (encode p ++ tail) (info_of (v_tbl v) p) pl tz = Ok loc /\ holds loc 0 p /\ length loc = 255%nat)).
Proof.
  intros v e p tail (W & V) ML BT. destruct (encode_first p tail) as (R0 & R1).
  assert (LP : (length (p_payload p) < 256)%nat) by apply W.
  assert (BM : bytes (encode p ++ tail)) by (apply Forall_app; split; auto; apply encode_bytes; auto).
  unfold payload_dims. rewrite R0, R1. cbn [bind]. rewrite ML. cbn [m_plen m_poff info_of].
  assert (INPLACE : length (p_payload p) = 255%nat -> holds (encode p ++ tail) (hlen p) p).
  { intros L. split; auto. split.
    - destruct (payload_at p tail) as (pre & post & E & LL & _). rewrite E, !app_length. lia.
    - rewrite firstn_payload by lia. unfold ul_fields. rewrite restored_long by lia. reflexivity. }
  destruct (p_ver p) as [|fl cf sg] eqn:VV.
  - assert (Q : 254 =? STX2 = false) by reflexivity. rewrite Q. eexists _, 0. split; [reflexivity|]. left. split; auto.
  - assert (Q : 253 =? STX2 = true) by reflexivity. rewrite Q. cbn [bind]. unfold plen.
    destruct (Z.ltb_spec 255 (Z.of_nat (length (p_payload p)))) as [L|L]; [lia|].
    eexists _, _. split; [reflexivity|]. destruct (Nat.eq_dec (length (p_payload p)) 255) as [E|E].
    + left. split; [lia|]. auto.
    + right. split; [lia|]. split; auto. exists (ul_fields p). unfold local_copy. cbn [m_poff info_of]. rewrite Nat2Z.id.
      pose proof (payload_slice p tail 0 (length (p_payload p))) as PS. rewrite Nat.add_0_r in PS. rewrite PS by lia. cbn [bind skipn].
      rewrite firstn_all. unfold ul_fields. rewrite restored_short by lia.
      replace (Z.to_nat (255 - Z.of_nat (length (p_payload p)))) with (255 - length (p_payload p))%nat by lia.
      assert (L255 : length (p_payload p ++ repeat 0 (255 - length (p_payload p))) = 255%nat) by (rewrite app_length, repeat_length; lia).
      rewrite L255. cbn [Nat.leb]. split; [reflexivity|]. split; auto.
      assert (EF : p_payload p ++ repeat 0 (255 - length (p_payload p)) = ul_fields p) by (unfold ul_fields; rewrite restored_short by lia; reflexivity).
      rewrite EF. rewrite EF in L255. split; [apply ul_fields_bytes; auto|]. split; [lia|]. cbn [skipn]. apply firstn_all2. lia.
Qed.

(* whole write_msg, with [k] standing for ul_process's result *)
Lemma ul_write_packet : forall f v y g u p tail ent, ul_packet p -> is_ulog p = true -> v_tbl v (p_id p) = Some ent -> e_max_len ent = 255 -> bytes tail ->
  exists mm b y0 g0, holds mm b p /\ ((mm = encode p ++ tail /\ b = hlen p /\ length (p_payload p) = 255%nat) \/ (length mm = 255%nat /\ b = 0%nat /\ length (p_payload p) <> 255%nat)) /\
    calm y g y0 g0 /\ y_fs y0 = y_fs y /\ y_pos y0 = y_pos y /\ l_open g0 = l_open g /\ l_name g0 = l_name g /\ l_off g0 = l_off g /\ l_mode g0 = l_mode g /\
    exists cs0 k, ul_write f v y g u (encode p ++ tail) (info_of (v_tbl v) p) =
      let* (y1, g1, u1, mm1, cs1) := ul_process f v y0 g0 u mm b in Ok (y1, count_write g1 (info_of (v_tbl v) p), u1, k mm1 : list Z, cs0 ++ cs1).
Proof.
  intros f v y g u p tail ent UP IU T ML BT. destruct (ul_read v ent p tail UP ML BT) as (pl & tz & PD & CASES).
  unfold ul_write. cbn [m_id info_of]. unfold is_ulog in IU. rewrite T.
  assert (N77 : p_id p =? 77 = false) by lia. assert (C : negb ((p_id p =? 77) || (p_id p =? 266) || (p_id p =? 267)) = false) by lia.
  rewrite C, PD, N77. cbn [bind].
  assert (ACK : exists y0 g0 cs0, (if p_id p =? 267 then
             let* a := rd (encode p ++ tail) (m_poff (info_of (v_tbl v) p)) in
             let* b := rd (encode p ++ tail) (m_poff (info_of (v_tbl v) p) + 1) in
             let '(y, g, c) := send_ctl y g 268 14 (le16 (a + 256 * b) ++ [u8 (l_target g); 0]) in
             Ok (y, g, [c])
           else Ok (y, g, [])) = Ok (y0, g0, cs0) /\
     calm y g y0 g0 /\ y_fs y0 = y_fs y /\ y_pos y0 = y_pos y /\ l_open g0 = l_open g /\ l_name g0 = l_name g /\ l_off g0 = l_off g /\ l_mode g0 = l_mode g).
  { destruct (p_id p =? 267).
    - assert (LE : (hlen p + 2 <= length (encode p ++ tail))%nat).
      { rewrite app_length, encode_length. unfold hlen. destruct (p_ver p); cbn; lia. }
      cbn [m_poff info_of]. rewrite !rd_Ok by lia. cbn [bind]. destruct (send_ctl _ _ _ _ _) as [[y1 g1] c] eqn:SC. pose proof (calm_send_ctl _ _ _ _ _ _ _ _ SC) as CA.
      unfold send_ctl in SC. inversion SC; subst. eexists _, _, _. split; [reflexivity|]. split; [exact CA|]. cbn. auto 10.
    - exists y, g, []. split; auto. split; [apply calm_refl|]. auto 10. }
  destruct ACK as (y0 & g0 & cs0 & AE & Q). rewrite AE. cbn [bind].
  destruct CASES as [(Z0 & LP & H)|(Z0 & NL & loc & LC & H & LL)].
  - exists (encode p ++ tail), (hlen p), y0, g0. split; auto. split; auto. repeat (split; [apply Q|]).
    exists cs0, (fun x => x). rewrite (proj2 (Z.eqb_eq _ _) Z0). cbn [m_poff info_of]. reflexivity.
  - exists loc, 0%nat, y0, g0. split; auto. split; auto. repeat (split; [apply Q|]).
    exists cs0, (fun _ => encode p ++ tail). rewrite (proj2 (Z.eqb_neq _ _) Z0). rewrite LC. cbn [bind]. reflexivity.
Qed.

(* ---- sessions --------------------------------------------------------------------------------------------------- *)

(* what the events of a session may be *)
Definition ul_event_ok (v : env) (e : lev) : Prop :=
  match e with
  | LMsg p tail => bytes tail /\ if is_ulog p then ul_packet p /\ ul_consistent p else p_id p <> 77
  | LStart => True
  | LAlive => False
  end.

Lemma at_end_same : forall y g y' g' d, at_end y g d -> y_fs y' = y_fs y -> l_open g' = l_open g -> l_name g' = l_name g -> l_off g' = l_off g -> at_end y' g' d.
Proof. intros y g y' g' d [O C F] E1 E2 E3 E4. split; try congruence. rewrite E3. eapply content_fs; eauto. Qed.

Lemma strm_same : forall y g y' g' u base cur ms r exp lost, strm y g u base cur ms r exp lost -> y_fs y' = y_fs y -> l_open g' = l_open g -> l_name g' = l_name g -> l_off g' = l_off g ->
  strm y' g' u base cur ms r exp lost.
Proof. intros y g y' g' u base cur ms r exp lost [] E1 E2 E3 E4. split; auto. eapply at_end_same; eauto. Qed.

Definition ulogs (evs : list lev) : list packet := filter is_ulog (offered evs).

Lemma ul_event_step : forall f v y g u e ps base cur ms r exp lost, strm y g u base cur ms r exp lost -> l_mode g = MAlways -> ul_event_ok v e ->
  (forall id, id = 266 \/ id = 267 -> exists ent, v_tbl v id = Some ent /\ e_max_len ent = 255) ->
  unambiguous exp (ulogs [e] ++ ps) -> Forall streamable (runs exp lost cur (ulogs [e] ++ ps)) ->
  (forall k, (y_pos y <= k)%nat -> 2048 <= v_orc v k) -> (700 <= f)%nat ->
  exists y' g' u' cs, levent f v y g (BULog u) e = Ok (y', g', BULog u', cs) /\ keeps y g y' g' /\
    exists base' cur' ms' r' exp' lost', strm y' g' u' base' cur' ms' r' exp' lost' /\ unambiguous exp' ps /\
     ((base' = base /\ runs exp lost cur (ulogs [e] ++ ps) = runs exp' lost' cur' ps) \/
      (base' = base ++ concat ms /\ runs exp lost cur (ulogs [e] ++ ps) = cur :: runs exp' lost' cur' ps)).
Proof.
  intros f v y g u e ps base cur ms r exp lost ST M OK T U FS R F. destruct e as [p tail| |]; [| |destruct OK].
  - cbn [levent]. unfold lwrite. destruct (learn_same g (info_of (v_tbl v) p)) as (Q1 & Q2 & Q3 & Q4 & Q5). set (g0 := learn_target g (info_of (v_tbl v) p)) in *.
    rewrite auto_idle; [|congruence|rewrite Q1; apply ST]. cbn [bind]. destruct OK as [BT OK].
    assert (ST0 : strm y g0 u base cur ms r exp lost) by (eapply strm_same; eauto).
    unfold ulogs in U, FS |- *. cbn [offered filter] in U, FS |- *. destruct (is_ulog p) eqn:IU; cbn [app] in U, FS |- *.
    + destruct OK as [UP UC]. destruct (T (p_id p)) as (ent & TE & ML). { unfold is_ulog in IU. lia. }
      destruct (ul_write_packet f v y g0 u p tail ent UP IU TE ML BT) as (mm & b & y1 & g1 & HO & _ & CALM & E1 & E2 & E3 & E4 & E5 & E6 & cs0 & kk & W).
      assert (ST1 : strm y1 g1 u base cur ms r exp lost) by (eapply strm_same; eauto).
      destruct U as (U1 & U2 & U3).
      destruct (process_step f v y1 g1 u mm b p ps base cur ms r exp lost ST1 HO (proj1 UP) UC U1 U2 FS) as (y2 & g2 & u2 & mm2 & EP & K & base' & cur' & ms' & r' & exp' & lost' & ST2 & EX & RR); auto.
      { intros k KK. apply R. lia. }
      rewrite W, EP. cbn [bind]. eexists _, _, _, _. split; [reflexivity|].
      split. { destruct K. split; cbn [count_write set_counts l_name l_mode]; congruence || lia. }
      exists base', cur', ms', r', exp', lost'. split; [eapply strm_same; [exact ST2| | | |]; reflexivity|]. split; auto. rewrite EX. auto.
    + unfold ul_write. cbn [m_id info_of]. unfold is_ulog in IU.
      assert (C : negb ((p_id p =? 77) || (p_id p =? 266) || (p_id p =? 267)) = true) by lia. rewrite C. cbn [bind].
      eexists _, _, _, _. split; [reflexivity|]. split. { split; auto. } exists base, cur, ms, r, exp, lost. auto.
  - cbn [levent].
    cbn [ulogs offered filter app] in *. unfold ulogs in *. cbn [offered filter app] in *. destruct (l_tstart g) eqn:TS.
    + cbn [lcb_start]. unfold send_command, send_ctl. eexists _, _, _, _. split; [reflexivity|]. split. { split; cbn; auto. }
      exists base, cur, ms, r, exp, lost. split; auto. eapply strm_same; eauto.
    + eexists _, _, _, _. split; [reflexivity|]. split; [apply keeps_refl|]. exists base, cur, ms, r, exp, lost. auto.
Qed.

Lemma ul_run_step : forall f v evs y g u base cur ms r exp lost, strm y g u base cur ms r exp lost -> l_mode g = MAlways -> Forall (ul_event_ok v) evs ->
  (forall id, id = 266 \/ id = 267 -> exists ent, v_tbl v id = Some ent /\ e_max_len ent = 255) ->
  unambiguous exp (ulogs evs) -> Forall streamable (runs exp lost cur (ulogs evs)) ->
  (forall k, (y_pos y <= k)%nat -> 2048 <= v_orc v k) -> (700 <= f)%nat ->
  exists y' g' u' cs qs ms' r', lrun f v y g (BULog u) evs = Ok (y', g', BULog u', cs) /\ keeps y g y' g' /\
    at_end y' g' (base ++ messages (qs ++ [(ms', r')])) /\ staged u' = r' /\ kept (runs exp lost cur (ulogs evs)) (qs ++ [(ms', r')]).
Proof.
  induction evs as [|e evs IH]; intros y g u base cur ms r exp lost ST M OK T U FS R F.
  - cbn [lrun]. exists y, g, u, [], [], ms, r. split; auto. split; [apply keeps_refl|]. destruct ST.
    split; [|split]. + unfold messages. cbn [app map concat fst]. rewrite app_nil_r. auto.
    + unfold staged. rewrite st_plen. auto.
    + unfold ulogs. cbn [offered filter runs app]. constructor; auto.
  - inversion OK as [|? ? OK1 OK2]; subst.
    assert (UA : ulogs (e :: evs) = ulogs [e] ++ ulogs evs).
    { unfold ulogs. destruct e; cbn [offered filter]; auto. destruct (is_ulog p); reflexivity. }
    rewrite UA in *.
    destruct (ul_event_step f v y g u e (ulogs evs) base cur ms r exp lost ST M OK1 T U FS R F) as (y1 & g1 & u1 & c1 & E1 & K1 & base' & cur' & ms' & r' & exp' & lost' & ST1 & U1 & RR).
    assert (FS' : Forall streamable (runs exp' lost' cur' (ulogs evs))).
    { destruct RR as [(_ & RR)|(_ & RR)]; rewrite RR in FS; auto. inversion FS; auto. }
    destruct (IH y1 g1 u1 base' cur' ms' r' exp' lost' ST1) as (y2 & g2 & u2 & c2 & qs & ms2 & r2 & E2 & K2 & A2 & S2 & KP); auto.
    { destruct K1; congruence. } { intros k KK. apply R. destruct K1. lia. }
    cbn [lrun]. rewrite E1. cbn [bind]. rewrite E2. cbn [bind]. destruct RR as [(EB & RR)|(EB & RR)].
    + exists y2, g2, u2, (c1 ++ c2), qs, ms2, r2. split; auto. split; [eapply keeps_trans; eauto|]. rewrite EB in A2. split; auto. split; auto. rewrite RR. auto.
    + exists y2, g2, u2, (c1 ++ c2), ((ms, r) :: qs), ms2, r2. split; auto. split; [eapply keeps_trans; eauto|]. split.
      * rewrite EB in A2. unfold messages in *. cbn [app map concat fst]. rewrite app_assoc. auto.
      * split; auto. rewrite RR. cbn [app]. constructor; auto. apply ST.
Qed.

(* a whole session: the packet with the header, then anything *)
Lemma ul_session : forall f v y g u p0 tail0 evs hd x, ul_inv u -> u_hdr u = true -> u_first u = false -> u_len u = 0 -> u_exp u = ul_seq p0 ->
  at_end y g [] -> l_mode g = MAlways -> is_ulog p0 = true -> ul_event_ok v (LMsg p0 tail0) -> Forall (ul_event_ok v) evs ->
  (forall id, id = 266 \/ id = 267 -> exists ent, v_tbl v id = Some ent /\ e_max_len ent = 255) ->
  17 <= ul_size p0 <= 249 -> (ul_size p0 <= 233 \/ length (p_payload p0) = 255%nat /\ (14 <= length tail0)%nat) ->
  ul_bytes p0 = hd ++ x -> length hd = 16%nat -> firstn 7 hd = ulog_magic ->
  unambiguous (after (ul_seq p0)) (ulogs evs) -> Forall streamable (runs (after (ul_seq p0)) false x (ulogs evs)) ->
  (forall k, (y_pos y <= k)%nat -> 2048 <= v_orc v k) -> (700 <= f)%nat ->
  exists y' g' u' cs qs ms' r', lrun f v y g (BULog u) (LMsg p0 tail0 :: evs) = Ok (y', g', BULog u', cs) /\ keeps y g y' g' /\
    at_end y' g' (hd ++ messages (qs ++ [(ms', r')])) /\ staged u' = r' /\ kept (runs (after (ul_seq p0)) false x (ulogs evs)) (qs ++ [(ms', r')]).
Proof.
  intros f v y g u p0 tail0 evs hd x I HD FF L0 X A M IU (BT & OK0) OK T SZ ROOM EB LH MG U FS R F. rewrite IU in OK0. destruct OK0 as [UP UC].
  assert (SX : streamable x) by (eapply runs_streamable; [|exact FS]; discriminate).
  assert (EV : exists y1 g1 u1 c1, levent f v y g (BULog u) (LMsg p0 tail0) = Ok (y1, g1, BULog u1, c1) /\ keeps y g y1 g1 /\
    exists ms r, strm y1 g1 u1 hd x ms r (after (ul_seq p0)) false).
  { cbn [levent]. unfold lwrite. destruct (learn_same g (info_of (v_tbl v) p0)) as (Q1 & Q2 & Q3 & Q4 & Q5). set (g0 := learn_target g (info_of (v_tbl v) p0)) in *.
    rewrite auto_idle; [|congruence|rewrite Q1; apply A]. cbn [bind].
    destruct (T (p_id p0)) as (ent & TE & ML). { unfold is_ulog in IU. lia. }
    destruct (ul_write_packet f v y g0 u p0 tail0 ent UP IU TE ML BT) as (mm & b & y1 & g1 & HO & WH & CALM & E1 & E2 & E3 & E4 & E5 & E6 & cs0 & kk & W).
    assert (A1 : at_end y1 g1 []) by (eapply at_end_same; [exact A| | | |]; congruence).
    destruct (header_step f v y1 g1 u mm b p0 [] hd x) as (y2 & g2 & u2 & mm2 & EP & K & ms & r & ST); auto.
    - apply UP.
    - destruct ROOM as [ROOM|[ROOM TL]].
      + destruct HO as (_ & L & _). lia.
      + destruct WH as [(-> & -> & LP)|(L255 & -> & LL)].
        * rewrite app_length, encode_length. unfold hlen. destruct (p_ver p0);
 lia.
        * congruence.
    - intros k KK. apply R. lia.
    - rewrite W, EP. cbn [bind]. eexists _, _, _, _. split; [reflexivity|].
      split. { destruct K. split; cbn [count_write set_counts l_name l_mode]; congruence || lia. }
      exists ms, r. eapply strm_same; [exact ST| | | |]; reflexivity. }
  destruct EV as (y1 & g1 & u1 & c1 & E1 & K1 & ms & r & ST).
  destruct (ul_run_step f v evs y1 g1 u1 hd x ms r _ _ ST) as (y2 & g2 & u2 & c2 & qs & ms2 & r2 & E2 & K2 & A2 & S2 & KP); auto.
  { destruct K1; congruence. } { intros k KK. apply R. destruct K1. lia. }
  cbn [lrun]. rewrite E1. cbn [bind]. rewrite E2. cbn [bind]. exists y2, g2, u2, (c1 ++ c2), qs, ms2, r2. split; auto. split; [eapply keeps_trans; eauto|]. auto.
Qed.
