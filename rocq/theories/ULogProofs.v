(* ULog: staging buffers, flushing, sequence numbers. *)
From Verif Require Import Base Mav SpecFrame Frame FrameProofs Names NamesProofs Sys LogFile LogFileProofs ULog Loggers LogInv LogStep
  SpecLog LogRun LogModes LogModes2 BinProofs.

(* ---- the staging buffers ------------------------------------------------------------------------ *)

(* sizes and bounds of the two buffers *)
Record ubuf_ok (u : ulst) : Prop := mkUbuf {
  ub_buf : length (u_buf u) = UBUF;
  ub_bytes : bytes (u_buf u);
  ub_part : length (u_part u) = UPART;
  ub_len : 0 <= u_len u;
  ub_idx : 0 <= u_idx u;
  ub_end : u_idx u + u_len u <= 2048;
  ub_plen : 0 <= u_plen u <= 1024 }.

Record ul_inv (u : ulst) : Prop := mkUinv {
  ui_buf : ubuf_ok u;
  ui_exp : 0 <= u_exp u < 65536;
  (* while waiting for a message boundary nothing is staged *)
  ui_first : u_first u = true -> u_len u = 0 /\ u_idx u <= 255;
  ui_hdr : u_hdr u = true -> u_plen u = 0 /\ u_len u = 0 }.

Lemma file_write_bound : forall v y g off bs r y' g', file_write v y g off bs = (r, y', g') -> r <= Z.of_nat (length bs).
Proof.
  intros v y g off bs r y' g' H. unfold file_write, ask in H. destruct (l_open g).
  - destruct (Z.ltb_spec (v_orc v (y_pos y)) 0); pose proof (f_equal (fun t => fst (fst t)) H) as X; cbn [fst] in X; lia.
  - pose proof (f_equal (fun t => fst (fst t)) H) as X; cbn [fst] in X. lia.
Qed.

Lemma flush_part_safe : forall f v y g u, ubuf_ok u ->
  flush_part f v y g u = Fuel \/ exists y' g' u' r, flush_part f v y g u = Ok (y', g', u', r) /\ ubuf_ok u' /\
    u_exp u' = u_exp u /\ u_hdr u' = u_hdr u /\ u_first u' = u_first u /\ u_buf u' = u_buf u /\ u_len u' = u_len u /\ u_idx u' = u_idx u /\
    (r = None -> u_plen u' = 0).
Proof.
  induction f; intros v y g u B; cbn [flush_part]; destruct (Z.eqb_spec (u_plen u) 0) as [Z0|Z0].
  - right. exists y, g, u, None. repeat (split; auto).
  - auto.
  - right. exists y, g, u, None. repeat (split; auto).
  - destruct B as [B1 BB B2 B3 B4 B5 B6]. unfold UPART in *. rewrite slice_Ok by lia. cbn [bind skipn].
    set (bs := firstn (Z.to_nat (u_plen u)) (u_part u)).
    assert (LB : length bs = Z.to_nat (u_plen u)) by (unfold bs; rewrite firstn_length; lia).
    destruct (file_write v y g (l_off g) bs) as [[r y1] g1] eqn:FW. pose proof (file_write_bound _ _ _ _ _ _ _ _ FW) as RB.
    destruct ((r =? 0) || (r =? - EAGAIN)) eqn:C1. { right. eexists _, _, u, _. split; [reflexivity|]. repeat (split; auto). discriminate. }
    destruct (Z.ltb_spec r 0). { right. eexists _, _, u, _. split; [reflexivity|]. repeat (split; auto). discriminate. }
    rewrite u16_small by lia. rewrite memmove_Ok by lia. cbn [bind]. cbn [firstn app].
    edestruct (IHf v y1 g1) as [F|(y' & g' & u' & r' & E & H')]; [|left; exact F|right; exists y', g', u', r'; split; [exact E|exact H']].
    split; cbn [set_part u_buf u_part u_len u_idx u_plen]; auto; try lia.
    rewrite app_length, firstn_length, !skipn_length. unfold UPART. lia.
Qed.

Lemma nth_window : forall u i, ubuf_ok u -> (i < length (u_buf u))%nat -> is_byte (nth i (u_buf u) 0).
Proof. intros. apply nth_byte. apply H. Qed.

Lemma flush_msgs_safe : forall f v y g u, ubuf_ok u ->
  flush_msgs f v y g u = Fuel \/ exists y' g' u' b, flush_msgs f v y g u = Ok (y', g', u', b) /\ ubuf_ok u' /\
    u_exp u' = u_exp u /\ u_hdr u' = u_hdr u /\ u_first u' = u_first u /\ u_buf u' = u_buf u /\
    u_idx u' + u_len u' = u_idx u + u_len u /\ u_len u' <= u_len u /\ (u_len u = 0 -> u_plen u' = u_plen u).
Proof.
  induction f; intros v y g u B; cbn [flush_msgs]; destruct (negb ((3 <=? u_len u) && (u_plen u =? 0))) eqn:C0.
  - right. exists y, g, u, true. repeat (split; auto); lia.
  - auto.
  - right. exists y, g, u, true. repeat (split; auto); lia.
  - apply negb_false_iff, andb_prop in C0. destruct C0 as [C1 C2]. apply Z.leb_le in C1. apply Z.eqb_eq in C2.
    destruct B as [B1 BB B2 B3 B4 B5 B6]. unfold UBUF, UPART in *. rewrite !rd_Ok by lia. cbn [bind].
    set (full := u16 _). pose proof (u16_range (nth (Z.to_nat (u_idx u)) (u_buf u) 0 + 256 * nth (Z.to_nat (u_idx u) + 1) (u_buf u) 0 + 3)) as FR. fold full in FR.
    destruct (Z.ltb_spec (u_len u) full). { right. exists y, g, u, true. repeat (split; auto); lia. }
    rewrite slice_Ok by lia. cbn [bind]. set (bs := firstn _ _). assert (LB : length bs = Z.to_nat full) by (unfold bs; rewrite firstn_length, skipn_length; lia).
    destruct (file_write v y g (l_off g) bs) as [[r y1] g1] eqn:FW. pose proof (file_write_bound _ _ _ _ _ _ _ _ FW) as RB.
    destruct (Z.eqb_spec r full) as [RF|RF].
    + rewrite !u16_small by lia.
      edestruct (IHf v y1 g1) as [F|(y' & g' & u' & r' & E & K1 & K2 & K3 & K4 & K5 & K6 & K7 & K8)]; [|left; exact F|].
      2:{ right. exists y', g', u', r'. split; [exact E|]. cbn [set_buf u_exp u_hdr u_first u_buf u_len u_idx u_plen] in *. repeat (split; auto); try lia. }
      split; cbn [set_buf u_buf u_part u_len u_idx u_plen]; auto; lia.
    + destruct ((r =? 0) || (r =? - EAGAIN)). { right. exists y1, g1, u, true. repeat (split; auto); lia. }
      destruct (Z.ltb_spec r 0). { right. exists y1, g1, u, false. repeat (split; auto); lia. }
      rewrite (u16_small (full - r)) by lia. change (Z.of_nat 1024) with 1024. destruct (Z.ltb_spec 1024 (full - r)).
      { right. exists y1, g1, (set_part u (u_part u) 0), true. cbn [set_part u_exp u_hdr u_first u_buf u_len u_idx u_plen u_part].
        repeat (split; auto); cbn [set_part u_exp u_hdr u_first u_buf u_len u_idx u_plen u_part]; auto; lia. }
      rewrite slice_Ok by lia. cbn [bind]. rewrite blit_Ok by (rewrite firstn_length, skipn_length; lia). cbn [bind]. rewrite !u16_small by lia.
      right. eexists. eexists. eexists. exists true. split; [reflexivity|].
      repeat split; cbn [set_buf set_part u_exp u_hdr u_first u_buf u_len u_idx u_plen u_part]; auto; try lia.
      unfold UPART. cbn [firstn app]. rewrite app_length, !firstn_length, !skipn_length. lia.
Qed.

Lemma ul_flush_safe : forall f v y g u, ubuf_ok u ->
  ul_flush f v y g u = Fuel \/ exists y' g' u' b, ul_flush f v y g u = Ok (y', g', u', b) /\ ubuf_ok u' /\
    u_exp u' = u_exp u /\ u_hdr u' = u_hdr u /\ u_first u' = u_first u /\ u_buf u' = u_buf u /\
    u_idx u' + u_len u' = u_idx u + u_len u /\ u_len u' <= u_len u /\ (u_plen u = 0 -> u_len u = 0 -> u_plen u' = 0).
Proof.
  intros f v y g u B. unfold ul_flush. destruct (flush_part_safe f v y g u B) as [F|(y1 & g1 & u1 & r & E & B1 & E1 & H1 & F1 & BU1 & L1 & I1 & P1)].
  { rewrite F. auto. }
  rewrite E. cbn [bind]. destruct r as [b|].
  - right. exists y1, g1, u1, b. split; auto. repeat (split; auto); try congruence; try lia.
    intros P0 L0. destruct f; cbn [flush_part] in E; rewrite P0 in E; cbn [Z.eqb] in E; inversion E; subst; auto.
  - destruct (flush_msgs_safe f v y1 g1 u1 B1) as [F|(y2 & g2 & u2 & b & E2 & B2 & X1 & X2 & X3 & X4 & X5 & X6 & X7)]; [auto|].
    right. exists y2, g2, u2, b. split; auto. repeat (split; auto); try congruence; try lia.
Qed.

(* ---- one received message ------------------------------------------------------------------------- *)

Lemma bytes_firstn : forall n l, bytes l -> bytes (firstn n l).
Proof. intros. apply Forall_firstn_z; auto. Qed.
Lemma bytes_skipn : forall n l, bytes l -> bytes (skipn n l).
Proof. induction n; destruct l; cbn; intros H; auto. inversion H; subst. apply IHn; auto. Qed.

(* memory that reaches far enough behind the message *)
Definition roomy (mm : list Z) (b : nat) : Prop := bytes mm /\ Z.of_nat b + 520 <= Z.of_nat (length mm).

(* memory in which everything the length fields refer to lies inside *)
Definition readable (mm : list Z) (b : nat) : Prop :=
  let len := nth (b + 4) mm 0 in let fmo := nth (b + 5) mm 0 in
  bytes mm /\ (b + 6 <= length mm)%nat /\ Z.of_nat b + 6 + u8 len <= Z.of_nat (length mm) /\
  (fmo <> 255 -> Z.of_nat b + 6 + fmo + u8 (len - fmo) <= Z.of_nat (length mm)).

Lemma roomy_readable : forall mm b, roomy mm b -> readable mm b.
Proof.
  intros mm b (B & L). unfold readable. pose proof (u8_range (nth (b + 4) mm 0)). pose proof (u8_range (nth (b + 4) mm 0 - nth (b + 5) mm 0)).
  pose proof (nth_byte mm (b + 5) B) as F. unfold is_byte in F. split; auto. lia.
Qed.

Lemma ul_data_safe : forall f v y g u mm b drops, ul_inv u -> u_hdr u = false -> readable mm b ->
  ul_data f v y g u mm b drops = Fuel \/ exists y' g' u' mm', ul_data f v y g u mm b drops = Ok (y', g', u', mm') /\ ul_inv u' /\ length mm' = length mm.
Proof.
  intros f v y g u mm b drops [B X FI HI] HD (BM & RM1 & RM2 & RM3). unfold ul_data.
  assert (S1 : (if drops then let* (y, g, u, _) := ul_flush f v y g u in Ok (y, g, set_wait (set_buf u (u_buf u) 0 0) (u_hdr u) true) else Ok (y, g, u)) = Fuel \/
    exists y1 g1 u1, (if drops then let* (y, g, u, _) := ul_flush f v y g u in Ok (y, g, set_wait (set_buf u (u_buf u) 0 0) (u_hdr u) true) else Ok (y, g, u)) = Ok (y1, g1, u1) /\ ul_inv u1 /\ u_hdr u1 = false).
  { destruct drops. 2:{ right. exists y, g, u. split; auto. split; auto. split; auto. }
    destruct (ul_flush_safe f v y g u B) as [F|(y1 & g1 & u1 & b1 & E & B1 & E1 & H1 & F1 & BU & _)]; [rewrite F; auto|].
    rewrite E. cbn [bind]. right. eexists. eexists. eexists. split; [reflexivity|]. split; [|cbn; congruence].
    destruct B1 as [K1 KB K2 K3 K4 K5 K6]. split; cbn [set_wait set_buf u_exp u_hdr u_first u_buf u_len u_idx u_plen u_part]; try congruence; try lia.
    split; cbn [set_wait set_buf u_exp u_hdr u_first u_buf u_len u_idx u_plen u_part]; auto; lia. }
  destruct S1 as [F|(y1 & g1 & u1 & E1 & [B1 X1 FI1 HI1] & HD1)]; [rewrite F; auto|]. rewrite E1. cbn [bind]. clear E1 B X FI HI HD u y g.
  rewrite !rd_Ok by lia. cbn [bind]. set (len := nth (b + 4) mm 0). assert (LB : is_byte len) by (apply nth_byte; auto). unfold is_byte in LB.
  set (u2 := if Z.of_nat UBUF <? u_len u1 + len then _ else u1). change (Z.of_nat UBUF) with 2048 in *.
  assert (I2 : ul_inv u2 /\ u_hdr u2 = false /\ u_len u2 + len <= 2048).
  { unfold u2. destruct (Z.ltb_spec 2048 (u_len u1 + len)).
    - split; [|split; auto; cbn; lia]. destruct B1 as [K1 KB K2 K3 K4 K5 K6].
      split; cbn [set_wait set_buf u_exp u_hdr u_first u_buf u_len u_idx u_plen u_part]; try congruence; try lia.
      split; cbn [set_wait set_buf u_exp u_hdr u_first u_buf u_len u_idx u_plen u_part]; auto; lia.
    - split; auto. split; auto. }
  destruct I2 as ([B2 X2 FI2 HI2] & HD2 & L2). clearbody u2. clear B1 X1 FI1 HI1 HD1 u1.
  assert (S3 : exists u3, (if 2048 <? u_idx u2 + u_len u2 + len then
      let* nb := memmove (u_buf u2) 0 (Z.to_nat (u_idx u2)) (Z.to_nat (u_len u2)) in Ok (set_buf u2 nb (u_len u2) 0) else Ok u2) = Ok u3 /\
      ul_inv u3 /\ u_hdr u3 = false /\ u_idx u3 + u_len u3 + len <= 2048).
  { destruct (Z.ltb_spec 2048 (u_idx u2 + u_len u2 + len)).
    - destruct B2 as [K1 KB K2 K3 K4 K5 K6]. unfold UBUF in K1. rewrite memmove_Ok by lia. cbn [bind]. eexists. split; [reflexivity|].
      split; [|split; auto; cbn; lia].
      split; cbn [set_buf u_exp u_hdr u_first u_buf u_len u_idx u_plen u_part]; auto.
      + split; cbn [set_buf u_exp u_hdr u_first u_buf u_len u_idx u_plen u_part]; auto; try lia.
        * cbn [firstn app]. rewrite app_length, firstn_length, !skipn_length. unfold UBUF. lia.
        * apply Forall_app. split; [apply bytes_firstn; auto|]. apply Forall_app. split; [apply bytes_firstn, bytes_skipn; auto|apply bytes_skipn; auto].
      + intros F. specialize (FI2 F). lia.
    - exists u2. split; auto. split; auto. split; auto. }
  destruct S3 as (u3 & E3 & [B3 X3 FI3 HI3] & HD3 & L3). rewrite E3. cbn [bind]. clear E3 B2 X2 FI2 HI2 HD2 L2 u2.
  set (fmo := nth (b + 5) mm 0). assert (FB : is_byte fmo) by (apply nth_byte; auto). unfold is_byte in FB.
  destruct (u_first u3 && (fmo =? 255)) eqn:CF. { right. eexists. eexists. eexists. eexists. split; [reflexivity|]. split; auto. split; auto. }
  set (begin := if u_first u3 then fmo else 0). assert (BG : 0 <= begin <= 255) by (unfold begin; destruct (u_first u3); lia).
  assert (WI : ul_inv (set_wait u3 (u_hdr u3) false)).
  { split; cbn [set_wait set_buf u_exp u_hdr u_first u_buf u_len u_idx u_plen u_part]; auto; try discriminate.
    destruct B3; split; cbn [set_wait set_buf u_exp u_hdr u_first u_buf u_len u_idx u_plen u_part]; auto. }
  destruct (Z.eqb_spec len 0). { right. eexists. eexists. eexists. eexists. split; [reflexivity|]. split; auto. }
  set (len' := u8 (len - begin)). pose proof (u8_range (len - begin)) as LR. fold len' in LR.
  cbn [length app]. rewrite blit_Ok by (cbn [length]; lia). cbn [bind]. set (mm' := firstn (b + 4) mm ++ _).
  assert (LM : length mm' = length mm). { unfold mm'. rewrite !app_length, firstn_length, skipn_length. cbn [length]. lia. }
  assert (RS : (b + 6 + Z.to_nat begin + Z.to_nat len' <= length mm')%nat).
  { fold len fmo in RM2, RM3. unfold len', begin in *. destruct (u_first u3); [specialize (RM3 ltac:(lia))|rewrite Z.sub_0_r in *]; lia. }
  rewrite slice_Ok by lia. cbn [bind]. set (bs := firstn _ _). assert (LBS : length bs = Z.to_nat len') by (unfold bs; rewrite firstn_length, skipn_length; lia).
  assert (BMM : bytes mm').
  { unfold mm'. apply Forall_app. split; [apply bytes_firstn; auto|]. apply Forall_app. split; [|apply bytes_skipn; auto]. constructor; auto. }
  assert (BBS : bytes bs) by (apply bytes_firstn, bytes_skipn; auto).
  cbn [set_wait u_buf u_idx u_len].
  assert (FIT : u_idx u3 + u_len u3 + len' <= 2048).
  { destruct (u_first u3) eqn:FF. - specialize (FI3 eq_refl). lia. - unfold len', begin. rewrite Z.sub_0_r, u8_small by lia. lia. }
  destruct B3 as [K1 KB K2 K3 K4 K5 K6]. unfold UBUF in K1. rewrite blit_Ok by lia. cbn [bind]. rewrite (u16_small (u_len u3 + len')) by lia.
  match goal with |- context [ul_flush f v y1 g1 ?w] => set (u4 := w) end.
  assert (B4 : ubuf_ok u4).
  { unfold u4. split; cbn [set_wait set_buf u_exp u_hdr u_first u_buf u_len u_idx u_plen u_part]; auto; try lia.
    - rewrite !app_length, firstn_length, skipn_length. unfold UBUF. lia.
    - apply Forall_app. split; [apply bytes_firstn; auto|]. apply Forall_app. split; auto. apply bytes_skipn; auto. }
  destruct (ul_flush_safe f v y1 g1 u4 B4) as [F|(y5 & g5 & u5 & b5 & E5 & B5 & E51 & H5 & F5 & _)]; [rewrite F; auto|].
  rewrite E5. cbn [bind]. right. eexists. eexists. eexists. eexists. split; [reflexivity|]. split; auto. split; auto.
  - rewrite E51. unfold u4. cbn. auto.
  - rewrite F5. unfold u4. cbn. discriminate.
  - rewrite H5. unfold u4. cbn. congruence.
Qed.

Lemma stop_flush_safe : forall n f v y g u, ul_inv u ->
  stop_flush n f v y g u = Fuel \/ exists y' g' u', stop_flush n f v y g u = Ok (y', g', u') /\ ul_inv u'.
Proof.
  induction n; intros f v y g u I; cbn [stop_flush]; destruct (Z.eqb_spec (u_plen u) 0) as [Z0|Z0]; eauto 10.
  destruct I as [B X FI HI].
  destruct (ul_flush_safe f v y g u B) as [F|(y1 & g1 & u1 & b1 & E & B1 & E1 & H1 & F1 & BU & IL & LL & P1)]; [rewrite F; auto|].
  rewrite E. cbn [bind].
  assert (I1 : ul_inv u1).
  { split; auto. - rewrite E1; auto. - rewrite F1. intros FF. specialize (FI FF). destruct B1. lia. - rewrite H1. intros HH. specialize (HI HH). lia. }
  destruct b1; [apply IHn; auto|]. right. eauto 10.
Qed.

Lemma ul_stop_safe : forall f v y g u, ul_inv u -> sys_ok y -> linv y g ->
  ul_stop f v y g u = Fuel \/ exists y' g' u' cs, ul_stop f v y g u = Ok (y', g', u', cs) /\ ul_inv u' /\ sys_ok y' /\ linv y' g'.
Proof.
  intros f v y g u I S L. unfold ul_stop. destruct (negb (l_open g)). { right. eauto 10. }
  destruct (send_command y g CMD_LOGGING_STOP) as [[y1 g1] c] eqn:SC. pose proof (calm_send_ctl _ _ _ _ _ _ _ _ SC) as CA.
  assert (I0 : ul_inv (set_buf u (u_buf u) 0 (u_idx u))).
  { destruct I as [[K1 KB K2 K3 K4 K5 K6] X FI HI]. split; cbn [set_buf u_exp u_hdr u_first u_buf u_len u_idx u_plen u_part]; auto.
    - split; cbn [set_buf u_exp u_hdr u_first u_buf u_len u_idx u_plen u_part]; auto; lia.
    - intros F. specialize (FI F). lia.
    - intros HH. specialize (HI HH). lia. }
  destruct (stop_flush_safe f f v y1 g1 _ I0) as [F|(y2 & g2 & u2 & E & I2)]; [rewrite F; auto|]. rewrite E. cbn [bind].
  pose proof (calm_stop_flush _ _ _ _ _ _ _ _ _ E) as CB.
  assert (C2 : calm y g y2 g2) by (eapply calm_trans; eauto).
  pose proof (calm_linv _ _ _ _ C2 L) as L2. pose proof (calm_sys _ _ _ _ C2 S) as S2.
  destruct (log_stop_spec v y2 g2 S2 L2) as (y3 & g3 & E3 & S3 & L3 & _). rewrite E3. cbn [bind]. right. eauto 10.
Qed.

Lemma ul_reset_inv : forall u, ul_inv u -> ul_inv (ul_reset u).
Proof.
  intros u [[K1 KB K2 K3 K4 K5 K6] X FI HI]. split; cbn [ul_reset u_exp u_hdr u_first u_plen u_len]; try lia; try discriminate; auto.
  split; cbn [ul_reset u_buf u_part u_len u_idx u_plen]; auto; lia.
Qed.

Lemma ul_restart_safe : forall f v y g u, ul_inv u -> sys_ok y -> linv y g ->
  ul_restart f v y g u = Fuel \/ exists y' g' u' cs, ul_restart f v y g u = Ok (y', g', u', cs) /\ ul_inv u'.
Proof.
  intros f v y g u I S L. unfold ul_restart.
  destruct (ul_stop_safe f v y g u I S L) as [F|(y1 & g1 & u1 & c1 & E & I1 & S1 & L1)]; [rewrite F; auto|]. rewrite E. cbn [bind].
  unfold ul_start. destruct (log_start_spec v y1 g1 S1 L1) as (y2 & g2 & ok & E2 & _). rewrite E2. cbn [bind].
  right. eexists. eexists. eexists. eexists. split; [reflexivity|]. destruct ok; auto. apply ul_reset_inv; auto.
Qed.

Lemma seq_inv : forall u s u' d, logging_seq u s = Some (u', d) -> ul_inv u -> ul_inv u' /\ u_hdr u' = u_hdr u /\ u_plen u' = u_plen u.
Proof.
  intros u s u' d H [B X FI HI]. unfold logging_seq in H.
  assert (G : forall e, ul_inv (set_exp u (u16 e))).
  { intros e. split; cbn [set_exp u_exp u_hdr u_first u_len u_idx u_plen]; auto; [|apply u16_range].
    destruct B; split; cbn [set_exp u_buf u_part u_len u_idx u_plen]; auto. }
  destruct (u_exp u =? s). { inversion H; subst. auto. } cbv zeta in H.
  match type of H with (if ?c then _ else _) = _ => destruct c end; inversion H; subst; auto.
Qed.

Lemma ul_process_safe : forall f v y g u mm b, ul_inv u -> roomy mm b -> sys_ok y -> linv y g ->
  ul_process f v y g u mm b = Fuel \/ exists y' g' u' mm' cs, ul_process f v y g u mm b = Ok (y', g', u', mm', cs) /\ ul_inv u' /\ length mm' = length mm.
Proof.
  intros f v y g u mm b I [BM RM] S L. unfold ul_process. rewrite !rd_Ok by lia. cbn [bind].
  destruct (logging_seq u _) as [[u1 d]|] eqn:SQ. 2:{ right. eauto 10. }
  destruct (seq_inv _ _ _ _ SQ I) as (I1 & H1 & P1). destruct (u_hdr u1) eqn:HD.
  2:{ destruct (ul_data_safe f v y g u1 mm b d I1 HD (roomy_readable _ _ (conj BM RM))) as [F|(y2 & g2 & u2 & mm2 & E & I2 & LM)]; [rewrite F; auto|].
      rewrite E. cbn [bind]. right. eauto 10. }
  set (len := nth (b + 4) mm 0). assert (LB : is_byte len) by (apply nth_byte; auto). unfold is_byte in LB.
  assert (RS : (let* (y, g, u, cs) := ul_restart f v y g u1 in Ok (y, g, u, mm, cs)) = Fuel \/
     exists y' g' u' mm' cs, (let* (y, g, u, cs) := ul_restart f v y g u1 in Ok (y, g, u, mm, cs)) = Ok (y', g', u', mm', cs) /\ ul_inv u' /\ length mm' = length mm).
  { destruct (ul_restart_safe f v y g u1 I1 S L) as [F|(y2 & g2 & u2 & c2 & E & I2)]; [rewrite F; auto|]. rewrite E. cbn [bind]. right. eauto 10. }
  destruct (Z.ltb_spec len 16); [exact RS|]. rewrite !slice_Ok by lia. cbn [bind].
  destruct (negb (beqs _ _)); [exact RS|]. clear RS.
  destruct I1 as [[K1 KB K2 K3 K4 K5 K6] X FI HI]. unfold UPART in K2.
  set (hd := firstn 16 _). assert (LH : length hd = 16%nat) by (unfold hd; rewrite firstn_length, skipn_length; lia).
  rewrite blit_Ok by lia. cbn [bind]. rewrite memmove_Ok by lia. cbn [bind]. set (mm2 := firstn (b + 6) mm ++ _).
  assert (LM2 : length mm2 = length mm). { unfold mm2. rewrite !app_length, !firstn_length, !skipn_length. lia. }
  assert (B2 : bytes mm2).
  { unfold mm2. apply Forall_app. split; [apply bytes_firstn; auto|]. apply Forall_app. split; [apply bytes_firstn, bytes_skipn; auto|apply bytes_skipn; auto]. }
  clearbody mm2. rewrite blit_Ok by (cbn [length]; lia). cbn [bind]. set (mm3 := firstn (b + 4) mm2 ++ _).
  assert (LM3 : length mm3 = length mm). { unfold mm3. rewrite !app_length, !firstn_length, !skipn_length. cbn [length]. lia. }
  assert (B3 : bytes mm3).
  { unfold mm3. apply Forall_app. split; [apply bytes_firstn; auto|]. apply Forall_app. split; [|apply bytes_skipn; auto].
    constructor; [unfold is_byte; lia|constructor]. }
  clearbody mm3. match goal with |- context [ul_data f v y g ?w mm3 b d] => set (u2 := w) end.
  assert (I2 : ul_inv u2).
  { unfold u2. split; cbn [set_wait set_part u_exp u_hdr u_first u_buf u_len u_idx u_plen u_part]; auto; try discriminate.
    split; cbn [set_wait set_part u_exp u_hdr u_first u_buf u_len u_idx u_plen u_part]; auto; try lia.
    cbn [firstn app]. rewrite app_length, skipn_length. unfold UPART. lia. }
  destruct (ul_data_safe f v y g u2 mm3 b d I2 eq_refl) as [F|(y2 & g2 & u3 & mm4 & E & I3 & LM)]; [apply roomy_readable; split; auto; lia|rewrite F; auto|].
  rewrite E. cbn [bind]. right. eexists. eexists. eexists. eexists. eexists. split; [reflexivity|]. split; auto. congruence.
Qed.

(* ---- the logger in use ---------------------------------------------------------------------------- *)

Definition backend_inv (b : backend) : Prop := match b with BULog u => ul_inv u | _ => True end.

(* an invariant of the whole backend: every Ok step keeps it; needed because processing a message may also
   happen on a 255 byte copy, where the safety lemma above does not apply *)
Lemma ul_data_keeps : forall f v y g u mm b d y' g' u' mm', ul_data f v y g u mm b d = Ok (y', g', u', mm') ->
  ul_inv u -> u_hdr u = false -> bytes mm -> ul_inv u'.
Proof.
  intros f v y g u mm b d y' g' u' mm' H I HD BM.
  (* pad the memory *)
  assert (P : forall j, exists mm2, ul_data f v y g u (mm ++ j) b d = Ok (y', g', u', mm2)).
  { intros j.
    assert (RD : forall i x, rd mm i = Ok x -> rd (mm ++ j) i = Ok x).
    { intros i x R. apply rd_inv in R. destruct R as [R1 R2]. rewrite rd_Ok by (rewrite app_length; lia). rewrite app_nth1 by auto. congruence. }
    assert (BL : forall l o bs x, blit l o bs = Ok x -> blit (l ++ j) o bs = Ok (x ++ j)).
    { intros l o bs x B. unfold blit in *. destruct (Nat.leb_spec (o + length bs) (length l)); try discriminate. inversion B; subst.
      destruct (Nat.leb_spec (o + length bs) (length (l ++ j))) as [Q|Q]; [|rewrite app_length in Q; lia].
      f_equal. rewrite firstn_app, skipn_app. replace (o - length l)%nat with 0%nat by lia. replace (o + length bs - length l)%nat with 0%nat by lia.
      cbn [firstn skipn]. rewrite app_nil_r, <- !app_assoc. reflexivity. }
    assert (SL : forall l o n x, slice l o n = Ok x -> slice (l ++ j) o n = Ok x).
    { intros l o n x B. unfold slice in *. destruct (Nat.leb_spec (o + n) (length l)); try discriminate. inversion B; subst.
      destruct (Nat.leb_spec (o + n) (length (l ++ j))) as [Q|Q]; [|rewrite app_length in Q; lia].
      rewrite skipn_app, firstn_app, skipn_length. replace (n - (length l - o))%nat with 0%nat by lia. cbn [firstn]. rewrite app_nil_r. reflexivity. }
    unfold ul_data in *. destruct (if d then _ else _) as [[[y1 g1] u1]| |]; cbn [bind] in *; try discriminate.
    destruct (rd mm (b + 4)) as [len| |] eqn:R4; cbn [bind] in *; try discriminate. rewrite (RD _ _ R4). cbn [bind].
    destruct (if Z.of_nat UBUF <? _ then let* _ := memmove _ _ _ _ in _ else _) as [u3| |]; cbn [bind] in *; try discriminate.
    destruct (rd mm (b + 5)) as [fmo| |] eqn:R5; cbn [bind] in *; try discriminate. rewrite (RD _ _ R5). cbn [bind].
    destruct (u_first u3 && (fmo =? 255)). { inversion H; subst. eauto. }
    destruct (len =? 0). { inversion H; subst. eauto. }
    destruct (blit mm (b + 4) _) as [mm1| |] eqn:B1; cbn [bind] in *; try discriminate. rewrite (BL _ _ _ _ B1). cbn [bind].
    destruct (slice mm1 _ _) as [bs| |] eqn:S1; cbn [bind] in *; try discriminate. rewrite (SL _ _ _ _ S1). cbn [bind].
    destruct (blit (u_buf _) _ bs) as [nb| |]; cbn [bind] in *; try discriminate.
    destruct (ul_flush _ _ _ _ _) as [[[[y4 g4] u4] b4]| |]; cbn [bind] in *; try discriminate. inversion H; subst. eauto. }
  destruct (P (repeat 0 (b + 520))) as (mm2 & E).
  destruct (ul_data_safe f v y g u (mm ++ repeat 0 (b + 520)) b d I HD) as [F|(y2 & g2 & u2 & mm3 & E2 & I2 & _)]; try congruence.
  apply roomy_readable. split; [apply Forall_app; split; auto|rewrite app_length, repeat_length; lia].
  clear. generalize (b + 520)%nat. induction n; cbn; constructor; auto. unfold is_byte; lia.
Qed.

Lemma slice_bytes : forall mm o n x, slice mm o n = Ok x -> bytes mm -> bytes x /\ length x = n.
Proof.
  intros mm o n x H B. unfold slice in H. destruct (Nat.leb_spec (o + n) (length mm)); inversion H; subst. split.
  - apply bytes_firstn, bytes_skipn; auto.
  - rewrite firstn_length, skipn_length. lia.
Qed.
Lemma blit_bytes : forall mm o bs x, blit mm o bs = Ok x -> bytes mm -> bytes bs -> bytes x.
Proof.
  intros mm o bs x H B C. unfold blit in H. destruct (_ <=? _)%nat; inversion H; subst.
  apply Forall_app. split; [apply bytes_firstn; auto|]. apply Forall_app. split; auto. apply bytes_skipn; auto.
Qed.

Lemma ul_restart_keeps : forall f v y g u y' g' u' cs, ul_restart f v y g u = Ok (y', g', u', cs) -> ul_inv u -> ul_inv u'.
Proof.
  intros f v y g u y' g' u' cs H I. unfold ul_restart in H. inv_bind H. inv_bind H. inversion H; subst.
  assert (I1 : ul_inv u0).
  { unfold ul_stop in E. destruct (negb (l_open g)). { inversion E; subst; auto. }
    destruct (send_command y g CMD_LOGGING_STOP) as [[y1 g1] c] eqn:SC. inv_bind E. inv_bind E. inversion E; subst.
    assert (I0 : ul_inv (set_buf u (u_buf u) 0 (u_idx u))).
    { destruct I as [[K1 KB K2 K3 K4 K5 K6] X FI HI]. split; cbn [set_buf u_exp u_hdr u_first u_buf u_len u_idx u_plen u_part]; auto.
      - split; cbn [set_buf u_exp u_hdr u_first u_buf u_len u_idx u_plen u_part]; auto; lia.
      - intros F. specialize (FI F). lia.
    - intros HH. specialize (HI HH). lia. }
    destruct (stop_flush_safe f f v y1 g1 _ I0) as [F|(y2 & g2 & u2 & E' & I2)]; congruence. }
  unfold ul_start in E0. inv_bind E0. inversion E0; subst. destruct b; auto. apply ul_reset_inv; auto.
Qed.

Lemma ul_process_keeps : forall f v y g u mm b y' g' u' mm' cs, ul_process f v y g u mm b = Ok (y', g', u', mm', cs) ->
  ul_inv u -> bytes mm -> ul_inv u'.
Proof.
  intros f v y g u mm b y' g' u' mm' cs H I BM. unfold ul_process in H. inv_bind H. inv_bind H.
  destruct (logging_seq u _) as [[u1 d]|] eqn:SQ. 2:{ inversion H; subst; auto. }
  destruct (seq_inv _ _ _ _ SQ I) as (I1 & H1 & P1). destruct (u_hdr u1) eqn:HD.
  2:{ inv_bind H. inversion H; subst. eapply ul_data_keeps; eauto. }
  inv_bind H. match type of H with (if ?x <? 16 then _ else _) = _ => set (len := x) in *; destruct (Z.ltb_spec len 16) end. { inv_bind H. inversion H; subst. eapply ul_restart_keeps; eauto. }
  inv_bind H. destruct (negb (beqs _ _)). { inv_bind H. inversion H; subst. eapply ul_restart_keeps; eauto. }
  inv_bind H. inv_bind H. inv_bind H. inv_bind H. inv_bind H. inversion H; subst.
  destruct (slice_bytes _ _ _ _ E3 BM) as [BH LH].
  eapply ul_data_keeps; [exact E7| |reflexivity|].
  - destruct I1 as [[K1 KB K2 K3 K4 K5 K6] X FI HI].
    split; cbn [set_wait set_part u_exp u_hdr u_first u_buf u_len u_idx u_plen u_part]; auto; try discriminate.
    split; cbn [set_wait set_part u_exp u_hdr u_first u_buf u_len u_idx u_plen u_part]; auto; try lia.
    pose proof (blit_length _ _ _ _ E4). congruence.
  - unfold memmove in E5. inv_bind E5. destruct (slice_bytes _ _ _ _ E8 BM) as [BS _].
    pose proof (blit_bytes _ _ _ _ E5 BM BS) as B2. eapply blit_bytes; eauto.
    apply rd_inv in E1. destruct E1 as [_ ->]. pose proof (nth_byte mm (b + 4) BM) as NB. unfold is_byte in NB. constructor; [unfold is_byte; lia|constructor].
Qed.

Lemma ul_write_keeps : forall f v y g u mem m y' g' u' mem' cs, ul_write f v y g u mem m = Ok (y', g', u', mem', cs) ->
  ul_inv u -> bytes mem -> ul_inv u'.
Proof.
  intros f v y g u mem m y' g' u' mem' cs H I BM. unfold ul_write in H.
  destruct (negb _). { inversion H; subst; auto. } destruct (v_tbl v (m_id m)) as [e|]. 2:{ inversion H; subst; auto. }
  inv_bind H. destruct (m_id m =? 77).
  - inv_bind H. destruct (ask_bytes _ _ _) as [junk y1]. inv_bind H. inv_bind H. inv_bind H.
    destruct (l_tstart g). 2:{ inversion H; subst; auto. }
    destruct (_ =? _). 2:{ inversion H; subst; auto. } destruct (_ =? 0). 2:{ inversion H; subst; auto. }
    inv_bind H. destruct (start_alive _ _ _) as [y3 g3]. inversion H; subst; auto.
  - inv_bind H. destruct (_ =? 0).
    + inv_bind H. inversion H; subst. eapply ul_process_keeps; eauto.
    + inv_bind H. inv_bind H. inversion H; subst. eapply ul_process_keeps; eauto.
      unfold local_copy in E1. inv_bind E1. destruct (slice_bytes _ _ _ _ E3 BM) as [BS _].
      destruct (_ <=? _)%nat; inversion E1; subst. apply Forall_app. split; auto.
      match goal with |- context [repeat 0 ?k] => generalize k end. clear. induction n; cbn; constructor; auto. unfold is_byte; lia.
Qed.

Lemma lstart_keeps : forall v y g b y' g' b' ok, lstart v y g b = Ok (y', g', b', ok) -> backend_inv b -> backend_inv b'.
Proof.
  intros v y g b y' g' b' ok H I. destruct b; cbn [lstart] in H; inv_bind H; inversion H; subst; cbn; auto.
  unfold ul_start in E. inv_bind E. inversion E; subst. destruct ok; auto. apply ul_reset_inv; auto.
Qed.

Lemma lstop_keeps : forall f v y g b y' g' b' cs, lstop f v y g b = Ok (y', g', b', cs) -> backend_inv b -> backend_inv b'.
Proof.
  intros f v y g b y' g' b' cs H I. destruct b; cbn [lstop] in H.
  - inv_bind H; inversion H; subst; cbn; auto.
  - inv_bind H; inversion H; subst; cbn. unfold ul_stop in E. destruct (negb (l_open g)). { inversion E; subst; auto. }
    destruct (send_command y g CMD_LOGGING_STOP) as [[y1 g1] c1] eqn:SC. inv_bind E. inv_bind E. inversion E; subst.
    assert (I0 : ul_inv (set_buf u (u_buf u) 0 (u_idx u))).
    { destruct I as [[K1 KB K2 K3 K4 K5 K6] X FI HI]. split; cbn [set_buf u_exp u_hdr u_first u_buf u_len u_idx u_plen u_part]; auto.
      - split; cbn [set_buf u_exp u_hdr u_first u_buf u_len u_idx u_plen u_part]; auto; lia.
      - intros F. specialize (FI F). lia.
    - intros HH. specialize (HI HH). lia. }
    destruct (stop_flush_safe f f v y1 g1 _ I0) as [F|(y2 & g2 & u2 & E' & I2)]; congruence.
  - destruct (negb (l_open g)); [|inv_bind H]; inversion H; subst; cbn; auto.
Qed.

Lemma auto_keeps : forall f v y g b mem m y' g' b' cs, auto_start_stop f v y g b mem m = Ok (y', g', b', cs) -> backend_inv b -> backend_inv b'.
Proof.
  intros f v y g b mem m y' g' b' cs H I. unfold auto_start_stop in H. destruct (_ =? _). { inversion H; subst; auto. }
  destruct (l_mode g).
  - destruct (l_open g). { inversion H; subst; auto. } inv_bind H. inversion H; subst. eapply lstart_keeps; eauto.
  - destruct (_ && _). 2:{ inversion H; subst; auto. } inv_bind H. destruct (negb _ && _).
    + inv_bind H. inversion H; subst. eapply lstart_keeps; eauto.
    + destruct (_ && _). { eapply lstop_keeps; eauto. } inversion H; subst; auto.
  - inversion H; subst; auto.
Qed.

Definition lev_bytes (e : lev) : Prop := match e with LMsg p tail => wf_packet p /\ bytes tail | _ => True end.


Lemma encode_bytes : forall p, wf_packet p -> bytes (encode p).
Proof.
  intros p (H1&H2&H3&H4&H5&H6&H7&H8). unfold encode, body, plen.
  assert (L : is_byte (Z.of_nat (length (p_payload p)))) by (unfold is_byte; lia).
  destruct (p_ver p) as [|fl cf sg].
  - cbn [app]. repeat (constructor; [assumption || (unfold is_byte; lia)|]). apply Forall_app. split; auto.
  - destruct H8 as (I & F & C & S & _).
    assert (B : is_byte (p_id p mod 256) /\ is_byte ((p_id p / 256) mod 256) /\ is_byte (p_id p / 65536)) by (unfold is_byte; Z.div_mod_to_equations; lia).
    destruct B as (B1 & B2 & B3). cbn [app]. repeat (constructor; [assumption || (unfold is_byte; lia)|]).
    apply Forall_app. split; auto.
Qed.

Lemma levent_keeps : forall f v y g b e y' g' b' cs, levent f v y g b e = Ok (y', g', b', cs) -> lev_bytes e -> backend_inv b -> backend_inv b'.
Proof.
  intros f v y g b e y' g' b' cs H LB I. destruct e as [p tail| |]; cbn [levent] in H.
  - inv_bind H. inversion H; subst. unfold lwrite in E. inv_bind E. pose proof (auto_keeps _ _ _ _ _ _ _ _ _ _ _ E0 I) as I0.
    destruct b0.
    + inv_bind E. inversion E; subst. cbn; auto.
    + inv_bind E. inversion E; subst. cbn in *. eapply ul_write_keeps; eauto. destruct LB. apply Forall_app. split; auto. apply encode_bytes; auto.
    + inv_bind E. inversion E; subst. cbn; auto.
  - destruct (l_tstart g); [destruct (lcb_start y g b) as [[? ?] ?]|]; inversion H; subst; auto.
  - destruct (l_talive g). 2:{ inversion H; subst; auto. } unfold lcb_alive in H. inv_bind H. inversion H; subst.
    destruct (l_mark g =? l_wtotal g). 2:{ inversion E; subst; auto. } inv_bind E. inv_bind E. inversion E; subst.
    eapply lstart_keeps; eauto. eapply lstop_keeps; eauto.
Qed.

Lemma lrun_keeps : forall f v evs y g b y' g' b' cs, lrun f v y g b evs = Ok (y', g', b', cs) -> Forall lev_bytes evs -> backend_inv b -> backend_inv b'.
Proof.
  induction evs as [|e evs IH]; intros y g b y' g' b' cs H F I; cbn [lrun] in H.
  - inversion H; subst; auto.
  - inversion F; subst. inv_bind H. inv_bind H. inversion H; subst. eapply IH; eauto. eapply levent_keeps; eauto.
Qed.

Lemma ul_new_inv : forall junk, length junk = (UBUF + UPART)%nat -> bytes junk -> ul_inv (ul_new junk).
Proof.
  intros junk L B. unfold ul_new. split; cbn [u_exp u_first u_len u_idx u_hdr u_plen]; try lia; try discriminate.
  unfold UBUF, UPART in *. split; cbn [u_buf u_part u_len u_idx u_plen]; try lia.
  - rewrite firstn_length. unfold UBUF. lia.
  - apply bytes_firstn; auto.
  - rewrite skipn_length. unfold UPART. lia.
Qed.
