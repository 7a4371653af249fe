(* ULog: bounds of what is read, termination, sequence numbers. *)
From Verif Require Import Base Mav SpecFrame Frame FrameProofs Names NamesProofs Sys LogFile LogFileProofs ULog Loggers LogInv LogStep
  SpecLog SpecULog LogRun LogModes LogModes2 BinProofs ULogProofs ULogStream ULogRun.

(* ---- what is read -------------------------------------------------------------------------------------- *)

(* memory with consistent length fields *)
Definition sane (mm : list Z) (b : nat) : Prop :=
  let len := nth (b + 4) mm 0 in let fmo := nth (b + 5) mm 0 in
  bytes mm /\ (b + 255 <= length mm)%nat /\ len <= 249 /\ (fmo = 255 \/ fmo <= len).

Lemma sane_readable : forall mm b, sane mm b -> readable mm b.
Proof.
  intros mm b (B & L & LE & O). unfold readable. pose proof (nth_byte mm (b + 4) B) as L4. pose proof (nth_byte mm (b + 5) B) as L5. unfold is_byte in *.
  split; auto. split; [lia|]. rewrite (u8_small (nth (b + 4) mm 0)) by lia. split; [lia|]. intros N. rewrite u8_small by lia. lia.
Qed.

Lemma holds_sane : forall mm b p, holds mm b p -> ul_consistent p -> sane mm b.
Proof.
  intros mm b p HO (S & O). pose proof (holds_nth mm b p 4 HO ltac:(lia)) as N4. pose proof (holds_nth mm b p 5 HO ltac:(lia)) as N5.
  fold (ul_size p) in N4. fold (ul_offset p) in N5. destruct HO as (B & L & _). unfold sane. rewrite N4, N5. auto.
Qed.

(* a packet a header may come in: see C57 *)
Definition ul_header_ok (p : packet) : Prop := ul_size p <= 233 /\ (ul_offset p = 255 \/ ul_offset p <= ul_size p - 16).

Lemma header_memory : forall mm b, bytes mm -> (b + 255 <= length mm)%nat ->
  let len := nth (b + 4) mm 0 in let fmo := nth (b + 5) mm 0 in 16 <= len -> len <= 233 -> (fmo = 255 \/ fmo <= len - 16) ->
  exists mm1 mm2, memmove mm (b + 6) (b + 22) (Z.to_nat len) = Ok mm1 /\ blit mm1 (b + 4) [len - 16] = Ok mm2 /\ sane mm2 b /\ nth (b + 4) mm2 0 = len - 16 /\
    firstn (Z.to_nat (len - 16)) (skipn (b + 6) mm2) = skipn 16 (firstn (Z.to_nat len) (skipn (b + 6) mm)).
Proof.
  intros mm b BM LM len fmo L16 L233 OF. rewrite memmove_Ok by lia. set (mm1 := firstn (b + 6) mm ++ _). set (mm2 := firstn (b + 4) mm1 ++ [len - 16] ++ skipn (b + 4 + 1) mm1). exists mm1, mm2. split; [reflexivity|].
  assert (L1 : length mm1 = length mm) by (unfold mm1; rewrite !app_length, !firstn_length, !skipn_length; lia).
  rewrite blit_Ok by (cbn [length]; lia). split; [reflexivity|].
  assert (L2 : length mm2 = length mm) by (unfold mm2; rewrite !app_length, firstn_length, skipn_length; cbn [length]; lia).
  assert (BM1 : bytes mm1).
  { unfold mm1. apply Forall_app. split; [apply bytes_firstn; auto|]. apply Forall_app. split; [apply bytes_firstn, bytes_skipn; auto|apply bytes_skipn; auto]. }
  assert (BM2 : bytes mm2).
  { unfold mm2. apply Forall_app. split; [apply bytes_firstn; auto|]. apply Forall_app. split; [|apply bytes_skipn; auto]. constructor; auto. unfold is_byte; lia. }
  assert (N4' : nth (b + 4) mm2 0 = len - 16).
  { unfold mm2. rewrite app_nth2 by (rewrite firstn_length; lia). rewrite firstn_length. replace (b + 4 - Nat.min (b + 4) (length mm1))%nat with 0%nat by lia. reflexivity. }
  assert (N5' : nth (b + 5) mm2 0 = fmo).
  { unfold mm2. rewrite app_assoc, app_nth2 by (rewrite app_length, firstn_length; cbn [length]; lia). rewrite app_length, firstn_length. cbn [length].
    replace (b + 5 - (Nat.min (b + 4) (length mm1) + 1))%nat with 0%nat by lia. rewrite nth_skipn0. unfold mm1. rewrite app_nth1 by (rewrite firstn_length; lia).
    rewrite nth_firstn_lt by lia. unfold fmo. f_equal. lia. }
  split; [|split; auto].
  - unfold sane. rewrite N4', N5'. split; auto. lia.
  - unfold mm2. rewrite app_assoc. rewrite skipn_app. rewrite skipn_all2 by (rewrite app_length, firstn_length; cbn [length]; lia).
    rewrite app_length, firstn_length. cbn [length app]. replace (b + 6 - (Nat.min (b + 4) (length mm1) + 1))%nat with 1%nat by lia.
    rewrite skipn_skipn_add. replace (b + 4 + 1 + 1)%nat with (b + 6)%nat by lia. unfold mm1.
    rewrite skipn_app_le by (rewrite firstn_length; lia). rewrite firstn_app, firstn_firstn, firstn_length, skipn_length.
    replace (Z.to_nat (len - 16) - Nat.min (Z.to_nat len) (length mm - (b + 22)))%nat with 0%nat by lia. cbn [firstn]. rewrite app_nil_r.
    replace (Nat.min (Z.to_nat (len - 16)) (Z.to_nat len)) with (Z.to_nat (len - 16)) by lia.
    rewrite skipn_firstn_comm, skipn_skipn_add. replace (b + 6 + 16)%nat with (b + 22)%nat by lia. f_equal. lia.
Qed.

Lemma ul_process_reads : forall f v y g u mm b, ul_inv u -> sys_ok y -> linv y g -> sane mm b ->
  (u_hdr u = true -> nth (b + 4) mm 0 <= 233 /\ (nth (b + 5) mm 0 = 255 \/ nth (b + 5) mm 0 <= nth (b + 4) mm 0 - 16 \/ nth (b + 4) mm 0 < 16)) ->
  ul_process f v y g u mm b <> UB.
Proof.
  intros f v y g u mm b I S L SN HH. pose proof SN as (BM & LM & LE & _). unfold ul_process. rewrite !rd_Ok by lia. cbn [bind].
  destruct (logging_seq u _) as [[u1 d]|] eqn:SQ; [|discriminate].
  destruct (seq_inv _ _ _ _ SQ I) as (I1 & H1 & P1). destruct (u_hdr u1) eqn:HD.
  2:{ destruct (ul_data_safe f v y g u1 mm b d I1 HD (sane_readable _ _ SN)) as [F|(y2 & g2 & u2 & mm2 & E & I2 & LM2)]; [rewrite F; discriminate|]. rewrite E. discriminate. }
  specialize (HH (eq_sym H1)). destruct HH as [HL HO]. set (len := nth (b + 4) mm 0) in *.
  assert (RS : (let* (y, g, u, cs) := ul_restart f v y g u1 in Ok (y, g, u, mm, cs)) <> UB).
  { destruct (ul_restart_safe f v y g u1 I1 S L) as [F|(y2 & g2 & u2 & c2 & E & I2)]; [rewrite F; discriminate|]. rewrite E. discriminate. }
  destruct (Z.ltb_spec len 16); auto. rewrite !slice_Ok by lia. cbn [bind]. destruct (negb (beqs _ _)); auto. clear RS.
  destruct (header_memory mm b BM LM) as (mm1 & mm2 & E1 & E2 & S2 & _); fold len; try lia.
  destruct I1 as [[K1 KB K2 K3 K4 K5 K6] X FI HI]. unfold UPART in K2.
  set (hd := firstn 16 _). assert (LH : length hd = 16%nat) by (unfold hd; rewrite firstn_length, skipn_length; lia).
  rewrite blit_Ok by lia. cbn [bind]. fold len in E1, E2. rewrite E1. cbn [bind]. rewrite E2. cbn [bind].
  match goal with |- context [ul_data f v y g ?w mm2 b d] => set (u2 := w) end.
  assert (I2 : ul_inv u2).
  { unfold u2. split; cbn [set_wait set_part u_exp u_hdr u_first u_buf u_len u_idx u_plen u_part]; auto; try discriminate.
    split; cbn [set_wait set_part u_exp u_hdr u_first u_buf u_len u_idx u_plen u_part]; auto; try lia.
    cbn [firstn app]. rewrite app_length, skipn_length. unfold UPART. lia. }
  destruct (ul_data_safe f v y g u2 mm2 b d I2 eq_refl (sane_readable _ _ S2)) as [F|(y3 & g3 & u3 & mm3 & E & _)]; [rewrite F; discriminate|]. rewrite E. discriminate.
Qed.

(* ---- termination ------------------------------------------------------------------------------------------- *)

(* no byte 255 directly behind a byte 253, that is, no message size 65533 *)
Definition no_size_65533 (l : list Z) : Prop := forall a b, l <> a ++ 253 :: 255 :: b.

Lemma no_suffix : forall a b, no_size_65533 (a ++ b) -> no_size_65533 b.
Proof. intros a b N x z ->. apply (N (a ++ x) z). rewrite <- app_assoc. reflexivity. Qed.
Lemma no_prefix : forall a b, no_size_65533 (a ++ b) -> no_size_65533 a.
Proof. intros a b N x z ->. apply (N x (z ++ b)). rewrite <- app_assoc. reflexivity. Qed.
Lemma no_skipn : forall n a, no_size_65533 a -> no_size_65533 (skipn n a).
Proof. intros n a N. apply (no_suffix (firstn n a)). rewrite firstn_skipn. auto. Qed.

Lemma flush_part_term : forall f v y g u, ubuf_ok u -> u_plen u < Z.of_nat f -> flush_part f v y g u <> Fuel.
Proof.
  induction f; intros v y g u B L. { destruct B. lia. }
  cbn [flush_part]. destruct (Z.eqb_spec (u_plen u) 0) as [Z0|Z0]; [discriminate|].
  destruct B as [B1 BB B2 B3 B4 B5 B6]. unfold UPART in *. rewrite slice_Ok by lia. cbn [bind skipn].
  set (bs := firstn (Z.to_nat (u_plen u)) (u_part u)).
  assert (LB : length bs = Z.to_nat (u_plen u)) by (unfold bs; rewrite firstn_length; lia).
  destruct (file_write v y g (l_off g) bs) as [[r y1] g1] eqn:FW. pose proof (file_write_bound _ _ _ _ _ _ _ _ FW) as RB.
  destruct ((r =? 0) || (r =? - EAGAIN)) eqn:C1; [discriminate|]. destruct (Z.ltb_spec r 0); [discriminate|].
  rewrite u16_small by lia. rewrite memmove_Ok by lia. cbn [bind firstn app]. apply IHf.
  - split; cbn [set_part u_buf u_part u_len u_idx u_plen]; auto; try lia. rewrite app_length, firstn_length, !skipn_length. unfold UPART. lia.
  - cbn [set_part u_plen]. lia.
Qed.

Lemma flush_msgs_term : forall f v y g u, ubuf_ok u -> no_size_65533 (window u) -> u_len u < Z.of_nat f -> flush_msgs f v y g u <> Fuel.
Proof.
  induction f; intros v y g u B N L. { destruct B. lia. }
  cbn [flush_msgs]. destruct (negb ((3 <=? u_len u) && (u_plen u =? 0))) eqn:C0; [discriminate|].
  apply negb_false_iff, andb_prop in C0. destruct C0 as [C1 C2]. apply Z.leb_le in C1. apply Z.eqb_eq in C2.
  pose proof (window_length u B) as WL. pose proof (nth_win u 0 B ltac:(lia)) as N0. pose proof (nth_win u 1 B ltac:(lia)) as N1. rewrite Nat.add_0_r in N0.
  pose proof B as B'. destruct B as [B1 BB B2 B3 B4 B5 B6]. unfold UBUF, UPART in *. rewrite !rd_Ok by lia. cbn [bind]. rewrite N0, N1.
  assert (BW : bytes (window u)) by (apply bytes_firstn, bytes_skipn; auto).
  destruct (window u) as [|a [|c w]] eqn:W; cbn [length] in WL; try lia. cbn [nth].
  assert (AB : is_byte a /\ is_byte c) by (inversion BW as [|? ? X1 X2]; subst; inversion X2; subst; auto). unfold is_byte in AB.
  set (full := u16 (a + 256 * c + 3)). assert (FP : 0 < full).
  { unfold full, u16. pose proof (Z.mod_pos_bound (a + 256 * c + 3) 65536 ltac:(lia)). destruct (Z.eq_dec ((a + 256 * c + 3) mod 65536) 0) as [E|E]; [|lia].
    exfalso. assert (a = 253 /\ c = 255) by (Z.div_mod_to_equations; lia). destruct H0; subst. apply (N [] w). reflexivity. }
  pose proof (u16_range (a + 256 * c + 3)) as FR. fold full in FR. clearbody full.
  destruct (Z.ltb_spec (u_len u) full); [discriminate|]. rewrite slice_Ok by lia. cbn [bind]. set (bs := firstn _ _).
  assert (LB : length bs = Z.to_nat full) by (unfold bs; rewrite firstn_length, skipn_length; lia).
  destruct (file_write v y g (l_off g) bs) as [[r y1] g1] eqn:FW. pose proof (file_write_bound _ _ _ _ _ _ _ _ FW) as RB.
  destruct (Z.eqb_spec r full) as [RF|RF].
  - rewrite !u16_small by lia. apply IHf.
    + split; cbn [set_buf u_buf u_part u_len u_idx u_plen]; auto; lia.
    + rewrite (window_split u full B' ltac:(lia)) in W. rewrite <- W in N. eapply no_suffix; eauto.
    + cbn [set_buf u_len]. lia.
  - destruct ((r =? 0) || (r =? - EAGAIN)); [discriminate|]. destruct (Z.ltb_spec r 0); [discriminate|].
    rewrite (u16_small (full - r)) by lia. change (Z.of_nat 1024) with 1024. destruct (Z.ltb_spec 1024 (full - r)); [discriminate|].
    rewrite slice_Ok by lia. cbn [bind]. rewrite blit_Ok by (rewrite firstn_length, skipn_length; lia). discriminate.
Qed.

Lemma ul_flush_term : forall f v y g u, ubuf_ok u -> no_size_65533 (window u) -> (2049 <= f)%nat -> ul_flush f v y g u <> Fuel.
Proof.
  intros f v y g u B N F. unfold ul_flush. assert (u_plen u < Z.of_nat f) by (destruct B; lia).
  pose proof (flush_part_term f v y g u B H) as T.
  destruct (flush_part_safe f v y g u B) as [X|(y1 & g1 & u1 & r & E & B1 & _ & _ & _ & BU & LU & IU & _)]; [congruence|].
  rewrite E. cbn [bind]. destruct r; [discriminate|]. apply flush_msgs_term; auto.
  - unfold window. rewrite BU, LU, IU. exact N.
  - destruct B1. lia.
Qed.

Lemma ul_data_overflow : forall f v y g u mm b, (b + 4 < length mm)%nat -> nth (b + 4) mm 0 <= 249 -> 2048 < u_len u + nth (b + 4) mm 0 ->
  ul_data f v y g u mm b false = ul_data f v y g (set_wait (set_buf u (u_buf u) 0 (u_idx u)) (u_hdr u) true) mm b false.
Proof.
  intros f v y g u mm b L L2 O. unfold ul_data. cbn [bind]. rewrite rd_Ok by lia. cbn [bind]. change (Z.of_nat UBUF) with 2048.
  rewrite (proj2 (Z.ltb_lt 2048 (u_len u + nth (b + 4) mm 0))) by lia. cbn [set_wait set_buf u_len].
  rewrite (proj2 (Z.ltb_ge 2048 (0 + nth (b + 4) mm 0))) by lia. reflexivity.
Qed.

Lemma ul_data_empty : forall f v y g u mm b, ul_inv u -> sane mm b -> nth (b + 4) mm 0 = 0 -> ul_data f v y g u mm b false <> Fuel.
Proof.
  intros f v y g u mm b I (BM & LM & _) N4. unfold ul_data. cbn [bind]. rewrite !rd_Ok by lia. cbn [bind]. rewrite N4. change (Z.of_nat UBUF) with 2048.
  destruct (ui_buf u I) as [K1 KB K2 K3 K4 K5 K6]. rewrite (proj2 (Z.ltb_ge 2048 (u_len u + 0))) by lia. rewrite (proj2 (Z.ltb_ge 2048 (u_idx u + u_len u + 0))) by lia.
  cbn [bind]. destruct (_ && _); discriminate.
Qed.

Lemma ul_data_term1 : forall f v y g u mm b, ul_inv u -> u_hdr u = false -> sane mm b ->
  no_size_65533 (window u ++ firstn (Z.to_nat (nth (b + 4) mm 0)) (skipn (b + 6) mm)) -> (2049 <= f)%nat -> u_len u + nth (b + 4) mm 0 <= 2048 ->
  ul_data f v y g u mm b false <> Fuel.
Proof.
  intros f v y g u mm b I HD SN N F R. pose proof SN as (BM & LM & LE & O).
  pose proof (nth_byte mm (b + 4) BM) as L4. pose proof (nth_byte mm (b + 5) BM) as L5. unfold is_byte in *.
  destruct (Z.eq_dec (nth (b + 4) mm 0) 0) as [Z0|Z0]. { apply ul_data_empty; auto. }
  destruct (u_first u && (nth (b + 5) mm 0 =? 255)) eqn:C.
  { apply andb_prop in C. destruct C as [FF F5]. apply Z.eqb_eq in F5. destruct (ui_first u I FF) as [L0 IX].
    unfold ul_data. cbn [bind]. rewrite !rd_Ok by lia. cbn [bind]. rewrite F5. change (Z.of_nat UBUF) with 2048. rewrite L0.
    rewrite (proj2 (Z.ltb_ge 2048 (0 + nth (b + 4) mm 0))) by lia. rewrite L0. rewrite (proj2 (Z.ltb_ge 2048 (u_idx u + 0 + nth (b + 4) mm 0))) by lia. cbn [bind].
    rewrite FF. discriminate. }
  destruct (ul_data_append f v y g u mm b I HD BM) as (u4 & mm4 & E & B4 & _ & _ & _ & _ & _ & W4); try lia; auto.
  rewrite E. destruct (ul_flush_safe f v y g u4 B4) as [X|(y1 & g1 & u1 & o & EE & _)]; [|rewrite EE; discriminate].
  exfalso. apply (ul_flush_term f v y g u4 B4); auto. rewrite W4. destruct (u_first u) eqn:FF.
  - destruct (ui_first u I FF) as [L0 _]. rewrite (window_nil u L0). cbn [app]. apply no_skipn. eapply no_suffix; eauto.
  - cbn [Z.to_nat skipn]. auto.
Qed.

Lemma ul_data_term : forall f v y g u mm b d, ul_inv u -> u_hdr u = false -> sane mm b ->
  no_size_65533 (window u ++ firstn (Z.to_nat (nth (b + 4) mm 0)) (skipn (b + 6) mm)) -> (2049 <= f)%nat ->
  ul_data f v y g u mm b d <> Fuel.
Proof.
  intros f v y g u mm b d I HD SN N F. pose proof SN as (BM & LM & LE & O).
  pose proof (nth_byte mm (b + 4) BM) as L4. unfold is_byte in L4.
  destruct d.
  - rewrite ul_data_drops. pose proof (ui_buf u I) as B. pose proof (ul_flush_term f v y g u B (no_prefix _ _ N) F) as T.
    destruct (ul_flush_safe f v y g u B) as [X|(y1 & g1 & u1 & o & EE & B1 & X1 & H1 & F1 & _)]; [congruence|]. rewrite EE. cbn [bind].
    apply ul_data_term1; auto.
    + destruct B1 as [Q1 QB Q2 Q3 Q4 Q5 Q6]. split; cbn [set_wait set_buf u_exp u_hdr u_first u_buf u_len u_idx u_plen u_part]; try congruence; try lia.
      * split; cbn [set_wait set_buf u_exp u_hdr u_first u_buf u_len u_idx u_plen u_part]; auto; lia.
      * rewrite X1. apply I.
    + cbn [set_wait u_hdr]. congruence.
    + rewrite window_nil by reflexivity. cbn [app]. eapply no_suffix; eauto.
    + cbn [set_wait set_buf u_len]. lia.
  - destruct (Z.le_gt_cases (u_len u + nth (b + 4) mm 0) 2048) as [R|R]. { apply ul_data_term1; auto. }
    rewrite ul_data_overflow by lia. apply ul_data_term1; auto.
    + destruct I as [[Q1 QB Q2 Q3 Q4 Q5 Q6] X FI HI]. split; cbn [set_wait set_buf u_exp u_hdr u_first u_buf u_len u_idx u_plen u_part]; try congruence; try lia.
      split; cbn [set_wait set_buf u_exp u_hdr u_first u_buf u_len u_idx u_plen u_part]; auto; lia.
    + rewrite window_nil by reflexivity. cbn [app]. eapply no_suffix; eauto.
    + cbn [set_wait set_buf u_len]. lia.
Qed.

Lemma ul_restart_term : forall f v y g u, ul_inv u -> u_hdr u = true -> sys_ok y -> linv y g -> ul_restart f v y g u <> Fuel.
Proof.
  intros f v y g u I HD S L. unfold ul_restart, ul_stop, ul_start. destruct (negb (l_open g)) eqn:O.
  - cbn [bind]. destruct (log_start_spec v y g S L) as (y2 & g2 & ok & E2 & _). rewrite E2. discriminate.
  - destruct (send_command y g CMD_LOGGING_STOP) as [[y1 g1] c] eqn:SC. pose proof (calm_send_ctl _ _ _ _ _ _ _ _ SC) as CA.
    destruct (ui_hdr u I HD) as [P0 _].
    assert (SF : stop_flush f f v y1 g1 (set_buf u (u_buf u) 0 (u_idx u)) = Ok (y1, g1, set_buf u (u_buf u) 0 (u_idx u))).
    { destruct f; cbn [stop_flush set_buf u_plen]; rewrite P0; reflexivity. }
    rewrite SF. cbn [bind]. pose proof (calm_linv _ _ _ _ CA L) as L2. pose proof (calm_sys _ _ _ _ CA S) as S2.
    destruct (log_stop_spec v y1 g1 S2 L2) as (y3 & g3 & E3 & S3 & L3 & _). rewrite E3. cbn [bind].
    destruct (log_start_spec v y3 g3 S3 L3) as (y4 & g4 & ok & E4 & _). rewrite E4. discriminate.
Qed.

Lemma ul_process_term : forall f v y g u mm b p, ul_inv u -> sys_ok y -> linv y g -> holds mm b p -> ul_consistent p ->
  (u_hdr u = true -> ul_header_ok p) -> no_size_65533 (window u ++ ul_bytes p) -> (2049 <= f)%nat -> ul_process f v y g u mm b <> Fuel.
Proof.
  intros f v y g u mm b p I S L HO CO HH N F. pose proof (holds_sane _ _ _ HO CO) as SN.
  pose proof (holds_nth mm b p 4 HO ltac:(lia)) as N4. pose proof (holds_nth mm b p 5 HO ltac:(lia)) as N5. fold (ul_size p) in N4. fold (ul_offset p) in N5.
  pose proof SN as (BM & LM & LE & _). unfold ul_process. rewrite !rd_Ok by lia. cbn [bind].
  destruct (logging_seq u _) as [[u1 d]|] eqn:SQ; [|discriminate].
  destruct (seq_inv _ _ _ _ SQ I) as (I1 & H1 & P1).
  assert (W1 : window u1 = window u).
  { unfold logging_seq in SQ. destruct (_ =? _). { inversion SQ; reflexivity. } cbv zeta in SQ. match type of SQ with (if ?c then _ else _) = _ => destruct c end; inversion SQ; reflexivity. }
  pose proof (nth_byte mm (b + 4) BM) as L4. unfold is_byte in L4. rewrite N4 in L4, LE.
  destruct (u_hdr u1) eqn:HD.
  2:{ destruct (ul_data_safe f v y g u1 mm b d I1 HD (sane_readable _ _ SN)) as [X|(y2 & g2 & u2 & mm2 & E & I2 & LM2)]; [|rewrite E; discriminate].
      exfalso. apply (ul_data_term f v y g u1 mm b d); auto. rewrite W1, N4. rewrite (holds_bytes _ _ _ HO) by lia. auto. }
  specialize (HH (eq_sym H1)). destruct HH as [HL HF].
  assert (RS : (let* (y, g, u, cs) := ul_restart f v y g u1 in Ok (y, g, u, mm, cs)) <> Fuel).
  { pose proof (ul_restart_term f v y g u1 I1 HD S L). destruct (ul_restart f v y g u1) as [[[[? ?] ?] ?]| |]; cbn [bind]; congruence. }
  rewrite N4. destruct (Z.ltb_spec (ul_size p) 16); auto. rewrite !slice_Ok by lia. cbn [bind]. destruct (negb (beqs _ _)); auto. clear RS.
  destruct (header_memory mm b BM LM) as (mm1 & mm2 & E1 & E2 & S2 & N42 & D2); rewrite ?N4, ?N5 in *; try lia; auto.
  rewrite (holds_bytes _ _ _ HO) in D2 by lia. destruct (ui_hdr _ I1 HD) as [_ L0].
  destruct I1 as [[K1 KB K2 K3 K4 K5 K6] X FI HI]. unfold UPART in K2.
  set (hd := firstn 16 _). assert (LH : length hd = 16%nat) by (unfold hd; rewrite firstn_length, skipn_length; lia).
  rewrite blit_Ok by lia. cbn [bind]. rewrite E1. cbn [bind]. rewrite E2. cbn [bind].
  match goal with |- context [ul_data f v y g ?w mm2 b d] => set (u2 := w) end.
  assert (I2 : ul_inv u2).
  { unfold u2. split; cbn [set_wait set_part u_exp u_hdr u_first u_buf u_len u_idx u_plen u_part]; auto; try discriminate.
    split; cbn [set_wait set_part u_exp u_hdr u_first u_buf u_len u_idx u_plen u_part]; auto; try lia.
    cbn [firstn app]. rewrite app_length, skipn_length. unfold UPART. lia. }
  destruct (ul_data_safe f v y g u2 mm2 b d I2 eq_refl (sane_readable _ _ S2)) as [Y|(y3 & g3 & u3 & mm3 & E & _)]; [|rewrite E; discriminate].
  exfalso. apply (ul_data_term f v y g u2 mm2 b d); auto. rewrite N42, D2. rewrite window_nil by exact L0. cbn [app].
  apply no_skipn. eapply no_suffix; eauto.
Qed.

(* ---- a message of size 65533 makes the loop spin -------------------------------------------------------------- *)

Lemma flush_msgs_spin : forall f v y g u, ubuf_ok u -> 3 <= u_len u -> u_plen u = 0 ->
  nth (Z.to_nat (u_idx u)) (u_buf u) 0 = 253 -> nth (Z.to_nat (u_idx u) + 1) (u_buf u) 0 = 255 ->
  l_open g = true -> (forall k, (y_pos y <= k)%nat -> 0 <= v_orc v k) -> flush_msgs f v y g u = Fuel.
Proof.
  induction f; intros v y g u B L P B0 B1 O R; cbn [flush_msgs]; rewrite P, (proj2 (Z.leb_le 3 (u_len u)) L); cbn [andb negb Z.eqb]; auto.
  pose proof B as B'. destruct B as [K1 KB K2 K3 K4 K5 K6]. unfold UBUF in K1. rewrite !rd_Ok by lia. cbn [bind]. rewrite B0, B1.
  change (u16 (253 + 256 * 255 + 3)) with 0. rewrite (proj2 (Z.ltb_ge (u_len u) 0)) by lia. cbn [Z.to_nat]. rewrite slice_Ok by lia. cbn [bind firstn].
  unfold file_write, ask. rewrite O. pose proof (R (y_pos y) ltac:(lia)) as R0. rewrite (proj2 (Z.ltb_ge _ _) R0). cbn [length]. rewrite Nat.min_0_r. cbn [Z.of_nat Z.eqb].
  apply IHf; cbn [set_buf set_file l_open u_len u_plen u_idx u_buf]; rewrite ?Z.sub_0_r, ?Z.add_0_r; rewrite ?u16_small by lia; auto.
  - split; cbn [set_buf u_len u_plen u_idx u_buf u_part]; auto; lia.
  - intros k KK. apply R. destruct (y_fs (set_pos y (Datatypes.S (y_pos y)))); cbn in KK; lia.
Qed.
