(* Properties C53-C58: ULog streams. *)
From Verif Require Import Base Mav SpecCrc SpecFrame Frame FrameProofs Names NamesProofs Sys LogFile LogFileProofs ULog Loggers LogInv LogStep
  SpecLog SpecULog LogRun LogModes LogModes2 BinProofs ULogProofs ULogStream ULogRun ULogMore CrcProofs ExFrame Prop_LogModes Prop_BinLog.

(* the dialect knows LOGGING_DATA and LOGGING_DATA_ACKED *)
Definition ulog_dialect (v : env) : Prop :=
  forall id, id = 266 \/ id = 267 -> exists ent, v_tbl v id = Some ent /\ e_max_len ent = 255.

(* a ULog logger that has just opened an empty file; the contents of its staging buffers do not matter *)
Definition ulog_started (y : sys) (g : lg) (u : ulst) : Prop :=
  l_open g = true /\ l_mode g = MAlways /\ l_off g = 0%nat /\ content y (l_name g) [] /\
  exists buf part, u = mkUl 0 true false buf 0 0 part 0 /\ length buf = 2048%nat /\ length part = 1024%nat /\ bytes buf.

(* states a ULog logger can get into: any events since it was created, whatever the system calls returned *)
Definition ulog_reached (v : env) (y : sys) (g : lg) (u : ulst) : Prop :=
  exists fuel y0 ep mf ml mode fcu junk evs cs, fresh_in y0 ep /\ length junk = 3072%nat /\ bytes junk /\ Forall lev_bytes evs /\
    lrun fuel v y0 (lg_new ep ext_ulg mf ml mode fcu) (BULog (ul_new junk)) evs = Ok (y, g, BULog u, cs).

Lemma reached_inv : forall v y g u, ulog_reached v y g u -> ul_inv u /\ sys_ok y /\ linv y g.
Proof.
  intros v y g u (fuel & y0 & ep & mf & ml & mode & fcu & junk & evs & cs & [S0 N0] & LJ & BJ & LB & R).
  split. { change (backend_inv (BULog u)). eapply lrun_keeps; eauto. apply ul_new_inv; auto. }
  destruct (lrun_inv _ _ _ _ _ _ _ _ _ _ R S0) as (S & L & _); auto. apply linv_new; auto.
Qed.

Lemma auto_open : forall f v y g b mem m, l_open g = true -> m_id m <> 0 -> auto_start_stop f v y g b mem m = Ok (y, g, b, []).
Proof.
  intros f v y g b mem m O N. unfold auto_start_stop. rewrite O, (proj2 (Z.eqb_neq _ _) N). cbn [andb]. destruct (l_target g =? -1), (l_mode g); reflexivity.
Qed.

(* a packet with log data given to a logger with an open file: the steps up to the processing of the data *)
Lemma ul_levent : forall f v y g u p tail, ulog_dialect v -> ulog_reached v y g u -> l_open g = true -> ul_packet p -> is_ulog p = true -> bytes tail ->
  exists mm b y0 g0, holds mm b p /\ ((mm = encode p ++ tail /\ b = hlen p /\ length (p_payload p) = 255%nat) \/ (length mm = 255%nat /\ b = 0%nat)) /\
    sys_ok y0 /\ linv y0 g0 /\ y_fs y0 = y_fs y /\ y_pos y0 = y_pos y /\ l_open g0 = true /\ l_name g0 = l_name g /\ l_off g0 = l_off g /\
    exists cs0, levent f v y g (BULog u) (LMsg p tail) =
      let* (y1, g1, u1, mm1, cs1) := ul_process f v y0 g0 u mm b in Ok (y1, count_write g1 (info_of (v_tbl v) p), BULog u1, cs0 ++ cs1).
Proof.
  intros f v y g u p tail T RE O UP IU BT. destruct (reached_inv _ _ _ _ RE) as (I & S & L).
  destruct (T (p_id p)) as (ent & TE & ML). { unfold is_ulog in IU. lia. }
  cbn [levent]. unfold lwrite. destruct (learn_same g (info_of (v_tbl v) p)) as (Q1 & Q2 & Q3 & Q4 & Q5). pose proof (learn_inv _ _ (info_of (v_tbl v) p) L) as L0. set (g0 := learn_target g (info_of (v_tbl v) p)) in *.
  rewrite auto_open; [|congruence|cbn [m_id info_of]; unfold is_ulog in IU; lia]. cbn [bind].
  destruct (ul_write_packet f v y g0 u p tail ent UP IU TE ML BT) as (mm & b & y1 & g1 & HO & WH & CALM & E1 & E2 & E3 & E4 & E5 & E6 & cs0 & kk & W).
  rewrite W. exists mm, b, y1, g1. split; auto. split; [tauto|]. split; [eapply calm_sys; eauto|]. split; [eapply calm_linv; eauto|].
  split; auto. split; auto. split; [congruence|]. split; [congruence|]. split; [congruence|]. exists cs0.
  destruct (ul_process f v y1 g1 u mm b) as [[[[[? ?] ?] ?] ?]| |]; reflexivity.
Qed.

(* from here on every write succeeds completely *)
Definition full_writes (v : env) (y : sys) : Prop := forall k, (y_pos y <= k)%nat -> 2048 <= v_orc v k.

(* a packet that opens a ULog stream: number 0, a 16 byte ULog header, then the beginning of the log.  If the data is
   longer than 233 bytes the packet must not have been shortened by its sender (see C57). *)
Definition opens_stream (p : packet) (tail hd x : list Z) : Prop :=
  is_ulog p = true /\ ul_seq p = 0 /\ 17 <= ul_size p /\ (ul_size p <= 233 \/ length (p_payload p) = 255%nat /\ (14 <= length tail)%nat) /\
  ul_bytes p = hd ++ x /\ length hd = 16%nat /\ firstn 7 hd = ulog_magic.

(* C58: packets are lost, repeated and mixed with other traffic.  The file is the header followed by all whole messages
   of every run of consecutive packets, where a run starts at the first message boundary announced after the loss;
   what is still buffered is the incomplete message at the end. *)
Theorem C58_runs : forall fuel v y g u p0 tail0 evs hd x,
  ulog_dialect v -> ulog_started y g u -> full_writes v y -> (700 <= fuel)%nat ->
  opens_stream p0 tail0 hd x -> Forall (ul_event_ok v) (LMsg p0 tail0 :: evs) ->
  unambiguous 1 (ulogs evs) ->
  (forall s, In s (runs 1 false x (ulogs evs)) -> exists ms r, ulog_stream s ms r) ->
  exists y' g' u' cs qs ms r, lrun fuel v y g (BULog u) (LMsg p0 tail0 :: evs) = Ok (y', g', BULog u', cs) /\
    kept (runs 1 false x (ulogs evs)) (qs ++ [(ms, r)]) /\
    content y' (l_name g) (hd ++ messages (qs ++ [(ms, r)])) /\ staged u' = r /\ l_name g' = l_name g /\ l_open g' = true.
Proof.
  intros fuel v y g u p0 tail0 evs hd x T (O & M & OF & C & buf & part & EU & LB & LP & BB) R F (IU & SQ & S17 & RM & EB & LH & MG) OK U FS.
  inversion OK as [|? ? OK0 OKs]; subst x0 l.
  assert (I : ul_inv u).
  { subst u. split; cbn [u_exp u_first u_hdr u_plen u_len u_idx]; try lia; try discriminate; auto. split; cbn [u_buf u_part u_plen u_len u_idx]; auto; lia. }
  assert (SZ : ul_size p0 <= 249). { destruct OK0 as [_ OK0]. rewrite IU in OK0. apply OK0. }
  destruct (ul_session fuel v y g u p0 tail0 evs hd x) as (y' & g' & u' & cs & qs & ms & r & E & K & A & S & KP); auto; try (subst u; reflexivity).
  - subst u. cbn [u_exp]. congruence.
  - split; auto.
  - rewrite SQ. exact U.
  - rewrite SQ. apply Forall_forall. exact FS.
  - exists y', g', u', cs, qs, ms, r. split; auto. rewrite SQ in KP. split; auto. destruct A as [AO AC _]. destruct K as [KN KM KPP]. rewrite KN in AC. auto.
Qed.

(* no packet missing, repeated or out of order *)
Fixpoint in_order (exp : Z) (ps : list packet) : Prop :=
  match ps with
  | [] => True
  | p :: r => ul_seq p = exp /\ in_order ((exp + 1) mod 65536) r
  end.

Lemma in_order_runs : forall ps exp cur, in_order exp ps -> runs exp false cur ps = [cur ++ concat (map ul_bytes ps)] /\ unambiguous exp ps.
Proof.
  induction ps as [|p ps IH]; intros exp cur H; cbn [in_order runs unambiguous map concat] in *. { rewrite app_nil_r. auto. }
  destruct H as [E H]. unfold ahead. rewrite E, Z.sub_diag. change (0 mod 65536) with 0. cbn [Z.eqb]. change (0 <? 32768) with true. cbv iota.
  unfold after. destruct (IH _ (cur ++ ul_bytes p) H) as [R U]. rewrite R, <- app_assoc. repeat (split; auto); lia.
Qed.

(* C53, proved part: without losses, with complete writes and messages of at most 1799 bytes, the file is the header
   and all whole messages received, and the rest of the received bytes is buffered ... *)
Theorem C53_stream_partial : forall fuel v y g u p0 tail0 evs hd x ms r,
  ulog_dialect v -> ulog_started y g u -> full_writes v y -> (700 <= fuel)%nat ->
  opens_stream p0 tail0 hd x -> Forall (ul_event_ok v) (LMsg p0 tail0 :: evs) ->
  in_order 1 (ulogs evs) ->
  ulog_stream (x ++ concat (map ul_bytes (ulogs evs))) ms r ->
  exists y' g' u' cs ms' r', lrun fuel v y g (BULog u) (LMsg p0 tail0 :: evs) = Ok (y', g', BULog u', cs) /\
    ulog_stream (x ++ concat (map ul_bytes (ulogs evs))) ms' r' /\
    content y' (l_name g) (hd ++ concat ms') /\ staged u' = r' /\
    (hd ++ concat ms') ++ staged u' = concat (map ul_bytes (p0 :: ulogs evs)).
Proof.
  intros fuel v y g u p0 tail0 evs hd x ms r T ST R F OS OK IO US. destruct (in_order_runs _ _ x IO) as [RR U].
  destruct (C58_runs fuel v y g u p0 tail0 evs hd x T ST R F OS OK U) as (y' & g' & u' & cs & qs & ms' & r' & E & KP & C & S & _).
  { rewrite RR. intros s [<-|[]]. eauto. }
  rewrite RR in KP. destruct qs as [|q qs]. 2:{ inversion KP as [|? ? ? ? _ KP2]; subst. inversion KP2. destruct qs; discriminate. }
  cbn [app] in *. inversion KP as [|? ? ? ? K1 _]; subst. cbn [fst snd] in K1. unfold messages in C. cbn [map concat fst] in C. rewrite app_nil_r in C.
  exists y', g', u', cs, ms', (staged u'). split; auto. split; auto. split; auto. split; auto.
  cbn [map concat]. destruct OS as (_ & _ & _ & _ & EB & _). rewrite EB. destruct K1 as (K1 & _). rewrite <- !app_assoc. rewrite K1. reflexivity.
Qed.

(* ... and whatever the writes return, as long as the remainder of a partial write fits its 1024 byte buffer, a packet
   that fits the staging buffer is neither lost nor duplicated: file and buffers together grow by exactly its data. *)
Theorem C53_conserved_partial : forall fuel v y g u p tail y' g' b' cs data,
  ulog_dialect v -> ulog_reached v y g u -> u_hdr u = false -> u_first u = false -> l_open g = true ->
  content y (l_name g) data -> l_off g = length data ->
  (forall k, (y_pos y <= k)%nat -> v_orc v k <= 0 \/ 1024 <= v_orc v k) ->
  is_ulog p = true -> ul_packet p -> bytes tail -> ul_size p <= 249 -> ul_seq p = u_exp u -> u_len u + ul_size p <= 2048 ->
  levent fuel v y g (BULog u) (LMsg p tail) = Ok (y', g', b', cs) ->
  exists u' data', b' = BULog u' /\ content y' (l_name g) data' /\ l_off g' = length data' /\ data' ++ staged u' = data ++ staged u ++ ul_bytes p.
Proof.
  intros fuel v y g u p tail y' g' b' cs data T RE HD FF O C OF R IU UP BT SZ SQ ROOM H. destruct (reached_inv _ _ _ _ RE) as (I & _).
  destruct (ul_levent fuel v y g u p tail T RE O UP IU BT) as (mm & b & y1 & g1 & HO & _ & _ & _ & E1 & E2 & E3 & E4 & E5 & cs0 & W).
  rewrite W in H. clear W. pose proof (holds_seq _ _ _ HO) as HS. pose proof HO as (BM & LM & _).
  pose proof (holds_nth mm b p 4 HO ltac:(lia)) as N4. pose proof (holds_nth mm b p 5 HO ltac:(lia)) as N5. fold (ul_size p) in N4. fold (ul_offset p) in N5.
  assert (SB : is_byte (ul_size p)) by (apply nth_byte, ul_fields_bytes; apply UP). unfold is_byte in SB.
  assert (A1 : at_end y1 g1 data). { split; [congruence| |congruence]. rewrite E4. eapply content_fs; eauto. }
  unfold ul_process in H. rewrite !rd_Ok in H by lia. cbn [bind] in H. rewrite HS in H. unfold logging_seq in H. rewrite SQ, Z.eqb_refl in H.
  set (ux := set_exp u (u16 (u_exp u + 1))) in *.
  assert (IX : ul_inv ux).
  { destruct I as [B XX FI HI]. unfold ux. split; cbn [set_exp u_exp u_hdr u_first u_len u_idx u_plen]; auto.
    - destruct B; split; cbn [set_exp u_buf u_part u_len u_idx u_plen]; auto.
    - apply u16_range. }
  assert (HDX : u_hdr ux = false) by exact HD. assert (FX : u_first ux = false) by exact FF. rewrite HDX in H.
  assert (SX : staged ux = staged u) by reflexivity.
  assert (LX : u_len ux = u_len u) by reflexivity. clearbody ux.
  destruct (Z.eq_dec (ul_size p) 0) as [Z0|Z0].
  - unfold ul_data in H. cbn [bind] in H. rewrite !rd_Ok in H by lia. cbn [bind] in H. rewrite N4, N5, Z0 in H. change (Z.of_nat UBUF) with 2048 in H.
    destruct (ui_buf _ IX) as [K1 KB K2 K3 K4 K5 K6]. rewrite (proj2 (Z.ltb_ge 2048 (u_len ux + 0))) in H by lia. rewrite (proj2 (Z.ltb_ge 2048 (u_idx ux + u_len ux + 0))) in H by lia.
    cbn [bind] in H. rewrite FX in H. cbn [andb Z.eqb bind] in H. inversion H; subst.
    eexists _, data. split; [reflexivity|]. destruct A1 as [AO AC AF]. cbn [count_write set_counts l_off]. rewrite <- E4. split; auto. split; auto.
    f_equal. unfold ul_bytes. rewrite Z0. cbn [Z.to_nat firstn]. rewrite app_nil_r. exact SX.
  - destruct (ul_data_append fuel v y1 g1 ux mm b IX HDX BM) as (u4 & mm4 & E & B4 & H4 & F4 & X4 & P4 & PA4 & W4); rewrite ?N4, ?N5, ?FX in *; try lia; auto; try discriminate.
    rewrite E in H. clear E. destruct (ul_flush fuel v y1 g1 u4) as [[[[y2 g2] u2] o2]| |] eqn:EF; cbn [bind] in H; try discriminate. inversion H; subst.
    assert (R1 : forall k, (y_pos y1 <= k)%nat -> v_orc v k <= 0 \/ 1024 <= v_orc v k) by (intros k KK; apply R; lia).
    destruct (ul_flush_conserve _ _ _ _ _ _ _ _ _ _ B4 A1 R1 EF) as (K & d' & A2 & CE).
    exists u2, d'. split; auto. destruct A2 as [AO AC AF]. destruct K. cbn [count_write set_counts l_off]. rewrite kp_name, E4 in AC.
    split; auto. split; auto. rewrite CE. f_equal. rewrite <- SX. unfold staged. rewrite P4, PA4, W4. rewrite (holds_bytes _ _ _ HO) by lia.
    cbn [Z.to_nat skipn]. rewrite app_assoc. reflexivity.
Qed.

(* ---- C54: sequence numbers ------------------------------------------------------------------------------------- *)

Lemma flush_part_exp : forall f v y g u y' g' u' r, flush_part f v y g u = Ok (y', g', u', r) -> u_exp u' = u_exp u.
Proof.
  induction f; intros v y g u y' g' u' r H; cbn [flush_part] in H; destruct (u_plen u =? 0); try discriminate; try (inversion H; subst; reflexivity).
  inv_bind H. destruct (file_write _ _ _ _ _) as [[w y1] g1]. destruct (_ || _). { inversion H; subst; auto. } destruct (w <? 0). { inversion H; subst; auto. }
  inv_bind H. apply IHf in H. exact H.
Qed.
Lemma flush_msgs_exp : forall f v y g u y' g' u' r, flush_msgs f v y g u = Ok (y', g', u', r) -> u_exp u' = u_exp u.
Proof.
  induction f; intros v y g u y' g' u' r H; cbn [flush_msgs] in H; destruct (negb _); try discriminate; try (inversion H; subst; reflexivity).
  inv_bind H. inv_bind H. destruct (_ <? _). { inversion H; subst; auto. } inv_bind H. destruct (file_write _ _ _ _ _) as [[w y1] g1].
  destruct (_ =? _). { apply IHf in H. exact H. } destruct (_ || _). { inversion H; subst; auto. } destruct (w <? 0). { inversion H; subst; auto. }
  destruct (_ <? _). { inversion H; subst; auto. } inv_bind H. inv_bind H. inversion H; subst; auto.
Qed.
Lemma ul_flush_exp : forall f v y g u y' g' u' r, ul_flush f v y g u = Ok (y', g', u', r) -> u_exp u' = u_exp u.
Proof.
  intros f v y g u y' g' u' r H. unfold ul_flush in H. destruct (flush_part f v y g u) as [[[[y1 g1] u1] r1]| |] eqn:E; cbn [bind] in H; try discriminate.
  apply flush_part_exp in E. destruct r1. { inversion H; subst; auto. } apply flush_msgs_exp in H. congruence.
Qed.
Lemma ul_data_exp : forall f v y g u mm b d y' g' u' mm', ul_data f v y g u mm b d = Ok (y', g', u', mm') -> u_exp u' = u_exp u.
Proof.
  intros f v y g u mm b d y' g' u' mm' H. unfold ul_data in H.
  match type of H with context [bind ?m _] => destruct m as [[[y1 g1] u1]| |] eqn:E end; cbn [bind] in H; try discriminate.
  assert (E1 : u_exp u1 = u_exp u).
  { destruct d; [|inversion E; subst; auto]. destruct (ul_flush f v y g u) as [[[[? ?] ?] ?]| |] eqn:EF; cbn [bind] in E; try discriminate.
    apply ul_flush_exp in EF. inversion E; subst. exact EF. }
  clear E. destruct (rd mm (b + 4)) as [len| |]; cbn [bind] in H; try discriminate.
  set (u2 := if _ <? u_len u1 + len then _ else u1) in H. assert (E2 : u_exp u2 = u_exp u1) by (unfold u2; destruct (_ <? _); reflexivity). clearbody u2.
  match type of H with bind ?m _ = _ => destruct m as [u3| |] eqn:E3 end; cbn [bind] in H; try discriminate.
  assert (X3 : u_exp u3 = u_exp u2). { destruct (_ <? _); [|inversion E3; subst; auto]. destruct (memmove _ _ _ _); inversion E3; subst; reflexivity. }
  clear E3. destruct (rd mm (b + 5)) as [fmo| |]; cbn [bind] in H; try discriminate.
  destruct (_ && _). { inversion H; subst. congruence. } cbv zeta in H.
  destruct (len =? 0). { inversion H; subst. cbn. congruence. }
  destruct (blit _ _ _) as [mm1| |]; cbn [bind] in H; try discriminate. destruct (slice _ _ _) as [bs| |]; cbn [bind] in H; try discriminate.
  destruct (blit _ _ _) as [nb| |]; cbn [bind] in H; try discriminate.
  match type of H with context [ul_flush f v y1 g1 ?w] => destruct (ul_flush f v y1 g1 w) as [[[[? ?] ?] ?]| |] eqn:EF end; cbn [bind] in H; try discriminate.
  apply ul_flush_exp in EF. inversion H; subst. cbn in EF. congruence.
Qed.

(* C54, proved part: a packet that is expected or ahead by less than half the number space is processed, and the one after it is expected next ... *)
Theorem C54_new_partial : forall fuel v y g u p tail y' g' b' cs,
  ulog_dialect v -> ulog_reached v y g u -> l_open g = true -> u_hdr u = false ->
  is_ulog p = true -> ul_packet p -> bytes tail -> ahead (u_exp u) (ul_seq p) < 32768 ->
  levent fuel v y g (BULog u) (LMsg p tail) = Ok (y', g', b', cs) -> exists u', b' = BULog u' /\ u_exp u' = after (ul_seq p).
Proof.
  intros fuel v y g u p tail y' g' b' cs T RE O HD IU UP BT A H. destruct (reached_inv _ _ _ _ RE) as (I & _).
  destruct (ul_levent fuel v y g u p tail T RE O UP IU BT) as (mm & b & y1 & g1 & HO & _ & _ & _ & E1 & E2 & E3 & E4 & E5 & cs0 & W).
  rewrite W in H. clear W. pose proof (holds_seq _ _ _ HO) as HS. pose proof HO as (BM & LM & _).
  unfold ul_process in H. rewrite !rd_Ok in H by lia. cbn [bind] in H. rewrite HS in H.
  rewrite seq_cases in H; [| apply I | apply seq_range; apply UP | lia | lia]. rewrite (proj2 (Z.ltb_lt _ _) A) in H.
  assert (X : exists d, (if ahead (u_exp u) (ul_seq p) =? 0 then Some (set_exp u (after (ul_seq p)), false) else Some (set_exp u (after (ul_seq p)), true)) = Some (set_exp u (after (ul_seq p)), d)).
  { destruct (_ =? 0); eauto. } destruct X as (d & X). rewrite X in H. cbn [set_exp u_hdr] in H. rewrite HD in H.
  match type of H with context [ul_data fuel v y1 g1 ?w mm b d] => destruct (ul_data fuel v y1 g1 w mm b d) as [[[[y2 g2] u2] mm2]| |] eqn:ED end; cbn [bind] in H; try discriminate.
  inversion H; subst. eexists; split; [reflexivity|]. apply ul_data_exp in ED. rewrite ED. reflexivity.
Qed.

(* ... and a packet from behind, by at least two less than half the number space, changes nothing: neither the file nor what is buffered or expected. *)
Theorem C54_old_partial : forall fuel v y g u p tail,
  ulog_dialect v -> ulog_reached v y g u -> l_open g = true ->
  is_ulog p = true -> ul_packet p -> bytes tail -> 32769 < ahead (u_exp u) (ul_seq p) ->
  exists y' g' cs, levent fuel v y g (BULog u) (LMsg p tail) = Ok (y', g', BULog u, cs) /\ y_fs y' = y_fs y /\ l_name g' = l_name g /\ l_off g' = l_off g /\ l_open g' = true.
Proof.
  intros fuel v y g u p tail T RE O IU UP BT A. destruct (reached_inv _ _ _ _ RE) as (I & _).
  destruct (ul_levent fuel v y g u p tail T RE O UP IU BT) as (mm & b & y1 & g1 & HO & _ & _ & _ & E1 & E2 & E3 & E4 & E5 & cs0 & W).
  rewrite W. clear W. pose proof (holds_seq _ _ _ HO) as HS. pose proof HO as (BM & LM & _).
  unfold ul_process. rewrite !rd_Ok by lia. cbn [bind]. rewrite HS.
  rewrite seq_cases; [| apply I | apply seq_range; apply UP | lia | lia]. rewrite (proj2 (Z.ltb_ge (ahead (u_exp u) (ul_seq p)) 32768)) by lia.
  rewrite (proj2 (Z.eqb_neq (ahead (u_exp u) (ul_seq p)) 0)) by lia. cbn [bind]. eexists _, _, _. split; [reflexivity|]. cbn. auto.
Qed.

(* ---- C55: the staging buffers ----------------------------------------------------------------------------------- *)

(* The indices stay inside the staging buffers (2048 and 1024 bytes), for every packet and every result of the writes ... *)
Theorem C55_indices : forall v y g u, ulog_reached v y g u ->
  length (u_buf u) = 2048%nat /\ length (u_part u) = 1024%nat /\ 0 <= u_idx u /\ 0 <= u_len u /\ u_idx u + u_len u <= 2048 /\ 0 <= u_plen u <= 1024.
Proof. intros v y g u RE. destruct (reached_inv _ _ _ _ RE) as ([[K1 KB K2 K3 K4 K5 K6] _ _ _] & _). unfold UBUF, UPART in *. auto 10. Qed.

(* ... and no step writes or reads outside of them: in memory with enough room behind the packet (so that reading the
   packet cannot fail, see C57), processing any 255 bytes as log data has a defined outcome, and so has closing the log. *)
Theorem C55_in_bounds : forall v y g u, ulog_reached v y g u ->
  (forall fuel mm b, bytes mm -> (b + 520 <= length mm)%nat -> ul_process fuel v y g u mm b <> UB) /\ (forall fuel, lstop fuel v y g (BULog u) <> UB).
Proof.
  intros v y g u RE. destruct (reached_inv _ _ _ _ RE) as (I & S & L). split.
  - intros fuel mm b BM LM. assert (RM : roomy mm b) by (split; auto; lia).
    destruct (ul_process_safe fuel v y g u mm b I RM S L) as [F|(y' & g' & u' & mm' & cs & E & _)]; [rewrite F|rewrite E]; discriminate.
  - intros fuel. cbn [lstop]. destruct (ul_stop_safe fuel v y g u I S L) as [F|(y' & g' & u' & cs & E & _)]; [rewrite F|rewrite E]; discriminate.
Qed.

(* ---- C56: termination --------------------------------------------------------------------------------------------- *)

(* C56, proved part: packets with consistent fields are processed in bounded time, unless the data contains a
   message header that announces a body of 65533 bytes *)
Theorem C56_terminates_partial : forall fuel v y g u p tail,
  ulog_dialect v -> ulog_reached v y g u -> l_open g = true ->
  is_ulog p = true -> ul_packet p -> bytes tail -> ul_consistent p -> (u_hdr u = true -> ul_header_ok p) -> no_size_65533 (window u ++ ul_bytes p) ->
  (2049 <= fuel)%nat -> levent fuel v y g (BULog u) (LMsg p tail) <> Fuel.
Proof.
  intros fuel v y g u p tail T RE O IU UP BT CO HH NS F. destruct (reached_inv _ _ _ _ RE) as (I & _).
  destruct (ul_levent fuel v y g u p tail T RE O UP IU BT) as (mm & b & y1 & g1 & HO & _ & S & L & E1 & E2 & E3 & E4 & E5 & cs0 & W).
  rewrite W. pose proof (ul_process_term fuel v y1 g1 u mm b p I S L HO CO HH NS F) as PT.
  destruct (ul_process fuel v y1 g1 u mm b) as [[[[[? ?] ?] ?] ?]| |]; cbn [bind]; congruence.
Qed.

(* ---- C57: what is read ---------------------------------------------------------------------------------------------- *)

(* C57, proved part: with nothing behind the packet in memory, processing a packet with consistent fields is defined, so
   it reads nothing but the packet *)
Theorem C57_reads_partial : forall fuel v y g u p,
  ulog_dialect v -> ulog_reached v y g u -> l_open g = true ->
  is_ulog p = true -> ul_packet p -> ul_consistent p -> (u_hdr u = true -> ul_size p < 16 \/ ul_header_ok p) ->
  levent fuel v y g (BULog u) (LMsg p []) <> UB.
Proof.
  intros fuel v y g u p T RE O IU UP CO HH. destruct (reached_inv _ _ _ _ RE) as (I & _).
  destruct (ul_levent fuel v y g u p [] T RE O UP IU (Forall_nil _)) as (mm & b & y1 & g1 & HO & _ & S & L & E1 & E2 & E3 & E4 & E5 & cs0 & W).
  rewrite W. pose proof (holds_sane _ _ _ HO CO) as SN.
  pose proof (holds_nth mm b p 4 HO ltac:(lia)) as N4. pose proof (holds_nth mm b p 5 HO ltac:(lia)) as N5. fold (ul_size p) in N4. fold (ul_offset p) in N5.
  assert (PT : ul_process fuel v y1 g1 u mm b <> UB).
  { apply ul_process_reads; auto. intros HD. rewrite N4, N5. destruct (HH HD) as [|[]]; lia. }
  destruct (ul_process fuel v y1 g1 u mm b) as [[[[[? ?] ?] ?] ?]| |]; cbn [bind]; congruence.
Qed.

Print Assumptions C53_stream_partial.
Print Assumptions C53_conserved_partial.
Print Assumptions C54_new_partial.
Print Assumptions C54_old_partial.
Print Assumptions C55_indices.
Print Assumptions C55_in_bounds.
Print Assumptions C56_terminates_partial.
Print Assumptions C57_reads_partial.
Print Assumptions C58_runs.
