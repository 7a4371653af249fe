(* Link-level lemmas behind the framing properties. *)
From Verif Require Import Base Mav SpecCrc SpecFrame CrcProofs Frame FrameProofs FrameRefine FrameLink.

(* A run never has undefined behaviour. *)
Lemma run_defined : forall tbl junk evs, wf_table tbl -> length junk = RXMAX -> Forall bytes evs ->
  exists x st out took, link_run tbl (rx_fresh junk) rstat0 evs = Ok (x, st, out, took).
Proof.
  intros tbl junk evs Ht HJ HF.
  destruct (link_history tbl junk evs Ht HJ HF) as (x & st & out & took & d & p & r & E & _). eauto.
Qed.

Lemma views_in : forall tbl ps b m, In (b, m) (views tbl ps) ->
  exists p, In p ps /\ acceptable tbl p /\ b = encode p /\ m = info_of tbl p.
Proof.
  intros tbl ps b m H. unfold views in H. apply in_map_iff in H. destruct H as (p & E & H).
  apply filter_In in H. destruct H as [H A]. apply acceptableb_true in A.
  unfold view in E. injection E; intros; subst. eauto.
Qed.

Lemma segments_wf : forall s ps r, segments s ps r -> Forall wf_packet ps.
Proof. induction 1; auto. Qed.

Lemma run_out_in : forall tbl junk evs x st out took b m,
  wf_table tbl -> length junk = RXMAX -> Forall bytes evs ->
  link_run tbl (rx_fresh junk) rstat0 evs = Ok (x, st, out, took) -> In (b, m) out ->
  exists p, wf_packet p /\ acceptable tbl p /\ b = encode p /\ m = info_of tbl p.
Proof.
  intros tbl junk evs x st out took b m Ht HJ HF R HI.
  destruct (link_history tbl junk evs Ht HJ HF) as (x' & st' & out' & took' & d & pd & r & E & HS & O & _).
  rewrite R in E. injection E; intros; subst.
  apply views_in in HI. destruct HI as (p & Hin & A & -> & ->).
  exists p. split; [|auto]. apply segments_wf in HS. rewrite Forall_forall in HS. apply HS.
  apply in_or_app; auto.
Qed.

Lemma gate_only_if : forall tbl junk evs x st out took p,
  wf_table tbl -> length junk = RXMAX -> Forall bytes evs -> wf_packet p ->
  link_run tbl (rx_fresh junk) rstat0 evs = Ok (x, st, out, took) ->
  In (encode p) (map fst out) -> acceptable tbl p.
Proof.
  intros tbl junk evs x st out took p Ht HJ HF Hp R HI.
  apply in_map_iff in HI. destruct HI as ((b & m) & E & HI). simpl in E. subst b.
  destruct (run_out_in _ _ _ _ _ _ _ _ _ Ht HJ HF R HI) as (q & Hq & A & E & _).
  apply encode_inj in E; auto. subst; auto.
Qed.

Lemma gate_if : forall tbl junk evs x st out took done pend r p,
  wf_table tbl -> length junk = RXMAX -> Forall bytes evs ->
  link_run tbl (rx_fresh junk) rstat0 evs = Ok (x, st, out, took) ->
  needs_read x = true -> segments took (done ++ p :: pend) r -> acceptable tbl p ->
  exists o1 o2, out = o1 ++ (encode p, info_of tbl p) :: o2 /\
    o1 = views tbl done /\ o2 = views tbl pend.
Proof.
  intros tbl junk evs x st out took done pend r p Ht HJ HF R NR HS A.
  destruct (link_history tbl junk evs Ht HJ HF) as (x' & st' & out' & took' & d & pd & r' & E & HS' & O & _ & N & _).
  rewrite R in E. injection E; intros; subst. rewrite N in HS' by auto. rewrite app_nil_r in HS'.
  destruct (segments_unique _ _ _ HS _ _ HS') as [<- _].
  exists (views tbl done), (views tbl pend). rewrite views_app. repeat split; auto. f_equal.
  unfold views at 1. cbn [filter]. apply acceptableb_true in A. rewrite A. reflexivity.
Qed.

(* damaged packets *)
Lemma damaged_not_acceptable : forall tbl e p q,
  wf_table tbl -> tbl (p_id p) = Some e -> p_id q = p_id p -> wf_packet p -> wf_packet q ->
  p_crc0 q = p_crc0 p -> p_crc1 q = p_crc1 p ->
  acceptable tbl p -> burst16 (bits (body p)) (bits (body q)) -> ~ acceptable tbl q.
Proof.
  intros tbl e p q Ht Et Ei Hp Hq E0 E1 A B C.
  unfold acceptable in *. rewrite Ei, Et in C. rewrite Et in A. unfold crc_matches in *.
  rewrite E0, E1, <- A in C.
  assert (He : is_byte (e_crc_extra e)) by apply (Ht _ _ Et).
  pose proof (body_bytes p Hp) as Bp. pose proof (body_bytes q Hq) as Bq.
  rewrite <- !crc_calculate_spec in C by (apply bytes_app; split; auto; constructor; auto).
  unfold crc_calculate in C. rewrite !crc_run_app in C. cbn [crc_run] in C.
  apply (crc_burst_detected (body p) (body q) (e_crc_extra e)); auto; unfold crc_calculate; congruence.
Qed.

Lemma damaged_crc_not_acceptable : forall tbl e p q,
  tbl (p_id p) = Some e -> p_id q = p_id p -> wf_packet p -> wf_packet q ->
  body q = body p -> (p_crc0 q, p_crc1 q) <> (p_crc0 p, p_crc1 p) ->
  acceptable tbl p -> ~ acceptable tbl q.
Proof.
  intros tbl e p q Et Ei Hp Hq Eb NE A C.
  unfold acceptable in *. rewrite Ei, Et in C. rewrite Et in A. unfold crc_matches in *.
  rewrite Eb, A in C. apply NE.
  destruct Hp as (_&_&_&P1&P2&_). destruct Hq as (_&_&_&Q1&Q2&_). unfold is_byte in *.
  f_equal; lia.
Qed.

(* Held-back packets come out on the following events. *)
Lemma drain : forall tbl, wf_table tbl -> forall n x s st pend r,
  good x s -> segments (rest_of x s) pend r -> (length pend < n)%nat ->
  exists x' st',
    link_run tbl x st (repeat [] n) = Ok (x', st', views tbl pend, []) /\
    rx_last x' = 0%nat /\ st' = stats_after tbl st pend.
Proof.
  intros tbl Ht. induction n as [n IH] using lt_wf_ind. intros x s st pend r Hg HS HL.
  destruct n as [|n]; [lia|]. cbn [repeat link_run].
  destruct (link_read_spec tbl x s st [] Ht Hg ltac:(constructor)) as (x1 & s1 & st1 & o1 & d1 & E1 & G1 & P1 & O1 & S1 & N1).
  assert (Lt : link_taken x [] = []) by (unfold link_taken; destruct (needs_read x); auto; apply firstn_nil).
  rewrite Lt, app_nil_r in P1. rewrite E1. cbn [bind]. rewrite Lt. cbn [app].
  assert (HB : bytes (rest_of x1 s1)) by (apply bytes_skipn; apply G1).
  destruct (segments_exist _ HB) as (p2 & r2 & HS2).
  pose proof (parsed_segments _ _ _ P1 _ _ HS2) as HS3.
  destruct (segments_unique _ _ _ HS _ _ HS3) as [-> ->].
  destruct N1 as [[Z1 F1] | (d & p & -> & _ & NA & LP)].
  - assert (HS' : segments (rest_of x1 s1) [] (rest_of x1 s1)).
    { unfold rest_of. rewrite Z1. apply (idle_segments x1); auto. }
    destruct (segments_unique _ _ _ HS2 _ _ HS') as [-> ->]. rewrite app_nil_r in *.
    destruct n as [|n].
    + cbn [link_run repeat bind]. exists x1, st1. rewrite app_nil_r. repeat split; auto. congruence.
    + destruct (IH (S n) ltac:(lia) x1 s1 st1 [] _ G1 HS' ltac:(simpl; lia)) as (x2 & st2 & E2 & Z2 & S2).
      rewrite E2. cbn [bind]. exists x2, st2. unfold views at 1. cbn [filter map]. rewrite app_nil_r.
      repeat split; auto; try congruence. rewrite S2, S1. reflexivity.
  - rewrite !app_length in HL. cbn [length] in HL.
    destruct (IH n ltac:(lia) x1 s1 st1 p2 _ G1 HS2 ltac:(lia)) as (x2 & st2 & E2 & Z2 & S2).
    rewrite E2. cbn [bind]. exists x2, st2. rewrite views_app, O1. repeat split; auto.
    rewrite S2, S1, !stats_after_app. reflexivity.
Qed.

Lemma link_run_app : forall tbl e1 e2 x st,
  link_run tbl x st (e1 ++ e2) =
  (let* (x1, st1, o1, t1) := link_run tbl x st e1 in
   let* (x2, st2, o2, t2) := link_run tbl x1 st1 e2 in
   Ok (x2, st2, o1 ++ o2, t1 ++ t2)).
Proof.
  induction e1; intros; cbn [link_run app].
  - cbn [bind]. destruct (link_run tbl x st e2) as [[[[? ?] ?] ?]| |]; reflexivity.
  - destruct (link_read tbl x st a) as [[[x1 st1] o1]| |]; cbn [bind]; auto.
    rewrite IHe1. destruct (link_run tbl x1 st1 e1) as [[[[x2 st2] o2] t2]| |]; cbn [bind]; auto.
    destruct (link_run tbl x2 st2 e2) as [[[[x3 st3] o3] t3]| |]; cbn [bind]; auto.
    rewrite !app_assoc. reflexivity.
Qed.

Lemma eventually_all : forall tbl junk evs x st out took,
  wf_table tbl -> length junk = RXMAX -> Forall bytes evs ->
  link_run tbl (rx_fresh junk) rstat0 evs = Ok (x, st, out, took) ->
  exists n x' st' out', forall ps r, segments took ps r ->
    link_run tbl (rx_fresh junk) rstat0 (evs ++ repeat [] n) = Ok (x', st', out', took) /\
    needs_read x' = true /\ out' = views tbl ps.
Proof.
  intros tbl junk evs x st out took Ht HJ HF R.
  destruct (link_run_spec tbl Ht evs _ _ rstat0 (good_fresh junk HJ) HF)
    as (x1 & s & st1 & out1 & took1 & done & E & G & P & O & S & M).
  rewrite R in E. injection E; intros; subst.
  assert (HB : bytes (rest_of x1 s)) by (apply bytes_skipn; apply G).
  destruct (segments_exist _ HB) as (pend & r & HS).
  destruct (drain tbl Ht (Datatypes.S (length pend)) x1 s (stats_after tbl rstat0 done) pend r G HS ltac:(lia))
    as (x2 & st2 & E2 & Z2 & S2).
  exists (Datatypes.S (length pend)), x2, st2, (views tbl done ++ views tbl pend).
  intros ps r' HS'. split.
  - rewrite link_run_app, R. cbn [bind]. rewrite E2. cbn [bind]. rewrite app_nil_r. reflexivity.
  - split. { unfold needs_read. rewrite Z2. reflexivity. }
    change (rest_of (rx_fresh junk) []) with (@nil Z) in P. cbn [app] in P.
    pose proof (parsed_segments _ _ _ P _ _ HS) as HS2.
    destruct (segments_unique _ _ _ HS' _ _ HS2) as [-> _]. rewrite views_app. reflexivity.
Qed.

(* --- sequence losses -------------------------------------------------------- *)

(* packets lost between two consecutively received sequence numbers *)
Definition lost_between (a b : Z) : Z := (b - a - 1) mod 256.

Fixpoint lost_total (l : list Z) : Z :=
  match l with
  | a :: ((b :: _) as t) => lost_between a b + lost_total t
  | _ => 0
  end.

(* the gap does not run over the end of the number range *)
Definition no_wrap (a b : Z) : Prop := (a + 1) mod 256 <= b.

Fixpoint all_no_wrap (l : list Z) : Prop :=
  match l with
  | a :: ((b :: _) as t) => no_wrap a b /\ all_no_wrap t
  | _ => True
  end.

Lemma lost_total_nonneg : forall l, 0 <= lost_total l.
Proof.
  induction l as [|a [|b t] IH]; cbn [lost_total]; try lia.
  assert (0 <= lost_between a b) by (apply Z.mod_pos_bound; lia). cbn [lost_total] in IH. lia.
Qed.


Lemma stat_ok_eseq : forall st n q, s_eseq (stat_ok st n q) = u8 (q + 1).
Proof.
  intros. unfold stat_ok, seq_update. cbn [s_eseq].
  destruct (Z.eqb_spec (s_eseq st) q); cbn [s_eseq]; [congruence|].
  destruct (1 <? _); reflexivity.
Qed.

Lemma stat_ok_nowrap : forall st n a q, is_byte a -> is_byte q -> s_eseq st = u8 (a + 1) ->
  0 <= s_drop st < 4294967296 ->
  1 <= s_total st -> s_total st + 1 + lost_between a q < 4294967296 -> no_wrap a q ->
  s_drop (stat_ok st n q) = u32 (s_drop st + lost_between a q) /\
  s_total (stat_ok st n q) = s_total st + 1 + lost_between a q.
Proof.
  intros st n a q Ha Hq He Hd Ht Hb Hw. unfold no_wrap, lost_between, is_byte, u8 in *.
  unfold stat_ok, seq_update. cbn [s_eseq s_total s_drop s_crc_err s_handled].
  assert (HT : u32 (s_total st + 1) = s_total st + 1).
  { apply u32_small. Z.div_mod_to_equations. lia. }
  rewrite HT.
  destruct (Z.eqb_spec (s_eseq st) q) as [E|E]; cbn [s_drop s_total].
  - replace ((q - a - 1) mod 256) with 0 by (Z.div_mod_to_equations; lia).
    rewrite !Z.add_0_r. split; auto. rewrite u32_small; lia.
  - destruct (Z.ltb_spec 1 (s_total st + 1)) as [L|L]; [|lia]. cbn [s_drop s_total].
    destruct (Z.ltb_spec (s_eseq st) q) as [L2|L2].
    + assert (D : u8 (q - s_eseq st) = (q - a - 1) mod 256).
      { unfold u8. rewrite He. Z.div_mod_to_equations. lia. }
      rewrite D. split; auto. apply u32_small. Z.div_mod_to_equations. lia.
    + exfalso. lia.
Qed.

Lemma stat_ok_wrap : forall st n a q, is_byte a -> is_byte q -> s_eseq st = u8 (a + 1) ->
  1 <= s_total st < 4294967295 -> ~ no_wrap a q ->
  s_drop (stat_ok st n q) = u32 (s_drop st + (lost_between a q - 1)).
Proof.
  intros st n a q Ha Hq He Ht Hw. unfold no_wrap, lost_between, is_byte, u8 in *.
  unfold stat_ok, seq_update. cbn [s_eseq s_total s_drop s_crc_err s_handled].
  rewrite (u32_small (s_total st + 1)) by lia.
  destruct (Z.eqb_spec (s_eseq st) q) as [E|E]; cbn [s_drop s_total]; [lia|].
  destruct (Z.ltb_spec 1 (s_total st + 1)) as [L|L]; [|lia]. cbn [s_drop s_total].
  destruct (Z.ltb_spec (s_eseq st) q) as [L2|L2]; [lia|].
  f_equal. f_equal. unfold u8. rewrite He in *. Z.div_mod_to_equations. lia.
Qed.

Lemma stats_losses : forall tbl ps st a, Forall wf_packet ps -> Forall (acceptable tbl) ps ->
  is_byte a -> s_eseq st = u8 (a + 1) -> 0 <= s_drop st -> 1 <= s_total st ->
  s_drop st <= s_total st ->
  s_total st + Z.of_nat (length ps) + lost_total (a :: map p_seq ps) < 4294967296 ->
  all_no_wrap (a :: map p_seq ps) ->
  s_drop (stats_after tbl st ps) = s_drop st + lost_total (a :: map p_seq ps).
Proof.
  intros tbl. induction ps as [|p ps IH]; intros st a HW HA Ha He Hd Ht Hdt Hb Hn.
  - cbn. lia.
  - inversion HW; inversion HA; subst. unfold stats_after. cbn [fold_left].
    assert (EA : acceptableb tbl p = true) by (apply acceptableb_true; auto). rewrite EA.
    cbn [map] in Hb, Hn |- *.
    change (lost_total (a :: p_seq p :: map p_seq ps)) with (lost_between a (p_seq p) + lost_total (p_seq p :: map p_seq ps)) in *.
    destruct Hn as [Hn1 Hn2]. cbn [length] in Hb.
    assert (Hq : is_byte (p_seq p)) by apply H1.
    pose proof (lost_total_nonneg (p_seq p :: map p_seq ps)).
    assert (Hl : 0 <= lost_between a (p_seq p)) by (apply Z.mod_pos_bound; lia).
    destruct (stat_ok_nowrap st (length (encode p)) a (p_seq p)) as [D T]; auto; try lia.
    assert (D' : s_drop (stat_ok st (length (encode p)) (p_seq p)) = s_drop st + lost_between a (p_seq p)).
    { rewrite D. apply u32_small. lia. }
    fold (stats_after tbl (stat_ok st (length (encode p)) (p_seq p)) ps).
    rewrite IH with (a := p_seq p); auto; rewrite ?stat_ok_eseq, ?D', ?T; auto; lia.
Qed.

Lemma losses_counted : forall tbl ps, Forall wf_packet ps -> Forall (acceptable tbl) ps ->
  Z.of_nat (length ps) + lost_total (map p_seq ps) < 4294967296 ->
  all_no_wrap (map p_seq ps) ->
  s_drop (stats_after tbl rstat0 ps) = lost_total (map p_seq ps).
Proof.
  intros tbl [|p ps] HW HA Hb Hn; [reflexivity|].
  inversion HW; inversion HA; subst. unfold stats_after. cbn [fold_left].
  assert (EA : acceptableb tbl p = true) by (apply acceptableb_true; auto). rewrite EA.
  fold (stats_after tbl (stat_ok rstat0 (length (encode p)) (p_seq p)) ps).
  assert (D : s_drop (stat_ok rstat0 (length (encode p)) (p_seq p)) = 0 /\
              s_total (stat_ok rstat0 (length (encode p)) (p_seq p)) = 1).
  { unfold stat_ok, seq_update, rstat0. cbn [s_eseq s_total s_drop].
    destruct (0 =? p_seq p); cbn; auto. }
  destruct D as [D T]. cbn [map length] in *.
  rewrite stats_losses with (a := p_seq p); auto; rewrite ?stat_ok_eseq, ?D, ?T; auto; try lia.
  apply H1.
Qed.
