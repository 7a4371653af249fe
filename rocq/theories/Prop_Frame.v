(* Properties C01-C10: framing of one link.  Statements only; proofs in Frame*.v *)
From Verif Require Import Base Mav SpecCrc SpecFrame CrcProofs Frame FrameProofs FrameRefine FrameLink
  FrameProps ExFrame.

(* C01. For every stream cut into reads in every way and every initial buffer content: the bytes taken
   from the OS have a segmentation into packets; the packets handed out are the checksum-acceptable ones
   of a prefix [done] of that segmentation, byte for byte and in order; packets are held back ([pend])
   only directly behind a packet that failed its checksum. *)
Theorem C01_exact_slices : forall tbl junk evs,
  wf_table tbl -> length junk = RXMAX -> Forall bytes evs ->
  exists x st out took done pend rest,
    link_run tbl (rx_fresh junk) rstat0 evs = Ok (x, st, out, took) /\
    segments took (done ++ pend) rest /\
    map fst out = map encode (filter (acceptableb tbl) done) /\
    (pend <> [] -> exists d bad, done = d ++ [bad] /\ ~ acceptable tbl bad).
Proof.
  intros tbl junk evs Ht HJ HF.
  destruct (link_history tbl junk evs Ht HJ HF) as (x & st & out & took & d & p & r & E & S & O & _ & _ & L).
  exists x, st, out, took, d, p, r. repeat split; auto. rewrite O. unfold views. rewrite map_map. reflexivity.
Qed.

Example C01_nonvacuous :
  match link_run ex_tbl (rx_fresh ex_junk) rstat0
    [ [1;2;254] ; [9;5;7;1;0;0;0;0;0;2;3;81;4;3] ++ skipn 15 (encode (ex_hb1 5)) ++ [77] ++ firstn 4 (encode (ex_cmd 2));
      skipn 4 (encode (ex_cmd 2)) ++ encode (ex_unknown 4) ++ [253] ]
  with Ok (_, _, out, _) => map fst out = [encode (ex_hb1 5); encode (ex_cmd 2); encode (ex_unknown 4)]
  | _ => False end.
Proof. vm_compute. reflexivity. Qed.

(* The segmentation of a stream is unique. *)
Theorem C01_segmentation_unique : forall s ps1 r1 ps2 r2,
  segments s ps1 r1 -> segments s ps2 r2 -> ps1 = ps2 /\ r1 = r2.
Proof. exact (fun s ps1 r1 ps2 r2 H1 H2 => segments_unique s ps1 r1 H1 ps2 r2 H2). Qed.

(* Which bytes are taken: everything the OS offers, up to the free space, unless a damaged packet is still
   being discarded, in which case this event takes nothing. *)
Theorem C01_bytes_taken : forall tbl junk evs e x st out took x' st' out' took',
  link_run tbl (rx_fresh junk) rstat0 evs = Ok (x, st, out, took) ->
  link_run tbl (rx_fresh junk) rstat0 (evs ++ [e]) = Ok (x', st', out', took') ->
  took' = took ++ (if needs_read x then firstn (RXMAX - rx_len x) e else []) /\
  exists new, out' = out ++ new.
Proof.
  intros tbl junk evs e x st out took x' st' out' took' R1 R2.
  rewrite link_run_app, R1 in R2. cbn [bind link_run] in R2.
  destruct (link_read tbl x st e) as [[[y st2] o2]| |]; cbn [bind] in R2; try discriminate.
  injection R2; intros; subst. rewrite !app_nil_r. split; [reflexivity|]. eexists; reflexivity.
Qed.

(* C02. Two histories that took the same bytes, cut differently and with different stale buffer contents,
   hand out the same packets, up to packets still held back behind a checksum error. *)
Theorem C02_chunking_independent :
  forall tbl junk1 junk2 evs1 evs2 x1 x2 st1 st2 out1 out2 took,
  wf_table tbl -> length junk1 = RXMAX -> length junk2 = RXMAX ->
  Forall bytes evs1 -> Forall bytes evs2 ->
  link_run tbl (rx_fresh junk1) rstat0 evs1 = Ok (x1, st1, out1, took) ->
  link_run tbl (rx_fresh junk2) rstat0 evs2 = Ok (x2, st2, out2, took) ->
  exists late1 late2, out1 ++ late1 = out2 ++ late2 /\
    (needs_read x1 = true -> late1 = []) /\ (needs_read x2 = true -> late2 = []).
Proof. exact chunking_independent. Qed.

(* ... and the held-back packets are handed out by further read events, even without new bytes. *)
Theorem C02_eventually_all : forall tbl junk evs x st out took,
  wf_table tbl -> length junk = RXMAX -> Forall bytes evs ->
  link_run tbl (rx_fresh junk) rstat0 evs = Ok (x, st, out, took) ->
  forall ps r, segments took ps r ->
  exists n x' st' out',
    link_run tbl (rx_fresh junk) rstat0 (evs ++ repeat [] n) = Ok (x', st', out', took) /\
    needs_read x' = true /\
    map fst out' = map encode (filter (acceptableb tbl) ps).
Proof.
  intros tbl junk evs x st out took Ht HJ HF R ps r HS.
  destruct (eventually_all _ _ _ _ _ _ _ Ht HJ HF R) as (n & x' & st' & out' & H).
  destruct (H ps r HS) as (E & N & O).
  exists n, x', st', out'. split; [exact E|]. split; [exact N|]. rewrite O. unfold views. rewrite map_map. reflexivity.
Qed.

Example C02_nonvacuous :
  let s := encode (ex_hb 0) ++ encode (ex_bad 0) ++ encode (ex_signed 3) ++ encode (ex_hb 1) in
  match link_run ex_tbl (rx_fresh ex_junk) rstat0 [s; []],
        link_run ex_tbl (rx_fresh (repeat 254 RXMAX)) rstat0 
          (map (fun b => [b]) (encode (ex_hb 0) ++ encode (ex_bad 0)) ++ [[]] ++
           map (fun b => [b]) (encode (ex_signed 3) ++ encode (ex_hb 1))) with
  | Ok (x1, _, o1, t1), Ok (x2, _, o2, t2) =>
      o1 = o2 /\ t1 = s /\ t2 = s /\ length o1 = 3%nat /\ needs_read x1 = true /\ needs_read x2 = true
  | _, _ => False end.
Proof. vm_compute. repeat split. Qed.

(* C03. A concatenation of well-formed, valid packets, read in pieces of at most 840 bytes, comes out
   completely and in order, each with the header fields it was built with. *)
Theorem C03_roundtrip : forall tbl junk ps evs,
  wf_table tbl -> length junk = RXMAX ->
  Forall wf_packet ps -> Forall (acceptable tbl) ps ->
  Forall bytes evs -> Forall (fun e => (length e <= 840)%nat) evs ->
  concat evs = concat (map encode ps) ->
  exists x st out,
    link_run tbl (rx_fresh junk) rstat0 evs = Ok (x, st, out, concat evs) /\
    map fst out = map encode ps /\
    map (fun o => (m_id (snd o), m_ssys (snd o), m_scomp (snd o),
                   firstn (Z.to_nat (m_plen (snd o))) (skipn (m_poff (snd o)) (fst o)))) out
      = map (fun p => (p_id p, p_sys p, p_comp p, p_payload p)) ps.
Proof.
  intros tbl junk ps evs Ht HJ HW HA HB HL HC.
  destruct (valid_traffic_run tbl Ht evs (rx_fresh junk) [] rstat0 (good_fresh junk HJ) eq_refl HB HL ps [])
    as (x & s & st & out & E & _ & _ & O & _); auto.
  { cbn [app]. rewrite HC. apply segments_concat; auto. }
  exists x, st, out. split; auto. rewrite O. rewrite !map_map. split; [reflexivity|].
  apply map_ext. intros p. unfold view, info_of. cbn [snd fst m_id m_ssys m_scomp m_plen m_poff].
  f_equal. unfold plen. rewrite Nat2Z.id. unfold encode, body, hlen.
  destruct (p_ver p); cbn [app skipn]; rewrite <- ?app_assoc; rewrite firstn_app, Nat.sub_diag, firstn_all, firstn_O, app_nil_r; reflexivity.
Qed.

Example C03_nonvacuous :
  Forall wf_packet [ex_hb 0; ex_hb1 5; ex_cmd 2; ex_signed 3; ex_unknown 4] /\
  Forall (acceptable ex_tbl) [ex_hb 0; ex_hb1 5; ex_cmd 2; ex_signed 3; ex_unknown 4].
Proof.
  split.
  - repeat apply Forall_cons; try apply Forall_nil; [apply ex_hb_wf|apply ex_hb1_wf|apply ex_cmd_wf|apply ex_signed_wf|apply ex_unknown_wf].
  - repeat apply Forall_cons; try apply Forall_nil; vm_compute; auto.
Qed.

(* C04. Only acceptable packets are ever handed out ... *)
Theorem C04_gate_only_if : forall tbl junk evs x st out took p,
  wf_table tbl -> length junk = RXMAX -> Forall bytes evs -> wf_packet p ->
  link_run tbl (rx_fresh junk) rstat0 evs = Ok (x, st, out, took) ->
  In (encode p) (map fst out) ->
  tbl (p_id p) = None \/
  exists e, tbl (p_id p) = Some e /\
            crc_spec (body p ++ [e_crc_extra e]) = p_crc0 p + 256 * p_crc1 p.
Proof.
  intros tbl junk evs x st out took p Ht HJ HF Hp R HI.
  pose proof (gate_only_if _ _ _ _ _ _ _ _ Ht HJ HF Hp R HI) as A. unfold acceptable in A.
  destruct (tbl (p_id p)) as [e|]; [right; exists e; auto | left; auto].
Qed.

(* ... and every acceptable packet of the stream is handed out, at its place (once the link is idle). *)
Theorem C04_gate_if : forall tbl junk evs x st out took before after r p,
  wf_table tbl -> length junk = RXMAX -> Forall bytes evs ->
  link_run tbl (rx_fresh junk) rstat0 evs = Ok (x, st, out, took) ->
  needs_read x = true -> segments took (before ++ p :: after) r ->
  (tbl (p_id p) = None \/
   exists e, tbl (p_id p) = Some e /\ crc_spec (body p ++ [e_crc_extra e]) = p_crc0 p + 256 * p_crc1 p) ->
  exists o1 o2, out = o1 ++ (encode p, info_of tbl p) :: o2 /\
    length o1 = length (filter (acceptableb tbl) before) /\
    length o2 = length (filter (acceptableb tbl) after).
Proof.
  intros tbl junk evs x st out took before after r p Ht HJ HF R NR HS HA.
  assert (A : acceptable tbl p).
  { unfold acceptable. destruct HA as [-> | (e & -> & H)]; auto. }
  destruct (gate_if _ _ _ _ _ _ _ _ _ _ _ Ht HJ HF R NR HS A) as (o1 & o2 & E & E1 & E2).
  exists o1, o2. split; [exact E|]. rewrite E1, E2. unfold views. rewrite !map_length. auto.
Qed.

Example C04_nonvacuous :
  match link_run ex_tbl (rx_fresh ex_junk) rstat0 [encode (ex_bad 0); encode (ex_unknown 4)]  with
  | Ok (x, _, out, took) => map fst out = [] /\ needs_read x = true /\ took = encode (ex_bad 0)
  | _ => False end /\
  match link_run ex_tbl (rx_fresh ex_junk) rstat0 [encode (ex_bad 0); []; encode (ex_unknown 4)]  with
  | Ok (x, _, out, took) => map fst out = [encode (ex_unknown 4)] | _ => False end.
Proof. vm_compute. repeat split. Qed.

(* The library checksum routine used by the model is the bit-serial CRC-16/MCRF4XX. *)
Theorem C04_checksum_is_crc16 : forall l, bytes l -> crc_calculate l = crc_spec l.
Proof. exact crc_calculate_spec. Qed.

Example C04_checksum_check_value : (* the published check value of CRC-16/MCRF4XX *)
  crc_spec [49;50;51;52;53;54;55;56;57] = 28561 (* 0x6F91 *).
Proof. vm_compute. reflexivity. Qed.

(* C05. A valid packet p of a known type; q is p damaged within 16 consecutive bits of the checksummed bytes
   (same id and length): q is never handed out, by any link in any history. *)
Theorem C05_short_bursts_caught : forall tbl e p q,
  wf_table tbl -> tbl (p_id p) = Some e -> p_id q = p_id p ->
  wf_packet p -> wf_packet q -> p_crc0 q = p_crc0 p -> p_crc1 q = p_crc1 p ->
  acceptable tbl p -> burst16 (bits (body p)) (bits (body q)) ->
  forall junk evs x st out took,
  length junk = RXMAX -> Forall bytes evs ->
  link_run tbl (rx_fresh junk) rstat0 evs = Ok (x, st, out, took) ->
  ~ In (encode q) (map fst out).
Proof.
  intros tbl e p q Ht Et Ei Hp Hq E0 E1 A B junk evs x st out took HJ HF R HI.
  eapply (damaged_not_acceptable tbl e p q); eauto. eapply gate_only_if; eauto.
Qed.

(* Damage confined to the checksum field itself. *)
Theorem C05_checksum_field_damage_caught : forall tbl e p q,
  wf_table tbl -> tbl (p_id p) = Some e -> p_id q = p_id p -> wf_packet p -> wf_packet q ->
  body q = body p -> (p_crc0 q, p_crc1 q) <> (p_crc0 p, p_crc1 p) -> acceptable tbl p ->
  forall junk evs x st out took,
  length junk = RXMAX -> Forall bytes evs ->
  link_run tbl (rx_fresh junk) rstat0 evs = Ok (x, st, out, took) ->
  ~ In (encode q) (map fst out).
Proof.
  intros tbl e p q Ht Et Ei Hp Hq Eb NE A junk evs x st out took HJ HF R HI.
  eapply (damaged_crc_not_acceptable tbl e p q); eauto. eapply gate_only_if; eauto.
Qed.

Definition ex_hb_damaged : packet :=
  let p := ex_hb 0 in
  mkPacket (p_ver p) (p_seq p) (p_sys p) (p_comp p) (p_id p) [0;0;0;0;2;3;209;4;3] (p_crc0 p) (p_crc1 p).

Example C05_nonvacuous :
  acceptable ex_tbl (ex_hb 0) /\ wf_packet ex_hb_damaged /\
  burst16 (bits (body (ex_hb 0))) (bits (body ex_hb_damaged)).
Proof.
  split; [vm_compute; reflexivity|]. split; [wfp|]. split; [vm_compute; discriminate|].
  exists (firstn 127 (bits (body (ex_hb 0)))), [false], [true], (skipn 128 (bits (body (ex_hb 0)))).
  vm_compute. repeat split. repeat constructor.
Qed.

(* If the damage hits the id so that it leaves the dialect, the packet does get through. *)
Theorem C05_damaged_id_refuted : exists tbl p q,
  wf_table tbl /\ wf_packet p /\ wf_packet q /\ acceptable tbl p /\
  burst16 (bits (body p)) (bits (body q)) /\ p_crc0 q = p_crc0 p /\ p_crc1 q = p_crc1 p /\
  exists x st m, link_run tbl (rx_fresh ex_junk) rstat0 [encode q] = Ok (x, st, [(encode q, m)], encode q).
Proof.
  exists ex_tbl, (ex_hb 0), (mkPacket (V2 0 0 []) 0 1 1 1 [0;0;0;0;2;3;81;4;3] (p_crc0 (ex_hb 0)) (p_crc1 (ex_hb 0))).
  split; [apply ex_tbl_wf|]. split; [apply ex_hb_wf|]. split; [wfp|]. split; [apply ex_hb_ok|].
  split.
  { split; [vm_compute; discriminate|].
    exists (firstn 48 (bits (body (ex_hb 0)))), [false], [true], (skipn 49 (bits (body (ex_hb 0)))).
    vm_compute. repeat split. repeat constructor. }
  split; [reflexivity|]. split; [reflexivity|]. vm_compute. do 3 eexists. reflexivity.
Qed.

(* C06. No history makes the parser leave the buffer (the model has outcome UB for that), and whenever bytes are
   requested there is room for three maximum-size (280 byte) packets. *)
Theorem C06_never_out_of_bounds : forall tbl junk evs,
  wf_table tbl -> length junk = RXMAX -> Forall bytes evs ->
  exists x st out took, link_run tbl (rx_fresh junk) rstat0 evs = Ok (x, st, out, took).
Proof. exact run_defined. Qed.

Theorem C06_always_room : forall tbl junk evs x st out took,
  wf_table tbl -> length junk = RXMAX -> Forall bytes evs ->
  link_run tbl (rx_fresh junk) rstat0 evs = Ok (x, st, out, took) ->
  needs_read x = true -> (rx_len x + 3 * 280 <= RXMAX)%nat.
Proof. exact room. Qed.

(* C07. Refuted: a valid packet directly behind a damaged one in the same read is not handed out by that event. *)
Theorem C07_immediate_refuted : exists tbl avail p,
  wf_table tbl /\ bytes avail /\ wf_packet p /\ acceptable tbl p /\
  (exists d r, segments avail (d ++ [p]) r) /\
  exists x st, link_run tbl (rx_fresh ex_junk) rstat0 [avail] = Ok (x, st, [], avail).
Proof.
  exists ex_tbl, (encode (ex_bad 0) ++ encode (ex_hb 1)), (ex_hb 1).
  split; [apply ex_tbl_wf|]. split; [apply bytesb_ok; vm_compute; reflexivity|].
  split; [apply ex_hb_wf1|]. split; [vm_compute; reflexivity|]. split.
  - exists [ex_bad 0], []. cbn [app]. constructor; [apply ex_bad_wf|].
    rewrite <- (app_nil_r (encode (ex_hb 1))). constructor; [apply ex_hb_wf1|]. constructor.
  - vm_compute. do 2 eexists. reflexivity.
Qed.

(* What holds: without a checksum error nothing complete is ever left behind. *)
Theorem C07_immediate_partial : forall tbl junk evs x st out took,
  wf_table tbl -> length junk = RXMAX -> Forall bytes evs ->
  link_run tbl (rx_fresh junk) rstat0 evs = Ok (x, st, out, took) ->
  forall ps r, segments took ps r -> Forall (acceptable tbl) ps ->
  map fst out = map encode ps.
Proof.
  intros tbl junk evs x st out took Ht HJ HF R ps r HS HA.
  destruct (link_history tbl junk evs Ht HJ HF) as (x' & st' & out' & took' & d & p & r' & E & S & O & _ & _ & L).
  rewrite R in E. injection E; intros; subst.
  destruct (segments_unique _ _ _ HS _ _ S) as [-> _].
  apply Forall_app in HA. destruct HA as [HA1 HA2].
  assert (p = []).
  { destruct p as [|q p]; auto. destruct L as (d' & bad & -> & NA); [discriminate|].
    apply Forall_app in HA1. destruct HA1 as [_ HA1]. inversion HA1; subst. tauto. }
  subst p. rewrite app_nil_r. unfold views. rewrite map_map.
  assert (F : filter (acceptableb tbl) d = d).
  { clear - HA1. induction HA1; simpl; auto. apply acceptableb_true in H. rewrite H, IHHA1. auto. }
  rewrite F. reflexivity.
Qed.

(* C08. The routing information of every packet handed out. *)
Theorem C08_targets : forall tbl junk evs x st out took b m,
  wf_table tbl -> length junk = RXMAX -> Forall bytes evs ->
  link_run tbl (rx_fresh junk) rstat0 evs = Ok (x, st, out, took) -> In (b, m) out ->
  exists p, wf_packet p /\ b = encode p /\
    m_id m = p_id p /\ m_ssys m = p_sys p /\ m_scomp m = p_comp p /\
    (forall o e, tbl (p_id p) = Some e -> e_tsys e = Some o ->
       m_tsys m = if (o <? length (p_payload p))%nat then nth o (p_payload p) 0 else 0) /\
    (forall o e, tbl (p_id p) = Some e -> e_tcomp e = Some o ->
       m_tcomp m = if (o <? length (p_payload p))%nat then nth o (p_payload p) 0 else 0) /\
    ((tbl (p_id p) = None \/ exists e, tbl (p_id p) = Some e /\ e_tsys e = None) -> m_tsys m = -1) /\
    ((tbl (p_id p) = None \/ exists e, tbl (p_id p) = Some e /\ e_tcomp e = None) -> m_tcomp m = -1).
Proof.
  intros tbl junk evs x st out took b m Ht HJ HF R HI.
  destruct (run_out_in _ _ _ _ _ _ _ _ _ Ht HJ HF R HI) as (p & Hp & A & -> & ->).
  exists p. split; [exact Hp|]. split; [reflexivity|].
  unfold info_of; cbn [m_id m_ssys m_scomp m_tsys m_tcomp].
  assert (N : forall o, nth o (p_payload p) 0 = if (o <? length (p_payload p))%nat then nth o (p_payload p) 0 else 0).
  { intros o. destruct (Nat.ltb_spec o (length (p_payload p))); auto. apply nth_overflow; auto. }
  repeat split.
  - intros o e Et Eo. rewrite Et. cbn [option_map]. unfold target_spec. rewrite Eo. apply N.
  - intros o e Et Eo. rewrite Et. cbn [option_map]. unfold target_spec. rewrite Eo. apply N.
  - intros [-> | (e & -> & He)]; cbn [option_map]; unfold target_spec; try rewrite He; reflexivity.
  - intros [-> | (e & -> & He)]; cbn [option_map]; unfold target_spec; try rewrite He; reflexivity.
Qed.

Example C08_nonvacuous :
  match link_run ex_tbl (rx_fresh ex_junk) rstat0 [encode (ex_cmd 2) ++ encode (ex_unknown 4)] with
  | Ok (_, _, out, _) => map (fun o => (m_tsys (snd o), m_tcomp (snd o))) out = [(1, 0); (-1, -1)]
  | _ => False end.
Proof. vm_compute. reflexivity. Qed.

(* C09. Statistics of a link: handled/error counters count exactly the acceptable/unacceptable packets of the
   processed part of the stream, byte counters their sizes, and total = handled + errors + losses (mod 2^32). *)
Theorem C09_statistics : forall tbl junk evs,
  wf_table tbl -> length junk = RXMAX -> Forall bytes evs ->
  exists x st out took done pend r,
    link_run tbl (rx_fresh junk) rstat0 evs = Ok (x, st, out, took) /\
    segments took (done ++ pend) r /\
    let good := filter (acceptableb tbl) done in
    let bad := filter (fun p => negb (acceptableb tbl p)) done in
    s_total st = u32 (s_handled st + s_crc_err st + s_drop st) /\
    u32 (s_handled st) = u32 (Z.of_nat (length out)) /\
    u32 (s_crc_err st) = u32 (Z.of_nat (length bad)) /\
    u64 (s_handled_bytes st) = u64 (sum_len good) /\
    u64 (s_crc_err_bytes st) = u64 (sum_len bad).
Proof.
  intros tbl junk evs Ht HJ HF.
  destruct (link_history tbl junk evs Ht HJ HF) as (x & st & out & took & d & p & r & E & S & O & ST & _).
  exists x, st, out, took, d, p, r. split; auto. split; auto. cbn zeta.
  destruct (stats_after_counts tbl d rstat0) as (I1 & I2 & I3 & I4 & I5); [reflexivity|].
  rewrite <- ST in *. repeat split; auto. rewrite I2, O. unfold views. rewrite map_length. reflexivity.
Qed.

Example C09_nonvacuous :
  match link_run ex_tbl (rx_fresh ex_junk) rstat0
    [encode (ex_hb 1) ++ encode (ex_hb 4) ++ encode (ex_bad 0) ++ encode (ex_unknown 4); []] with
  | Ok (_, st, _, _) => s_total st = 260 /\ s_handled st = 3 /\ s_crc_err st = 1 /\ s_drop st = 256
  | _ => False end.
Proof. vm_compute. repeat split. Qed.

(* C10. Refuted: 254 then 0 means packet 255 was lost, but no loss is counted. *)
Theorem C10_losses_refuted : exists tbl p q,
  wf_table tbl /\ Forall wf_packet [p; q] /\ Forall (acceptable tbl) [p; q] /\
  lost_total (map p_seq [p; q]) = 1 /\
  exists x st out, link_run tbl (rx_fresh ex_junk) rstat0 [encode p ++ encode q]
                     = Ok (x, st, out, encode p ++ encode q) /\ s_drop st = 0.
Proof.
  exists ex_tbl, (ex_hb 254), (ex_hb 0). split; [apply ex_tbl_wf|]. split.
  { repeat apply Forall_cons; try apply Forall_nil; wfp. }
  split; [repeat constructor; vm_compute; reflexivity|]. split; [reflexivity|].
  vm_compute. do 3 eexists. split; reflexivity.
Qed.

(* Every gap that runs over 255 is under-counted by exactly one. *)
Theorem C10_wrap_undercounts : forall st n a q, is_byte a -> is_byte q -> s_eseq st = u8 (a + 1) ->
  1 <= s_total st < 4294967295 -> q < (a + 1) mod 256 ->
  s_drop (stat_ok st n q) = u32 (s_drop st + (lost_between a q - 1)).
Proof. intros. apply stat_ok_wrap; auto. unfold no_wrap. lia. Qed.

(* What holds: without checksum errors, without a gap across 255 and below 2^32 messages the count is exact. *)
Theorem C10_losses_partial : forall tbl junk ps evs,
  wf_table tbl -> length junk = RXMAX ->
  Forall wf_packet ps -> Forall (acceptable tbl) ps ->
  Forall bytes evs -> Forall (fun e => (length e <= 840)%nat) evs ->
  concat evs = concat (map encode ps) ->
  Z.of_nat (length ps) + lost_total (map p_seq ps) < 4294967296 ->
  all_no_wrap (map p_seq ps) ->
  exists x st out took,
    link_run tbl (rx_fresh junk) rstat0 evs = Ok (x, st, out, took) /\
    s_drop st = lost_total (map p_seq ps).
Proof.
  intros tbl junk ps evs Ht HJ HW HA HB HL HC Hb Hn.
  destruct (valid_traffic_run tbl Ht evs (rx_fresh junk) [] rstat0 (good_fresh junk HJ) eq_refl HB HL ps [])
    as (x & s & st & out & E & _ & _ & O & ST); auto.
  { cbn [app]. rewrite HC. apply segments_concat; auto. }
  exists x, st, out, (concat evs). split; auto. rewrite ST. apply losses_counted; auto.
Qed.

Example C10_nonvacuous :
  all_no_wrap (map p_seq [ex_hb 3; ex_hb 9; ex_hb 255; ex_hb 0; ex_hb 2]) /\
  lost_total (map p_seq [ex_hb 3; ex_hb 9; ex_hb 255; ex_hb 0; ex_hb 2]) = 251.
Proof. vm_compute. repeat split; discriminate. Qed.

Print Assumptions C01_exact_slices.
Print Assumptions C01_segmentation_unique.
Print Assumptions C01_bytes_taken.
Print Assumptions C02_chunking_independent.
Print Assumptions C02_eventually_all.
Print Assumptions C03_roundtrip.
Print Assumptions C04_gate_only_if.
Print Assumptions C04_gate_if.
Print Assumptions C04_checksum_is_crc16.
Print Assumptions C05_short_bursts_caught.
Print Assumptions C05_checksum_field_damage_caught.
Print Assumptions C05_damaged_id_refuted.
Print Assumptions C06_never_out_of_bounds.
Print Assumptions C06_always_room.
Print Assumptions C07_immediate_refuted.
Print Assumptions C07_immediate_partial.
Print Assumptions C08_targets.
Print Assumptions C09_statistics.
Print Assumptions C10_losses_refuted.
Print Assumptions C10_wrap_undercounts.
Print Assumptions C10_losses_partial.
