(* C81, C33: every run receives exactly the packets in the data that arrived, link by link, also across reconnections. *)
From Verif Require Import Base Mav SpecCrc SpecFrame Frame FrameProofs FrameRefine FrameLink Dedup SpecAccept Accept AcceptProofs Names NamesProofs Sys LogFile LogFileProofs ULog Loggers LogInv LogStep LogMono RouterCtl Router
  RouterRoute RouterRoute2 RouterSetup RouterActs RouterInv RouterLearn RouterStep RouterStart RouterHist SpecRouter SpecLife RouterTrace RouterLife RouterLife2 RouterLife3 RouterTimers RouterTimers2 RouterLife5 RouterStays SpecEnd RouterBytes SpecLink RouterFrame
  RouterEnd RouterEnd2 Prop_Router5 ExFrame ExRouter.


Lemma reads_datas : forall h k, reads h k = datas (levs h k).
Proof. induction h as [|x h IH]; intros k; auto. unfold reads, levs in *. cbn [flat_map]. unfold datas in *. rewrite flat_map_app, <- IH. f_equal.
  destruct x as [i [bs a| |]| | | | |]; try reflexivity; destruct (Nat.eqb _ _); reflexivity. Qed.
Lemma got_packets : forall h k, got h k = packets (levs h k).
Proof. induction h as [|x h IH]; intros k; auto. unfold got, levs in *. cbn [flat_map]. unfold packets in *. rewrite flat_map_app, <- IH. f_equal.
  destruct x as [i [bs a| |]| | | | |]; try reflexivity; destruct (Nat.eqb _ _); reflexivity. Qed.

(* [seen c bs]: of the data bs a read offers, c is looked at: all of it, unless the read offers more than 840 bytes at once, of which
   at least the first 840 are *)
Definition seen (c bs : list Z) : Prop := exists n, (840 <= n)%nat /\ c = firstn n bs.
Lemma seen_all : forall c bs, seen c bs -> (length bs <= 840)%nat -> c = bs.
Proof. intros c bs (n & N & ->) L. apply firstn_all2. lia. Qed.
Lemma seen_alls : forall cs ds, Forall2 seen cs ds -> Forall (fun bs => (length bs <= 840)%nat) ds -> cs = ds.
Proof. intros cs ds F. induction F; intros G; auto. inversion G; subst. f_equal; auto. apply seen_all; auto. Qed.
Lemma chunks_seen : forall cs ds, Forall2 chunk_of cs ds -> Forall2 seen cs ds.
Proof. intros cs ds F. induction F as [|c d cs ds (n & A & B) F IH]; constructor; auto. exists n. auto. Qed.

Lemma act_bytes_read : forall f v w its w' i o, wf_table (v_tbl v) -> act f v w its w' -> Inv w -> In (IRead i o) its -> wf_read o.
Proof.
  intros f v w its w' i o WT A I X. destruct (act_shape _ _ _ _ _ WT A I) as [SH _]. destruct its as [|x r]; [destruct X|].
  destruct X as [->|X]. 2:{ destruct (SH _ _ _ eq_refl X) as [(? & ? & ? & ? & Q)|(? & Q)]; discriminate. } inversion A; subst; auto.
  - exfalso. match goal with Y : handle_msg _ _ _ _ _ = _ |- _ => destruct (handle_inv _ _ _ _ _ _ _ Y) as (? & ? & ? & ? & _ & _ & _ & CC) end.
    destruct CC as [(_ & _ & X)|[(_ & _ & _ & X)|(_ & _ & ? & ? & ? & ? & ? & ? & ? & _ & _ & _ & _ & _ & X)]]; clear - X; discriminate.
  - exfalso. match goal with X : snd (tcp_connection _ _) = _ |- _ => rename X into H1 end. clear - H1. revert H1. unfold tcp_connection. destruct (ask v (w_sys w)) as [q y]. destruct (q <? 0); [discriminate|]. destruct (ask_bytes RXMAX v y), (add_fd v _ _). discriminate.
  - exfalso. match goal with X : timer_read _ _ _ _ _ = _ |- _ => rename X into H end. unfold timer_read in H. destruct (find_timer (w_sys w) t) as [tm|]; [|discriminate]. destruct (negb fired || tm_dead tm). { discriminate. } inv_bind H. inv_bind H. discriminate.
  - exfalso. match goal with X : process_hangups _ = _ |- _ => rename X into H end. unfold process_hangups in H. destruct (w_hang w); [|discriminate]. inv_bind H. inversion H; subst; clear H. destruct (hangups_spec _ _ _ _ _ E (inv_sym _ I)) as (_ & _ & _ & D & _).
    destruct (filter _ _); discriminate.
Qed.
Lemma reads_bytes : forall f v c its w k, wf_table (v_tbl v) -> runs f v c its w -> Forall bytes (reads its k).
Proof.
  intros f v c its w k WT R. assert (X : forall i o, In (IRead i o) its -> wf_read o).
  { revert its w R. apply (runs_ind f v c (fun h w => forall i o, In (IRead i o) h -> wf_read o) WT); [intros ? ? ? _ ? ? []|].
    intros h w0 i1 w1 I IH A i o X. apply in_app_or in X. destruct X as [X|X]; eauto. eapply act_bytes_read; eauto. }
  apply Forall_forall. intros bs B. unfold reads in B. apply in_flat_map in B. destruct B as (x & XI & B). destruct x as [i [d a| |]| | | | |]; try destruct B.
  destruct (Nat.eqb i k); [|destruct B]. destruct B as [<-|[]]. apply (X _ _ XI).
Qed.
Lemma seen_bytes : forall cs ds, Forall2 seen cs ds -> Forall bytes ds -> bytes (concat cs).
Proof.
  intros cs ds F. induction F as [|c d cs ds (n & N & E) F IH]; intros B; [constructor|]. inversion B; subst. cbn [concat]. apply bytes_app. split; auto. apply bytes_firstn. auto.
Qed.

Lemma link_runs : forall f v c its w k, wf_table (v_tbl v) -> ~ ulog_configured c -> runs f v c its w ->
  exists ps r, framing (v_tbl v) [] (levs its k) ps r /\ bytes r /\
  (forall e, lookup w k = Some e -> ep_rstat e = stats_after (v_tbl v) rstat0 ps /\
     (segments r [] r \/ is_tcp e = true \/ after_bad (v_tbl v) ps)).
Proof.
  intros f v c its w k WT NC R. destruct (framed_runs _ _ _ _ _ WT NC R) as [FN FE FG FB].
  destruct (lookup w k) as [e|] eqn:L.
  - destruct (FE _ _ L) as (s & l & ps & A & G & F & ST & B). cbn [unread map] in A. rewrite app_nil_r in A. subst l.
    exists ps, (rest_of (ep_rx e) s). split; auto. split. { apply bytes_skipn. apply G. } intros e0 X. injection X as <-. split; auto.
    destruct (Nat.eq_dec (rx_last (ep_rx e)) 0) as [Z|Z].
    + left. unfold rest_of. rewrite Z. cbn [skipn]. eapply idle_segments; eauto.
    + right. destruct (B Z) as [[]|X]; auto.
  - destruct (FG _ L) as (ps & r & F & B). exists ps, r. split; auto. split; auto. discriminate.
Qed.

(* the events of a link as the data looked at and the packets received *)
Lemma framing_segments : forall tbl s l ps r, framing tbl s l ps r -> bytes r -> exists chunks pend t,
  Forall2 seen chunks (datas l) /\ segments (s ++ concat chunks) (ps ++ pend) t /\ packets l = map encode (filter (acceptableb tbl) ps) /\ (segments r [] r -> pend = []).
Proof.
  intros tbl s l ps r F B. destruct (framing_parsed _ _ _ _ _ F) as (chunks & C & P & G). destruct (segments_exist r B) as (pend & t & S).
  exists chunks, pend, t. split; [apply chunks_seen; auto|]. split; [eapply parsed_segments; eauto|]. split; auto.
  intros X. destruct (segments_unique _ _ _ S _ _ X). auto.
Qed.

(* C81.  Whatever the configuration (without the ULog logger), the schedule and the data: on every link, the packets received are the
   acceptable ones among the packets in the data read from it, in order, each once; the link's statistics are those of the packets
   seen; and packets that are complete but have not been looked at (pend) remain only on TCP connections or behind a packet with a
   wrong checksum. *)
Theorem C81_received_partial : forall f v c its w k, wf_table (v_tbl v) -> ~ ulog_configured c -> runs f v c its w ->
  exists chunks done pend rest, Forall2 seen chunks (reads its k) /\ segments (concat chunks) (done ++ pend) rest /\
    got its k = map encode (filter (acceptableb (v_tbl v)) done) /\
    (forall e, lookup w k = Some e -> ep_rstat e = stats_after (v_tbl v) rstat0 done /\
       (pend <> [] -> is_tcp e = true \/ exists d p, done = d ++ [p] /\ ~ acceptable (v_tbl v) p)).
Proof.
  intros f v c its w k WT NC R. destruct (link_runs f v c its w k WT NC R) as (ps & r & F & B & E).
  destruct (framing_segments _ _ _ _ _ F B) as (chunks & pend & t & C & S & G & N). exists chunks, ps, pend, t.
  rewrite reads_datas, got_packets. split; auto. split; auto. split; auto. intros e L. destruct (E e L) as (ST & X). split; auto.
  intros NE. destruct X as [X|[X|X]]; auto.
Qed.

(* a packet is received only when all of it has arrived: every prefix of the history is framed by itself *)
Theorem C81_never_early_partial : forall f v c its w k h h', wf_table (v_tbl v) -> ~ ulog_configured c -> runs f v c its w -> its = h ++ h' ->
  exists chunks done pend rest, Forall2 seen chunks (reads h k) /\ segments (concat chunks) (done ++ pend) rest /\
    got h k = map encode (filter (acceptableb (v_tbl v)) done).
Proof.
  intros f v c its w k h h' WT NC R ->. destruct (link_runs f v c _ w k WT NC R) as (ps & r & F & B & _).
  rewrite levs_app in F. destruct (framing_split _ _ _ _ _ F _ _ eq_refl) as (u & ps1 & ps2 & -> & F1 & F2).
  assert (BU : bytes u).
  { destruct (framing_parsed _ _ _ _ _ F1) as (chunks & C & P & _). eapply parsed_bytes; [exact P|]. cbn [app]. eapply seen_bytes; [apply chunks_seen; eauto|].
    rewrite <- reads_datas. pose proof (reads_bytes f v c _ w k WT R) as RB. unfold reads in *. rewrite flat_map_app in RB. apply Forall_app in RB. apply RB. }
  destruct (framing_segments _ _ _ _ _ F1 BU) as (chunks & pend & t & C & S & G & N). exists chunks, ps1, pend, t. rewrite reads_datas, got_packets. auto.
Qed.

(* valid traffic in reads of at most 840 bytes on anything but TCP: everything is received at once *)
Theorem C81_valid_traffic_partial : forall f v c its w k e ps rest, wf_table (v_tbl v) -> ~ ulog_configured c -> runs f v c its w ->
  lookup w k = Some e -> is_tcp e = false -> Forall (fun bs => (length bs <= 840)%nat) (reads its k) ->
  segments (concat (reads its k)) ps rest -> Forall (acceptable (v_tbl v)) ps -> got its k = map encode ps.
Proof.
  intros f v c its w k e ps rest WT NC R L T SH S AC. destruct (C81_received_partial f v c its w k WT NC R) as (chunks & done & pend & t & C & S' & G & E).
  rewrite (seen_alls _ _ C SH) in S'. destruct (segments_unique _ _ _ S _ _ S') as [-> _]. apply Forall_app in AC. destruct AC as [A1 A2].
  destruct (E e L) as [_ X]. assert (PN : pend = []).
  { destruct pend as [|q pend]; auto. destruct X as [X|(d & p & -> & NA)]; [discriminate|congruence|]. apply Forall_app in A1. destruct A1 as [_ A1]. inversion A1; subst. contradiction. }
  subst pend. rewrite app_nil_r, G. f_equal. clear - A1. induction A1; cbn [filter]; auto. apply acceptableb_true in H. rewrite H, IHA1. auto.
Qed.

(* ---- C33 --------------------------------------------------------------------------------------------------------------- *)

Lemma segments_app : forall u qs, forall t, segments u qs t -> t = [] -> forall s ps r, segments s ps r -> segments (u ++ s) (qs ++ ps) r.
Proof.
  induction 1; intros T s0 ps0 r0 S; cbn [app]; auto; [contradiction|apply seg_skip; auto|]. rewrite <- app_assoc. apply seg_packet; auto.
Qed.

(* What holds: what a link receives after any point of the history, for instance after a reconnection, depends only on the data
   arriving then and on bytes of the unfinished part before (u).  *)
Theorem C33_continues_partial : forall f v c its w k pre post, wf_table (v_tbl v) -> ~ ulog_configured c -> runs f v c its w -> its = pre ++ post ->
  exists before after old u new pend t, Forall2 seen before (reads pre k) /\ Forall2 seen after (reads post k) /\
    got pre k = map encode (filter (acceptableb (v_tbl v)) old) /\ got post k = map encode (filter (acceptableb (v_tbl v)) new) /\
    parsed (concat before) old u /\ segments (u ++ concat after) (new ++ pend) t.
Proof.
  intros f v c its w k pre post WT NC R ->. destruct (link_runs f v c _ w k WT NC R) as (ps & r & F & B & _).
  rewrite levs_app in F. destruct (framing_split _ _ _ _ _ F _ _ eq_refl) as (u & ps1 & ps2 & -> & F1 & F2).
  destruct (framing_parsed _ _ _ _ _ F1) as (before & C1 & P1 & G1). destruct (framing_segments _ _ _ _ _ F2 B) as (after & pend & t & C2 & S2 & G2 & _).
  exists before, after, ps1, u, ps2, pend, t. rewrite !reads_datas, !got_packets. split; [apply chunks_seen; auto|]. auto.
Qed.

(* When the old connection ended between two packets and everything it brought was looked at, the new one is framed by itself. *)
Theorem C33_clean_partial : forall f v c its w k pre post qs, wf_table (v_tbl v) -> ~ ulog_configured c -> runs f v c its w -> its = pre ++ post ->
  Forall (fun bs => (length bs <= 840)%nat) (reads pre k) -> segments (concat (reads pre k)) qs [] -> got pre k = map encode (filter (acceptableb (v_tbl v)) qs) ->
  exists chunks done pend rest, Forall2 seen chunks (reads post k) /\ segments (concat chunks) (done ++ pend) rest /\
    got post k = map encode (filter (acceptableb (v_tbl v)) done).
Proof.
  intros f v c its w k pre post qs WT NC R SP SH SQ GQ.
  destruct (C33_continues_partial f v c its w k pre post WT NC R SP) as (before & after & old & u & new & pend & t & C1 & C2 & G1 & G2 & P & S).
  rewrite (seen_alls _ _ C1 SH) in P.
  pose proof (reads_bytes f v c its w k WT R) as RB. rewrite SP in RB. unfold reads in RB. rewrite flat_map_app in RB. apply Forall_app in RB. destruct RB as [RB1 RB2].
  fold (reads pre k) in RB1. fold (reads post k) in RB2.
  assert (BU : bytes u). { eapply parsed_bytes; [exact P|]. clear - RB1. induction RB1; cbn [concat]; [constructor|]. apply bytes_app. auto. }
  destruct (segments_exist u BU) as (bad & t0 & SU). pose proof (parsed_segments _ _ _ P _ _ SU) as SA.
  destruct (segments_unique _ _ _ SQ _ _ SA) as [-> <-].
  assert (NB : filter (acceptableb (v_tbl v)) bad = []).
  { rewrite G1, filter_app, map_app in GQ. rewrite <- (app_nil_r (map encode (filter _ old))) in GQ at 1. apply app_inv_head in GQ. destruct (filter _ bad); [auto|discriminate]. }
  assert (BA : bytes (concat after)) by (eapply seen_bytes; eauto). destruct (segments_exist _ BA) as (qs & r & SB).
  pose proof (segments_app _ _ _ SU eq_refl _ _ _ SB) as SC. destruct (segments_unique _ _ _ S _ _ SC) as [E _].
  exists after. destruct (app_eq_app _ _ _ _ E) as (m & [(-> & ->)|(-> & ->)]).
  - (* new = bad ++ m *) exists m, pend, r. split; auto. split; auto. rewrite G2, filter_app, NB. reflexivity.
  - (* bad = new ++ m *) exists [], qs, r. split; auto. split; auto. rewrite G2. rewrite filter_app in NB. apply app_eq_nil in NB. destruct NB as [-> _]. reflexivity.
Qed.

(* ---- refuted with the ULog logger ----------------------------------------------------------------------------------------- *)

Definition lk_ulog : config := mkCf [] [mkEc (CUdp true 8 14551) true no_filters []] [] 0 (Some (mkLc DCommon 0 0 MAlways 1 false)) 0 false 0.
Definition lk_data : packet :=
  seal 193 (mkPacket (V2 0 0 []) 0 1 1 266 ([0; 0; 0; 0; 255; 16] ++ [85; 76; 111; 103; 1; 18; 53] ++ [1; 2; 3; 4; 5; 6; 7; 8; 9] ++ [3; 0; 65; 7; 8; 9] ++ repeat 1 227) 0 0).
(* Three valid packets; the second asks the ULog logger, which it reaches in the receive buffer, to move 255 bytes inside a field of
   249: the beginning of the third, behind it in the buffer, is overwritten and the packet is never received. *)
Theorem C81_ulog_refuted : exists f v c its w k ps e, wf_table (v_tbl v) /\ runs f v c its w /\ lookup w k = Some e /\ is_tcp e = false /\
  Forall (fun bs => (length bs <= 840)%nat) (reads its k) /\ segments (concat (reads its k)) ps [] /\ Forall (acceptable (v_tbl v)) ps /\
  length ps = 3%nat /\ length (got its k) = 2%nat.
Proof.
  destruct (view_runs _ (fun w its => (reads its 0, length (got its 0), match lookup w 0 with Some e => Some (is_tcp e) | None => None end)) 
    ([encode (rx_hb 1 1 0); encode lk_data ++ encode (rx_hb 1 1 1)], 2%nat, Some false)
    20 (rx_env []) (Some []) lk_ulog [[rx_from 0 (5, 1000) (rx_hb 1 1 0)]; [EEp 0 (Some (OsData (encode lk_data ++ encode (rx_hb 1 1 1)) (5, 1000))) false false]]) as (w & its & R & X). { vm_compute. reflexivity. }
  destruct (lookup w 0) as [e|] eqn:L; [|discriminate X]. injection X as X1 X2 X3.
  exists 20%nat, (rx_env []), lk_ulog, its, w, 0%nat, [rx_hb 1 1 0; lk_data; rx_hb 1 1 1], e. rewrite X1, X2.
  split; [apply rx_tbl_wf|]. split; auto. split; auto. split; auto. 
  split. { repeat constructor; apply Nat.leb_le; vm_compute; reflexivity. }
  split. { replace (concat _) with (concat (map encode [rx_hb 1 1 0; lk_data; rx_hb 1 1 1])) by (cbn [concat map]; rewrite !app_nil_r; reflexivity).
    apply segments_concat. repeat (apply Forall_cons; [apply wf_packetb_ok; vm_compute; reflexivity|]). apply Forall_nil. }
  split. { repeat (apply Forall_cons; [vm_compute; reflexivity|]). apply Forall_nil. } split; reflexivity.
Qed.

(* ---- examples --------------------------------------------------------------------------------------------------------------- *)

(* a damaged packet, noise, packets in pieces, a burst of two; a UART and a UDP server *)
Definition lk_conf : config := mkCf [] [mkEc (CUdp true 8 14551) true no_filters []; mkEc (CUdp true 8 14552) true no_filters []] [] 0 None 0 false 0.
Definition lk_bad : packet := mkPacket (V2 0 0 []) 7 1 1 0 [0; 0; 0; 0; 2; 3; 81; 4; 3] 1 1.
Definition lk_on (i : nat) (bs : list Z) : event := EEp i (Some (OsData bs (5, 1000))) false false.
Definition lk_events : list (list event) :=
  [[lk_on 0 (1 :: 2 :: firstn 9 (encode (rx_hb 1 1 0))); lk_on 1 (encode (rx_hb 2 1 0) ++ encode (rx_hb 2 1 1))];
   [lk_on 0 (skipn 9 (encode (rx_hb 1 1 0)) ++ encode lk_bad ++ encode (rx_hb 1 1 1))]; [lk_on 0 (encode (rx_hb 1 1 2) ++ [253; 9])]].
Example C81_nonvacuous : exists w its e, runs 20 (rx_env []) lk_conf its w /\ ~ ulog_configured lk_conf /\ wf_table (v_tbl (rx_env [])) /\ lookup w 0 = Some e /\
  got its 0 = map encode [rx_hb 1 1 0; rx_hb 1 1 1] /\ s_crc_err (ep_rstat e) = 1 /\ got its 1 = map encode [rx_hb 2 1 0; rx_hb 2 1 1].
Proof.
  destruct (view_runs _ (fun w its => (got its 0, got its 1, match lookup w 0 with Some e => Some (s_crc_err (ep_rstat e)) | None => None end)) 
    (map encode [rx_hb 1 1 0; rx_hb 1 1 1], map encode [rx_hb 2 1 0; rx_hb 2 1 1], Some 1)
    20 (rx_env []) (Some []) lk_conf lk_events) as (w & its & R & X). { vm_compute. reflexivity. }
  destruct (lookup w 0) as [e|] eqn:L; [|discriminate X]. injection X as X1 X2 X3. exists w, its, e.
  split; auto. split. { intros (lc & X & _). discriminate X. } split; [apply rx_tbl_wf|]. auto.
Qed.

(* a connection that ends between two packets *)
Lemma nth_parts : forall A n (l : list A) x, nth_error l n = Some x -> l = firstn n l ++ x :: skipn (Datatypes.S n) l.
Proof. induction n; intros [|y l] x H; try discriminate; cbn in *. { congruence. } f_equal. auto. Qed.
Example C33_nonvacuous : exists w its pre post t, runs 20 (rx_env []) re_conf its w /\ ~ ulog_configured re_conf /\ its = pre ++ IFire t (CbRetry 0) :: post /\
  ended pre 0 = true /\ reads pre 0 = [encode (rx_hb 1 1 0); []] /\ got pre 0 = [encode (rx_hb 1 1 0)] /\ got post 0 = [encode (rx_hb 1 1 1)].
Proof.
  destruct (view_runs _ (fun w its => (nth_error its 3, ended (firstn 3 its) 0, reads (firstn 3 its) 0, got (firstn 3 its) 0, got (skipn 4 its) 0)) 
    (Some (IFire 1 (CbRetry 0)), true, [encode (rx_hb 1 1 0); []], [encode (rx_hb 1 1 0)], [encode (rx_hb 1 1 1)])
    20 (rx_env []) (Some []) re_conf ([rx_from 0 (0,0) (rx_hb 1 1 0)] :: tl re_events)) as (w & its & R & X). { vm_compute. reflexivity. }
  injection X as X1 X2 X3 X4 X5. exists w, its, (firstn 3 its), (skipn 4 its), 1%nat. split; auto. split. { intros (lc & X & _). discriminate X. }
  split; [apply nth_parts; auto|]. auto.
Qed.

Print Assumptions C81_received_partial.
Print Assumptions C81_never_early_partial.
Print Assumptions C81_valid_traffic_partial.
Print Assumptions C81_ulog_refuted.
Print Assumptions C33_continues_partial.
Print Assumptions C33_clean_partial.
