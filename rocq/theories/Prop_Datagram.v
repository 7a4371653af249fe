(* C106: datagrams are framed one by one, as long as none of them is cut or too long. *)
From Verif Require Import Base Mav SpecCrc SpecFrame Frame FrameProofs FrameRefine FrameLink Dedup SpecAccept Accept AcceptProofs Names NamesProofs Sys LogFile LogFileProofs ULog Loggers LogInv LogStep LogMono RouterCtl Router
  RouterRoute RouterRoute2 RouterSetup RouterActs RouterInv RouterLearn RouterStep RouterStart RouterHist SpecRouter SpecLife RouterTrace RouterLife RouterLife2 RouterLife3 RouterTimers RouterTimers2 RouterLife5 RouterStays SpecEnd RouterBytes SpecLink RouterFrame
  RouterEnd RouterEnd2 Prop_Router5 ExFrame ExRouter Prop_Link.

(* [complete d ps]: the datagram d holds the packets ps, all of each, and at most 1120 bytes.  (Bytes that are no start marker
   may stand between them.) *)
Definition complete (d : list Z) (ps : list packet) : Prop := segments d ps [] /\ (length d <= 1120)%nat.

Lemma framing_complete : forall tbl s l ps r, framing tbl s l ps r -> forall q0 qss, bytes s -> Forall bytes (datas l) -> segments s q0 [] -> Forall2 complete (datas l) qss ->
  exists pend, q0 ++ concat qss = ps ++ pend /\ segments r pend [].
Proof.
  induction 1 as [s|s bs n l ps r N ID F IH|b s l ps r M F IH|p s l ps r W NA F IH|p s l ps r W AC F IH]; intros q0 qss BS BD SE C.
  - inversion C; subst. exists q0. cbn [concat app]. rewrite app_nil_r. auto.
  - cbn [datas flat_map app] in BD, C. fold (datas l) in BD, C. inversion BD as [|? ? B1 B2]; subst. inversion C as [|? q ? qss' (C1 & C2) C3]; subst. destruct bs as [|b bs].
    + assert (q = []). { destruct (segments_unique _ _ _ seg_end _ _ C1). auto. } subst q. rewrite firstn_nil, app_nil_r in IH. apply (IH q0 qss'); auto.
    + destruct (ID ltac:(discriminate)) as (S0 & R). destruct (segments_unique _ _ _ S0 _ _ SE) as [<- ->]. assert (LN : (length (b :: bs) <= n)%nat) by (change (length (@nil Z)) with 0%nat in R; lia). cbn [app] in IH. rewrite (firstn_all2 _ LN) in IH. apply (IH q qss'); auto.
  - inversion BS; subst. destruct (segments_exist s) as (q & t & S); auto. destruct (segments_unique _ _ _ (seg_skip _ _ _ _ M S) _ _ SE) as [-> ->]. auto.
  - apply bytes_app in BS. destruct BS as [_ BS]. destruct (segments_exist s BS) as (q & t & S). destruct (segments_unique _ _ _ (seg_packet _ _ _ _ W S) _ _ SE) as [<- ->].
    destruct (IH q qss BS BD S C) as (pend & E & R). exists pend. split; auto. cbn [app]. congruence.
  - apply bytes_app in BS. destruct BS as [_ BS]. destruct (segments_exist s BS) as (q & t & S). destruct (segments_unique _ _ _ (seg_packet _ _ _ _ W S) _ _ SE) as [<- ->].
    destruct (IH q qss BS BD S C) as (pend & E & R). exists pend. split; auto. cbn [app]. congruence.
Qed.

(* If every datagram that arrived at an endpoint holds whole packets, the packets received are the acceptable ones of each datagram by
   itself, one datagram after the other; only behind a packet with a wrong checksum some may not have been looked at yet. Whatever
   datagrams were lost before they arrived and in which order they came makes no difference to the others. *)
Theorem C106_apart_partial : forall f v c its w k qss, wf_table (v_tbl v) -> ~ ulog_configured c -> runs f v c its w -> Forall2 complete (reads its k) qss ->
  exists done pend, concat qss = done ++ pend /\ got its k = map encode (filter (acceptableb (v_tbl v)) done) /\
    forall e, lookup w k = Some e -> is_tcp e = false -> pend <> [] -> exists d p, done = d ++ [p] /\ ~ acceptable (v_tbl v) p.
Proof.
  intros f v c its w k qss WT NC R C. destruct (link_runs f v c its w k WT NC R) as (ps & r & F & B & E). pose proof (reads_bytes f v c its w k WT R) as RB.
  rewrite reads_datas in C, RB. destruct (framing_complete _ _ _ _ _ F [] qss (Forall_nil _) RB seg_end C) as (pend & EQ & S). cbn [app] in EQ.
  destruct (framing_parsed _ _ _ _ _ F) as (ch & _ & _ & G). exists ps, pend. rewrite got_packets. split; auto. split; auto.
  intros e L T NE. destruct (E e L) as (_ & [X|[X|X]]); auto; [|congruence]. destruct (segments_unique _ _ _ S _ _ X). contradiction.
Qed.

(* with valid packets only, all of them are received before anything else arrives *)
Theorem C106_valid_partial : forall f v c its w k e qss, wf_table (v_tbl v) -> ~ ulog_configured c -> runs f v c its w -> lookup w k = Some e -> is_tcp e = false ->
  Forall2 complete (reads its k) qss -> Forall (Forall (acceptable (v_tbl v))) qss -> got its k = map encode (concat qss).
Proof.
  intros f v c its w k e qss WT NC R L T C A. destruct (C106_apart_partial f v c its w k qss WT NC R C) as (done & pend & E & G & P).
  assert (AA : Forall (acceptable (v_tbl v)) (done ++ pend)). { rewrite <- E. clear - A. induction A; cbn [concat]; [constructor|]. apply Forall_app. auto. }
  apply Forall_app in AA. destruct AA as [A1 A2]. assert (PN : pend = []).
  { destruct pend as [|q pend]; auto. destruct (P e L T ltac:(discriminate)) as (d & p & -> & NA). apply Forall_app in A1. destruct A1 as [_ A1]. inversion A1; subst. contradiction. }
  subst pend. rewrite G, E, app_nil_r. f_equal. clear - A1. induction A1; cbn [filter]; auto. apply acceptableb_true in H. rewrite H, IHA1. auto.
Qed.

(* ---- refuted otherwise ------------------------------------------------------------------------------------------------- *)

Definition dgm_hbs (a n : nat) : list packet := map (fun k => rx_hb 1 1 (Z.of_nat k)) (seq a n).
(* One stray datagram of a single byte, then one heartbeat per datagram: the first fourteen are not received; instead a packet is that
   nobody sent and that lies in fifteen datagrams. *)
Theorem C106_stray_refuted : exists f v c its w k e ps, wf_table (v_tbl v) /\ ~ ulog_configured c /\ runs f v c its w /\ lookup w k = Some e /\ is_tcp e = false /\
  reads its k = [253] :: map encode ps /\ Forall wf_packet ps /\ Forall (acceptable (v_tbl v)) ps /\ length ps = 16%nat /\
  exists other, got its k = other :: map encode (skipn 14 ps) /\ (forall d, In d (reads its k) -> (length d < length other)%nat) /\ forall p, In p (firstn 14 ps) -> ~ In (encode p) (got its k).
Proof.
  destruct (view_runs _ (fun w its => (reads its 0, got its 0, match lookup w 0 with Some e => Some (is_tcp e) | None => None end))
    ([253] :: map encode (dgm_hbs 0 16), firstn 278 (253 :: concat (map encode (dgm_hbs 0 16))) :: map encode (skipn 14 (dgm_hbs 0 16)), Some false)
    60 (rx_env []) (Some []) lk_conf (map (fun d => [lk_on 0 d]) ([253] :: map encode (dgm_hbs 0 16)))) as (w & its & R & X). { vm_compute. reflexivity. }
  destruct (lookup w 0) as [e|] eqn:L; [|discriminate X]. pose proof (f_equal (fun t => fst (fst t)) X) as X1. pose proof (f_equal (fun t => snd (fst t)) X) as X2. pose proof (f_equal snd X) as X3. cbn [fst snd] in X1, X2, X3. injection X3 as X3.
  exists 60%nat, (rx_env []), lk_conf, its, w, 0%nat, e, (dgm_hbs 0 16). split; [apply rx_tbl_wf|]. split. { intros (lc & Y & _). discriminate Y. } split; auto. split; auto. split; auto. split; auto.
  split. { repeat (apply Forall_cons; [apply wf_packetb_ok; vm_compute; reflexivity|]). apply Forall_nil. } split. { repeat (apply Forall_cons; [vm_compute; reflexivity|]). apply Forall_nil. } split; [reflexivity|].
  exists (firstn 278 (253 :: concat (map encode (dgm_hbs 0 16)))). split; auto. rewrite X1, X2. split.
  - intros d D. apply Nat.ltb_lt. revert d D. apply Forall_forall. repeat (apply Forall_cons; [vm_compute; reflexivity|]). apply Forall_nil.
  - intros p I J. assert (Q : forallb (fun p => negb (existsb (beqs (encode p)) (firstn 278 (253 :: concat (map encode (dgm_hbs 0 16))) :: map encode (skipn 14 (dgm_hbs 0 16))))) (firstn 14 (dgm_hbs 0 16)) = true) by (vm_compute; reflexivity).
    rewrite forallb_forall in Q. specialize (Q p I). apply negb_true_iff in Q. assert (T : existsb (beqs (encode p)) (firstn 278 (253 :: concat (map encode (dgm_hbs 0 16))) :: map encode (skipn 14 (dgm_hbs 0 16))) = true); [|congruence].
    apply existsb_exists. exists (encode p). split; auto. apply beqs_refl.
Qed.

(* A datagram of 54 heartbeats, 14 bytes more than fit: the last one is not received, and neither is the only one in the next datagram;
   in its place a packet is received that is made of both. *)
Theorem C106_long_refuted : exists f v c its w k e ps p q, wf_table (v_tbl v) /\ ~ ulog_configured c /\ runs f v c its w /\ lookup w k = Some e /\ is_tcp e = false /\
  reads its k = [concat (map encode (ps ++ [p])); encode q] /\ Forall wf_packet (ps ++ [p; q]) /\ Forall (acceptable (v_tbl v)) (ps ++ [p; q]) /\ length (concat (map encode (ps ++ [p]))) = 1134%nat /\
  got its k = map encode ps ++ [firstn 7 (encode p) ++ firstn 14 (encode q)] /\ ~ In (encode p) (got its k) /\ ~ In (encode q) (got its k).
Proof.
  destruct (view_runs _ (fun w its => (reads its 0, got its 0, match lookup w 0 with Some e => Some (is_tcp e) | None => None end))
    ([concat (map encode (dgm_hbs 0 54)); encode (rx_hb 1 1 54)], map encode (dgm_hbs 0 53) ++ [firstn 7 (encode (rx_hb 1 1 53)) ++ firstn 14 (encode (rx_hb 1 1 54))], Some false)
    60 (rx_env []) (Some []) lk_conf (map (fun d => [lk_on 0 d]) [concat (map encode (dgm_hbs 0 54)); encode (rx_hb 1 1 54)])) as (w & its & R & X). { vm_compute. reflexivity. }
  destruct (lookup w 0) as [e|] eqn:L; [|discriminate X]. pose proof (f_equal (fun t => fst (fst t)) X) as X1. pose proof (f_equal (fun t => snd (fst t)) X) as X2. pose proof (f_equal snd X) as X3. cbn [fst snd] in X1, X2, X3. injection X3 as X3.
  exists 60%nat, (rx_env []), lk_conf, its, w, 0%nat, e, (dgm_hbs 0 53), (rx_hb 1 1 53), (rx_hb 1 1 54). split; [apply rx_tbl_wf|]. split. { intros (lc & Y & _). discriminate Y. } split; auto. split; auto. split; auto.
  split; [exact X1|]. split. { apply Forall_forall. intros p I. apply wf_packetb_ok. revert p I. apply forallb_forall. vm_compute. reflexivity. }
  split. { apply Forall_forall. intros p I. apply acceptableb_true. revert p I. apply forallb_forall. vm_compute. reflexivity. } split; [vm_compute; reflexivity|]. split; [exact X2|].
  assert (Q : forallb (fun p => negb (existsb (beqs (encode p)) (map encode (dgm_hbs 0 53) ++ [firstn 7 (encode (rx_hb 1 1 53)) ++ firstn 14 (encode (rx_hb 1 1 54))]))) [rx_hb 1 1 53; rx_hb 1 1 54] = true) by (vm_compute; reflexivity).
  rewrite X2. rewrite forallb_forall in Q.
  assert (QQ : forall p, In p [rx_hb 1 1 53; rx_hb 1 1 54] -> ~ In (encode p) (map encode (dgm_hbs 0 53) ++ [firstn 7 (encode (rx_hb 1 1 53)) ++ firstn 14 (encode (rx_hb 1 1 54))])).
  { intros p I J. specialize (Q p I). apply negb_true_iff in Q. rewrite (proj2 (existsb_exists _ _)) in Q; [discriminate Q|]. exists (encode p). split; auto. apply beqs_refl. }
  split; apply QQ; cbn [In]; auto.
Qed.

(* ---- example: a burst, a damaged packet, noise between packets, an empty datagram, 53 packets in 1113 bytes ----------------- *)

Definition dgm_data : list (list Z) := [encode (rx_hb 1 1 0) ++ encode (rx_hb 1 1 1); encode lk_bad; []; 7 :: encode (rx_hb 1 1 2) ++ [1; 2]; concat (map encode (dgm_hbs 3 53))].
Definition dgm_packets : list (list packet) := [[rx_hb 1 1 0; rx_hb 1 1 1]; [lk_bad]; []; [rx_hb 1 1 2]; dgm_hbs 3 53].
Example C106_nonvacuous : exists w its, runs 60 (rx_env []) lk_conf its w /\ ~ ulog_configured lk_conf /\ wf_table (v_tbl (rx_env [])) /\ reads its 0 = dgm_data /\ Forall2 complete dgm_data dgm_packets /\
  got its 0 = map encode (dgm_hbs 0 56).
Proof.
  destruct (view_runs _ (fun w its => (reads its 0, got its 0)) (dgm_data, map encode (dgm_hbs 0 56))
    60 (rx_env []) (Some []) lk_conf (map (fun d => [lk_on 0 d]) (firstn 2 dgm_data ++ [] :: skipn 2 dgm_data))) as (w & its & R & X). { vm_compute. reflexivity. }
  injection X as X1 X2. exists w, its. split; auto. split. { intros (lc & Y & _). discriminate Y. } split; [apply rx_tbl_wf|]. split; auto. split; auto.
  assert (W : forall l, forallb wf_packetb l = true -> Forall wf_packet l). { intros l H. apply Forall_forall. intros p I. apply wf_packetb_ok. revert p I. apply forallb_forall. exact H. }
  unfold dgm_data, dgm_packets. repeat apply Forall2_cons; try apply Forall2_nil; (split; [|apply Nat.leb_le; vm_compute; reflexivity]).
  - apply (segments_app _ [rx_hb 1 1 0] []); auto; rewrite <- (app_nil_r (encode _)); apply (segments_concat [_]); apply W; vm_compute; reflexivity.
  - rewrite <- (app_nil_r (encode _)). apply (segments_concat [_]). apply W. vm_compute. reflexivity.
  - apply seg_end.
  - apply seg_skip; [unfold marker; lia|]. apply seg_packet; [apply wf_packetb_ok; vm_compute; reflexivity|]. apply seg_skip; [unfold marker; lia|]. apply seg_skip; [unfold marker; lia|]. apply seg_end.
  - apply segments_concat. apply W. vm_compute. reflexivity.
Qed.

Print Assumptions C106_apart_partial.
Print Assumptions C106_valid_partial.
Print Assumptions C106_stray_refuted.
Print Assumptions C106_long_refuted.
Print Assumptions C106_nonvacuous.
