(* C12-C20 and C24: routing, over every configuration and every run of the router.  [runs f v c its w]: the program,
   started with configuration c, has done and received what its lists, and is in state w. *)
From Verif Require Import Base Mav SpecCrc SpecFrame Frame FrameProofs FrameRefine FrameLink Dedup SpecAccept Accept AcceptProofs Names Sys LogFile LogFileProofs ULog Loggers RouterCtl Router
  RouterRoute RouterRoute2 RouterSetup RouterActs RouterInv RouterLearn RouterStep RouterStart RouterHist SpecRouter RouterTrace RouterBytes RouterTarget ExFrame ExRouter.

(* ---- C17: who gets a message --------------------------------------------------------------------------- *)

(* every message that passed de-duplication and the incoming filters is handed to exactly the endpoints that want it
   at that moment, in order, once each; what they know is determined by what was received before *)
Theorem C17_delivered : forall f v c its w pre i bs m ds post, wf_table (v_tbl v) -> 0 <= cf_sniffer c < 256 ->
  runs f v c its w -> its = pre ++ IRecv i bs m Routed ds :: post ->
  delivered c (pre ++ [IRecv i bs m Routed ds]) m ds.
Proof.
  intros f v c its w pre i bs m ds post WT SN R E. destruct (trace_runs f v c its w WT R) as [_ T].
  destruct (T pre _ post m ds E ltac:(left; eauto)) as (A & _ & _ & B). apply B; auto.
  destruct A as [(? & ? & X & _)|(? & ? & _ & X)]; [discriminate|auto].
Qed.

(* and likewise a message sent by a logger; the configured system, if any, is a system id *)
Theorem C17_control : forall f v c its w pre i bs m ds post, wf_table (v_tbl v) -> 0 <= cf_sniffer c < 256 ->
  (forall lc, cf_log c = Some lc -> -1 <= lc_fcu lc < 256) -> runs f v c its w -> its = pre ++ ICtl i bs m ds :: post ->
  delivered c (pre ++ [ICtl i bs m ds]) m ds.
Proof.
  intros f v c its w pre i bs m ds post WT SN FC R E.
  assert (WM : wf_meta m) by (eapply (ctl_meta f v c its w WT FC R i bs m ds); subst its; apply in_or_app; right; left; reflexivity). destruct (trace_runs f v c its w WT R) as [_ T].
  destruct (T pre _ post m ds E ltac:(right; eauto)) as (_ & _ & _ & B). auto.
Qed.

Theorem C17_once : forall f v c its w i bs m d ds, wf_table (v_tbl v) -> runs f v c its w -> In (IRecv i bs m d ds) its -> NoDup (map dl_to ds).
Proof.
  intros f v c its w i bs m d ds WT R IN. pose proof (runs_recv f v c its w WT R) as F. rewrite Forall_forall in F. apply (F _ IN).
Qed.

(* ---- C12, C14 ------------------------------------------------------------------------------------------------ *)

Theorem C12_no_echo : forall f v c its w i bs m d ds, wf_table (v_tbl v) -> runs f v c its w ->
  In (IRecv i bs m d ds) its -> ~ In i (map dl_to ds).
Proof.
  intros f v c its w i bs m d ds WT R IN. pose proof (runs_recv f v c its w WT R) as F. rewrite Forall_forall in F. apply (F _ IN).
Qed.

Theorem C14_not_to_group : forall f v c its w i j bs m d ds, wf_table (v_tbl v) -> runs f v c its w ->
  In (IRecv i bs m d ds) its -> same_group c i j -> ~ In j (map dl_to ds).
Proof.
  intros f v c its w i j bs m d ds WT R IN G J.
  pose proof (filtered_runs f v c its w WT R) as F. rewrite Forall_forall in F. destruct (F _ IN) as ((p & WP & _ & _ & EM) & DS & _).
  destruct d; try (rewrite DS in J by discriminate; destruct J).
  destruct (trace_runs f v c its w WT R) as [_ T]. destruct (in_split _ _ IN) as (pre & post & E).
  destruct (T pre _ post m ds E ltac:(left; eauto)) as (_ & B & _). destruct (wf_meta_info (v_tbl v) p WP) as (B1 & B2 & _). rewrite <- EM in B1, B2.
  destruct (B B1 B2 j J) as [_ N]. apply N. right. exists i, bs, m, ds. split; [apply in_or_app; right; left; auto|]. split; auto.
Qed.

(* ---- C13, C15 -------------------------------------------------------------------------------------------------- *)

Theorem C13_same_systems : forall f v c its w i j ei ej, wf_table (v_tbl v) -> runs f v c its w ->
  same_group c i j -> lookup w i = Some ei -> lookup w j = Some ej -> ep_ids ej = ep_ids ei.
Proof.
  intros f v c its w i j ei ej WT R G LI LJ. destruct (Nat.eq_dec i j) as [->|N]. { congruence. }
  pose proof (inv_runs f v c its w WT R) as I. destruct (trace_runs f v c its w WT R) as [S _].
  destruct (sy_ep _ _ _ S j ej LJ) as (_ & M & _). destruct (M i) as [_ M2]. destruct (i_mem w I j ej i LJ (M2 (conj N G))) as (_ & e' & L' & GR).
  rewrite LI in L'. inversion L'; subst e'. symmetry. eapply (i_same w I j ej i ei); eauto.
Qed.

(* the systems an endpoint knows are exactly the senders of the messages routed from it or from its group *)
Theorem C15_exactly : forall f v c its w k e, wf_table (v_tbl v) -> runs f v c its w -> lookup w k = Some e ->
  forall a, knows (ep_ids e) a <-> known_after c its k a.
Proof. intros f v c its w k e WT R L. destruct (trace_runs f v c its w WT R) as [S _]. apply (sy_ep _ _ _ S k e L). Qed.

(* without repetition; every entry is a pair of bytes; so there are at most 65536 *)
Lemma bounded_nodup : forall l, NoDup l -> (forall x, In x l -> 0 <= x < 65536) -> Z.of_nat (length l) <= 65536.
Proof.
  intros l N B. assert (NoDup (map Z.to_nat l)).
  { clear - N B. induction N; cbn; constructor; auto.
    - intros X. apply in_map_iff in X. destruct X as (y & E & Y). apply H. replace x with y; auto. pose proof (B y (or_intror Y)). pose proof (B x (or_introl eq_refl)). lia.
    - apply IHN. intros; apply B; right; auto. }
  assert (I : incl (map Z.to_nat l) (seq 0 (Z.to_nat 65536))).
  { intros x X. apply in_map_iff in X. destruct X as (y & <- & Y). apply B in Y. apply in_seq. lia. }
  pose proof (NoDup_incl_length H I) as L. rewrite map_length, seq_length in L. apply inj_le in L. rewrite Z2Nat.id in L by lia. exact L.
Qed.
Theorem C15_no_duplicates : forall f v c its w k e, wf_table (v_tbl v) -> runs f v c its w -> lookup w k = Some e ->
  NoDup (ep_ids e) /\ Z.of_nat (length (ep_ids e)) < 65537.
Proof.
  intros f v c its w k e WT R L. destruct (i_ids w (inv_runs f v c its w WT R) k e L) as [N W]. split; auto.
  pose proof (bounded_nodup _ N ltac:(intros x X; unfold wf_ids in W; rewrite Forall_forall in W; auto)). lia.
Qed.

(* and the list only grows while the router keeps running *)
Theorem C15_grows : forall f v c its w its' w' k e e', wf_table (v_tbl v) -> runs f v c its w -> exec f v w its' w' ->
  lookup w k = Some e -> lookup w' k = Some e' -> exists l, ep_ids e' = ep_ids e ++ l.
Proof.
  intros f v c its w its' w' k e e' WT R X L L'. pose proof (inv_runs f v c its w WT R) as I. apply exec_acts in X.
  destruct (acts_grow f v w its' w' WT X I k e' (lookup_len _ _ _ L) L') as (e0 & l & L0 & E). rewrite L in L0. inversion L0; subst e0. eauto.
Qed.

(* ---- C16 ----------------------------------------------------------------------------------------------------------- *)

(* [in_ok]: the letter passes the three incoming allow/block pairs of the endpoint.  Only routed messages make
   systems known (C15_exactly). *)
Theorem C16_incoming : forall f v c its w i bs m d ds, wf_table (v_tbl v) -> runs f v c its w -> In (IRecv i bs m d ds) its ->
  (d <> Routed -> ds = []) /\
  (d <> Duplicate -> (d = Routed <-> in_ok (filters_of c i) (letter_of m))).
Proof.
  intros f v c its w i bs m d ds WT R IN. pose proof (filtered_runs f v c its w WT R) as F. rewrite Forall_forall in F. destruct (F _ IN) as (_ & DS & A & B).
  split; auto. intros N. destruct d; try congruence; split; auto; try discriminate. intros X. exfalso. apply B; auto.
Qed.

(* ---- C18 ------------------------------------------------------------------------------------------------------------ *)

(* every configured endpoint is handed the packet that was received; so are the telemetry logger and the accepted TCP
   clients when the flight stack logger is not one that may write ULog files *)
Theorem C18_bytes_partial : forall f v c its w i bs m ds d, wf_table (v_tbl v) -> runs f v c its w ->
  In (IRecv i bs m Routed ds) its -> In d ds ->
  (dl_to d <= length (confs c))%nat \/ ~ (exists lc, cf_log c = Some lc /\ lc_dialect lc <> DArdupilot) ->
  dl_bytes d = bs.
Proof.
  intros f v c its w i bs m ds d WT R IN D Q. pose proof (bytes_runs f v c its w WT R) as F. rewrite Forall_forall in F. exact (F _ IN d D Q).
Qed.

(* the bytes are a packet with a correct checksum, and m is what its header says *)
Theorem C18_received_is_packet : forall f v c its w i bs m d ds, wf_table (v_tbl v) -> runs f v c its w -> In (IRecv i bs m d ds) its ->
  exists p, wf_packet p /\ acceptable (v_tbl v) p /\ bs = encode p /\ m = info_of (v_tbl v) p.
Proof.
  intros f v c its w i bs m d ds WT R IN. pose proof (filtered_runs f v c its w WT R) as F. rewrite Forall_forall in F. apply (F _ IN).
Qed.

(* ---- C20 -------------------------------------------------------------------------------------------------------------- *)

Theorem C20_sniffer : forall f v c its w pre i bs m ds post k comp, wf_table (v_tbl v) -> 1 <= cf_sniffer c <= 255 ->
  runs f v c its w -> its = pre ++ IRecv i bs m Routed ds :: post ->
  let h := pre ++ [IRecv i bs m Routed ds] in
  In k (open_after c h) -> known_after c h k (cf_sniffer c, comp) ->
  ~ known_after c h k (m_ssys m, m_scomp m) -> out_ok (filters_of c k) (letter_of m) ->
  In k (map dl_to ds).
Proof.
  intros f v c its w pre i bs m ds post k comp WT SN R E h K S N O.
  destruct (C17_delivered f v c its w pre i bs m ds post WT ltac:(lia) R E) as (ok & A & B). fold h in A, B. rewrite A. apply filter_In. split; auto.
  apply B; auto. split; [exact N|]. split; auto. right. split; [lia|]. exists comp. auto.
Qed.

(* ---- C24 ---------------------------------------------------------------------------------------------------------------- *)

Theorem C24_not_to_loggers : forall f v c its w i bs m ds k, wf_table (v_tbl v) -> runs f v c its w ->
  In (ICtl i bs m ds) its -> is_logger c k -> ~ In k (map dl_to ds).
Proof.
  intros f v c its w i bs m ds k WT R IN LG J. destruct (trace_runs f v c its w WT R) as [_ T]. destruct (in_split _ _ IN) as (pre & post & E).
  destruct (T pre _ post m ds E ltac:(right; eauto)) as (A & B & _). destruct A as [(? & ? & _ & F1 & F2)|(? & ? & X & _)]; [|discriminate].
  rewrite F1, F2 in B. destruct (B ltac:(unfold is_byte; lia) ltac:(unfold is_byte; lia) k J) as [_ N]. apply N. left. auto.
Qed.

(* however many levels of nesting are allowed, two are enough: a message a logger sends while it handles one causes no
   further message *)
Theorem C24_nesting : forall f v c its w n mem m, wf_table (v_tbl v) -> runs f v c its w -> route (2 + n) f v w mem m = route 2 f v w mem m.
Proof.
  intros f v c its w n mem m WT R. apply (route_depth n). apply inv_logs. eapply inv_runs; eauto.
Qed.

(* ---- examples ------------------------------------------------------------------------------------------------------------ *)

(* a UART (0) and a UDP client (1) in one group, a UDP server (2) that refuses COMMAND_LONG, a TCP client (3), a
   binary logger (4) and a telemetry logger (5); a TCP client connects (6) *)
Definition rt_group : list Z := [103].
Definition rt_conf : config := mkCf [mkEc (CUart [57600; 115200] false) true no_filters rt_group]
  [mkEc (CUdp false 7 14550) true no_filters rt_group; mkEc (CUdp true 8 14551) true (mkFilters [] [] [] [] [] [] [] [76] [] [] [] []) []]
  [mkEc (CTcp 5 5760) true no_filters []] 5760 (Some (mkLc DArdupilot 0 0 MAlways (-1) true)) 3 false 0.
Definition rt_events : list (list event) :=
  [[rx_from 0 (0, 0) (rx_hb 1 1 0); EServer]; [rx_from 1 (9, 9) (rx_hb 2 1 0); rx_from 2 (5, 1000) (rx_cmd 255 190 1 1 0)];
   [rx_from 2 (5, 1000) (rx_hb 255 190 1)]; [rx_from 3 (0, 0) (rx_cmd 3 1 1 1 0); rx_from 0 (0, 0) (rx_cmd 1 1 255 190 5)]].
Definition rt_seen (its : list item) : list (nat * verdict * list nat) :=
  flat_map (fun x => match x with IRecv i _ _ d ds => [(i, d, map dl_to ds)] | _ => [] end) its.
Definition rt_sent (its : list item) : list (nat * list nat) :=
  flat_map (fun x => match x with ICtl i _ _ ds => [(i, map dl_to ds)] | _ => [] end) its.

Example routing_nonvacuous : exists w its, runs 9 (rx_env []) rt_conf its w /\ wf_table (v_tbl (rx_env [])) /\ same_group rt_conf 0 1 /\
  rt_seen its = [(0, Routed, [2; 3; 4; 5]); (1, Routed, [2; 3; 4; 5; 6]); (2, Refused, []);
                 (2, Routed, [0; 1; 3; 4; 5; 6]); (3, Routed, [0; 1]); (0, Routed, [2; 3])]%nat /\
  map (fun k => match lookup w k with Some e => ep_ids e | None => [] end) (seq 0 7) = [[257; 513]; [257; 513]; [65470]; [769]; [512]; [512]; []].
Proof.
  destruct (session 9 (rx_env []) (Some []) rt_conf rt_events) as [[w its]|] eqn:S; [|vm_compute in S; discriminate].
  exists w, its. split; [eapply session_runs; exact S|]. split; [apply rx_tbl_wf|]. split; [split; [reflexivity|discriminate]|].
  vm_compute in S. injection S as <- <-. split; [reflexivity|]. vm_compute. reflexivity.
Qed.

(* C18 refuted: the ULog logger cuts the header off an unshortened message in place, and the telemetry logger and the TCP client
   behind it are handed the rest *)
Definition rt_ulog : config := mkCf [] [mkEc (CUdp true 8 14551) true no_filters []] [] 5760 (Some (mkLc DCommon 0 0 MAlways 1 true)) 0 false 0.
Definition rt_data : packet :=
  seal 193 (mkPacket (V2 0 0 []) 0 1 1 266 ([0; 0; 0; 0; 22; 16] ++ [85; 76; 111; 103; 1; 18; 53] ++ [1; 2; 3; 4; 5; 6; 7; 8; 9] ++ [3; 0; 65; 7; 8; 9] ++ repeat 1 227) 0 0).
Definition rt_other (x : item) : bool :=
  match x with IRecv _ bs _ Routed ds => existsb (fun d => negb (beqs (dl_bytes d) bs)) ds | _ => false end.
Theorem C18_bytes_refuted : exists f v c its w i bs m ds d, wf_table (v_tbl v) /\ runs f v c its w /\
  In (IRecv i bs m Routed ds) its /\ In d ds /\ dl_bytes d <> bs.
Proof.
  destruct (after_runs 9 (rx_env []) (Some []) rt_ulog [[EServer]; [rx_from 0 (5, 1000) (rx_hb 1 1 0)]; [rx_from 0 (5, 1000) rt_data]] (fun w its => existsb rt_other its)) as (w & its & S & R & P).
  { vm_compute. reflexivity. }
  clear S. apply existsb_exists in P. destruct P as (x & X & P). destruct x as [|i bs m [] ds| | | |]; try discriminate P. cbn [rt_other] in P.
  apply existsb_exists in P. destruct P as (d & D & P). exists 9%nat, (rx_env []), rt_ulog, its, w, i, bs, m, ds, d.
  split; [apply rx_tbl_wf|]. split; auto. split; auto. split; auto. intros E. rewrite E in P. rewrite (proj2 (beqs_eq bs bs) eq_refl) in P. discriminate.
Qed.

Print Assumptions C17_delivered.
Print Assumptions C17_control.
Print Assumptions C17_once.
Print Assumptions C12_no_echo.
Print Assumptions C14_not_to_group.
Print Assumptions C13_same_systems.
Print Assumptions C15_exactly.
Print Assumptions C15_no_duplicates.
Print Assumptions C15_grows.
Print Assumptions C16_incoming.
Print Assumptions C18_bytes_partial.
Print Assumptions C18_received_is_packet.
Print Assumptions C18_bytes_refuted.
Print Assumptions C20_sniffer.
Print Assumptions C24_not_to_loggers.
Print Assumptions C24_nesting.
