(* C95: from a command line as in the README, serial device and ground stations, to the messages between them. *)
From Coq Require Import String.
From Verif Require Import Base Mav SpecCrc SpecFrame Frame FrameProofs FrameRefine FrameLink Dedup SpecAccept Accept AcceptProofs Names NamesProofs Num SpecNum NumProofs Sys LogFile LogFileProofs ULog Loggers LogInv LogStep LogMono RouterCtl Router
  RouterRoute RouterRoute2 RouterSetup RouterActs RouterInv RouterLearn RouterStep RouterStart RouterHist SpecRouter SpecLife RouterTrace RouterLife RouterLife2 RouterLife3 RouterEnd RouterEnd2 SpecEnd RouterStays UartTold
  Conf Opts Regex Main Getopt SpecArgs Inet SpecInet InetProofs Prop_Opts Prop_Main Prop_Args Prop_Inet Prop_Router Prop_Router2 Prop_Router4 Prop_Router5 Prop_Link ExFrame ExRouter RouterBytes.
Open Scope string_scope.
Open Scope list_scope.
Open Scope Z_scope.

(* a ground station as it is written on the command line, and the address that means *)
Record station : Type := mkSt { st_ip : list Z; st_num : list Z; st_addr : list Z; st_port : Z }.
Definition is_station (s : station) : Prop := written4 (st_ip s) (st_addr s) /\ decimal (st_num s) (st_port s) /\ 1 <= st_port s <= 65535.
Definition word (s : station) : list Z := st_ip s ++ lit ":" ++ st_num s.
Definition number4 (a : list Z) : Z := fold_left (fun n b => n * 256 + b) a 0.
Definition place (s : station) : addr := (number4 (st_addr s), st_port s).
(* -e address:port for each of them, in any of the documented ways of writing it, and device:baud, anywhere on the command line *)
Definition asks (argv : list (list Z)) (dev : list Z) (baud : Z) (sts : list station) : Prop :=
  Forall is_station sts /\ 0 < baud < 2147483648 /\
  exists bn, decimal bn baud /\ SpecArgs.written works argv (map (fun s => mkCo (chr "e") (word s)) sts) [dev ++ lit ":" ++ bn].
Definition no_files (fsv : fsview) : Prop := (forall p, fv_node fsv p = NErr 2) /\ forall p, fv_dir fsv p = None.

(* a packet from system a was received on link k *)
Definition heard (h : list item) (k : nat) (a : address) : Prop := exists bs m d ds, In (IRecv k bs m d ds) h /\ a = (m_ssys m, m_scomp m).

(* the numeric form of an address, as UdpEndpoint::open_ipv4 gets it (endpoint.cpp:1213-1232, inet_addr) *)
Definition numeric (s : list Z) : Z := number4 (inet_addr s).
Definition asked_for (dev : list Z) (baud : Z) (sts : list station) : gconf :=
  mkG (g_tcp_port g_default) (g_stats g_default) (g_level g_default) (g_dedup g_default) (g_log g_default)
    [mkUa CLI dev [baud] false no_filters []] (map (fun s => mkUd CLI (st_ip s) (st_port s) UClient no_filters []) sts) [] (g_sniffer g_default).

Lemma stations_options : forall sts g, Forall is_station sts -> cli_options (map (fun s => mkCo (chr "e") (word s)) sts) g =
  (None, mkG (g_tcp_port g) (g_stats g) (g_level g) (g_dedup g) (g_log g) (g_uarts g) (g_udps g ++ map (fun s => mkUd CLI (st_ip s) (st_port s) UClient no_filters []) sts) (g_tcps g) (g_sniffer g)).
Proof.
  induction sts as [|s sts IH]; intros g F.
  - cbn [map cli_options]. rewrite app_nil_r. destruct g. reflexivity.
  - inversion F as [|? ? (W & D & P) FS]; subst. cbn [map cli_options]. destruct (C87_ipv4_partial _ _ W) as (V & _ & _).
    destruct (C73_accepted_partial (fun _ => false) (st_ip s) (st_num s) (st_port s) g V D ltac:(lia) eq_refl) as (E & _). fold (word s) in E. change (mkCo 101 (word s)) with (mkCo (chr "e") (word s)) in E. rewrite E. rewrite IH by auto. cbn [add_udp g_tcp_port g_stats g_level g_dedup g_log g_uarts g_udps g_tcps g_sniffer]. rewrite <- app_assoc. reflexivity.
Qed.

Lemma atoi_decimal : forall s n, decimal s n -> n < 2147483648 -> atoi s = n.
Proof.
  intros s n D L. destruct (decimal_spec s n D) as (_ & P & _). unfold atoi. rewrite (entry_atol s n) by (try lia; exists [], s, []; rewrite app_nil_r; auto). unfold i32, INT. rewrite Z.mod_small by lia. lia.
Qed.

Lemma pre_stations : forall l file dir, pre_parse (map (fun s => mkCo (chr "e") (word s)) l) file dir = Some (file, dir).
Proof.
  induction l as [|s l IH]; intros file dir; [reflexivity|]. cbn [map pre_parse]. change (is_opt (mkCo (chr "e") (word s)) "c") with false. change (is_opt (mkCo (chr "e") (word s)) "d") with false.
  change (is_opt (mkCo (chr "e") (word s)) "V") with false. cbv iota. auto.
Qed.
(* The configuration is that of the command line and nothing else. *)
Theorem C95_configured : forall fsv ischr ef ed argv dev baud sts, no_files fsv -> asks argv dev baud sts -> ischr dev = true ->
  configure_argv fsv ischr ef ed argv = Ok (Some (asked_for dev baud sts)).
Proof.
  intros fsv ischr ef ed argv dev baud sts (NF & ND) (ST & BR & bn & BD & W) CH. destruct (C90_written_partial _ _ _ W) as (_ & _ & _ & E). rewrite E. clear E.
  unfold configure.
  rewrite pre_stations. unfold parse_conf_files. rewrite NF, ND. cbn [parse bind]. change ((- (2) <? 0) && negb (- (2) =? - ENOENT)) with false. cbv iota.
  replace (parse_confs [] g_default) with (Ok (0, g_default)) by (vm_compute; reflexivity). cbn [bind]. change (0 <? 0) with false. cbv iota.
  unfold parse_argv. rewrite stations_options by auto. cbn [cli_positionals]. unfold cli_positional.
  destruct (C73_split_partial dev bn baud BD ltac:(lia)) as [S _]. rewrite S, CH. cbn [negb].
  assert (U : baud =? UNSET = false). { apply Z.eqb_neq. change UNSET with 18446744073709551615. lia. } rewrite U. cbn [negb].
  replace (skipn (Datatypes.S (length dev)) (dev ++ lit ":" ++ bn)) with bn.
  2:{ change (lit ":" ++ bn) with (58 :: bn). clear. induction dev; auto. }
  rewrite (atoi_decimal bn baud) by (auto; lia). unfold u32. rewrite Z.mod_small by lia. change (2 =? 2) with true. reflexivity.
Qed.
Print Assumptions C95_configured.

(* ---- the messages ---- *)
Lemma got_at : forall h k j bs, nth_error (got h k) j = Some bs -> exists pre m d ds post, h = pre ++ IRecv k bs m d ds :: post /\ length (got pre k) = j.
Proof.
  induction h as [|x h IH]; intros k n bs N. { destruct n; discriminate. }
  assert (G : got (x :: h) k = got [x] k ++ got h k) by (unfold got; cbn [flat_map]; rewrite app_nil_r; auto). rewrite G in N.
  assert (CASE : (exists m d ds, x = IRecv k bs m d ds /\ n = 0%nat) \/ (exists n', nth_error (got h k) n' = Some bs /\ n = (length (got [x] k) + n')%nat)).
  { destruct (got [x] k) as [|y [|z l]] eqn:E.
    - right. exists n. auto.
    - destruct n as [|n]; [|right; exists n; auto]. left. cbn in N. injection N as ->. unfold got in E. cbn [flat_map] in E. rewrite app_nil_r in E. destruct x; try discriminate. destruct (Nat.eqb_spec i k); [|discriminate]. injection E as ->. subst. eauto.
    - exfalso. unfold got in E. cbn [flat_map] in E. rewrite app_nil_r in E. destruct x; try discriminate. destruct (Nat.eqb i k); discriminate. }
  destruct CASE as [(m & d & ds & -> & ->)|(n' & N' & ->)].
  - exists [], m, d, ds, h. auto.
  - destruct (IH _ _ _ N') as (pre & m & d & ds & post & -> & L). exists (x :: pre), m, d, ds, post. split; auto. 
    assert (GP : got (x :: pre) k = got [x] k ++ got pre k) by (unfold got; cbn [flat_map]; rewrite app_nil_r; auto). rewrite GP, app_length, L. auto.
Qed.

(* n endpoints, none of them TCP, without filters and groups, no log, no de-duplication *)
Record bridge (c : config) (n : nat) : Prop := mkBridge {
  br_at : forall k e, nth_error (SpecRouter.confs c) k = Some e -> ec_filters e = no_filters /\ ec_group e = [] /\ (forall r p, ec_kind e <> CTcp r p);
  br_len : length (SpecRouter.confs c) = n; br_log : cf_log c = None; br_dedup : cf_dedup c = 0; br_sniffer : cf_sniffer c = 0 }.
Section Running.
Variables (f : nat) (v : env) (c : config) (n : nat) (its : list item) (w : world).
Hypothesis WT : wf_table (v_tbl v).
Hypothesis BR : bridge c n.
Hypothesis R : RouterSetup.runs f v c its w.
Let conf_at := br_at c n BR.
Let count_confs := br_len c n BR.

Lemma filters_none : forall k, filters_of c k = no_filters.
Proof. intros k. unfold filters_of. destruct (nth_error (SpecRouter.confs c) k) eqn:E; auto. apply (conf_at _ _ E). Qed.
Lemma group_none : forall k, group_of c k = [].
Proof. intros k. unfold group_of. destruct (nth_error (SpecRouter.confs c) k) eqn:E; auto. apply (conf_at _ _ E). Qed.
Lemma no_ulog : ~ ulog_configured c.
Proof. unfold ulog_configured. intros (lc & E & _). rewrite (br_log c n BR) in E. discriminate E. Qed.
Lemma stays : forall k, (k < n)%nat -> ~ In k (gone its) /\ exists e, lookup w k = Some e /\ is_tcp e = false.
Proof.
  intros k K. assert (T : forall r, tcp_conf c k = Some r -> 0 < r).
  { intros r X. exfalso. unfold tcp_conf in X. destruct (nth_error (SpecRouter.confs c) k) eqn:E; [|discriminate]. destruct (ec_kind e) eqn:EK; try discriminate. destruct (conf_at _ _ E) as (_ & _ & N). eapply N; eauto. }
  assert (KC : (k < length (SpecRouter.confs c) + loggers c)%nat) by (rewrite count_confs; lia).
  destruct (C31_others_kept f v c its w k WT R KC T) as (O & e & L). split. { apply open_in in O. apply O. }
  exists e. split; auto. pose proof (lf_kind _ _ _ (life_runs f v c its w WT R) k e L) as KL. unfold kind_life in KL. unfold is_tcp. destruct (ep_kind e) eqn:EK; auto.
  exfalso. destruct KL as ([X|[X _]] & _); [|rewrite count_confs in X; lia]. unfold tcp_conf in X. destruct (nth_error (SpecRouter.confs c) k) eqn:E; [|discriminate]. destruct (ec_kind e0) eqn:EK0; try discriminate.
  destruct (conf_at _ _ E) as (_ & _ & N). eapply N; eauto.
Qed.
Lemma all_routed : forall i bs m d ds, In (IRecv i bs m d ds) its -> d = Routed.
Proof.
  intros i bs m d ds X. assert (ND : d <> Duplicate) by (eapply (C29_router f v c its w); eauto; rewrite (br_dedup c n BR); lia).
  apply (C16_incoming f v c its w i bs m d ds WT R X); auto. rewrite filters_none. unfold in_ok, passes, no_filters. cbn. intuition.
Qed.

Lemma passed_on : forall i ps rest j p, (i < n)%nat -> Forall (fun bs => (length bs <= 840)%nat) (reads its i) ->
  segments (concat (reads its i)) ps rest -> Forall (acceptable (v_tbl v)) ps -> nth_error ps j = Some p ->
  exists pre ds post, its = pre ++ IRecv i (encode p) (info_of (v_tbl v) p) Routed ds :: post /\ length (got pre i) = j /\
    forall k, (k < n)%nat -> k <> i -> ~ heard pre k (p_sys p, p_comp p) -> addressed_to (letter_of (info_of (v_tbl v) p)) (heard pre k) ->
      exists d, In d ds /\ dl_to d = k /\ dl_bytes d = encode p.
Proof.
  intros i ps rest j p II SH SG AC N. destruct (stays i II) as (_ & e & L & T).
  pose proof (C81_valid_traffic_partial f v c its w i e ps rest WT no_ulog R L T SH SG AC) as G.
  assert (NG : nth_error (got its i) j = Some (encode p)) by (rewrite G, nth_error_map, N; reflexivity).
  destruct (got_at _ _ _ _ NG) as (pre & m & d & ds & post & E & LP). exists pre, ds, post.
  assert (X : In (IRecv i (encode p) m d ds) its) by (rewrite E; apply in_or_app; right; left; auto).
  pose proof (all_routed _ _ _ _ _ X) as ->.
  destruct (C18_received_is_packet f v c its w _ _ _ _ _ WT R X) as (q & WQ & AQ & EQ & MQ).
  assert (WP : wf_packet p). { assert (F : Forall wf_packet ps) by (clear - SG; induction SG; auto). rewrite Forall_forall in F. apply F. eapply nth_error_In; eauto. }
  assert (p = q) by (apply encode_inj; auto).
  subst q m. split; auto. split; auto.
  intros k KK NI NH AD. destruct (C17_delivered f v c its w pre i (encode p) (info_of (v_tbl v) p) ds post WT ltac:(rewrite (br_sniffer c n BR); lia) R E) as (ok & M & B).
  destruct (stays k KK) as (NG2 & _).
  set (h := pre ++ [IRecv i (encode p) (info_of (v_tbl v) p) Routed ds]) in *.
  assert (O : In k (open_after c h)).
  { apply open_in. split; [left; rewrite count_confs; lia|]. intros Q. apply NG2. rewrite E. unfold h in Q. unfold gone in *. rewrite flat_map_app in *. apply in_app_or in Q. apply in_or_app. destruct Q as [Q|Q]; auto. cbn in Q. destruct Q. }
  assert (KN : forall a, known_after c h k a <-> heard pre k a).
  { intros a. unfold known_after, heard. split.
    - intros [[LG _]|(j0 & bs & m & ds0 & J & A & [->|[_ SG2]])]; [exfalso; unfold is_logger, loggers in LG; rewrite (br_log c n BR), count_confs in LG; lia| |exfalso; apply SG2; apply group_none].
      unfold h in J. apply in_app_or in J. destruct J as [J|[J|[]]]; [eauto 8|]. exfalso. congruence.
    - intros (bs & m & d0 & ds0 & J & A). right. assert (JI : In (IRecv k bs m d0 ds0) its) by (rewrite E; apply in_or_app; auto). pose proof (all_routed _ _ _ _ _ JI) as ->. exists k, bs, m, ds0. split; [unfold h; apply in_or_app; auto|auto]. }
  assert (W : wanted c h (info_of (v_tbl v) p) k).
  { unfold wanted. split. { rewrite KN. exact NH. } split. { rewrite filters_none. unfold out_ok, passes, no_filters. cbn. intuition. } left.
    destruct AD as [AD|(s & TS & AD)]; [left; auto|]. right. exists s. split; auto. destruct AD as [(BC & cc & AD)|(cc & TC & NZ & AD)]; [left; split; auto; exists cc; apply KN; auto|right; exists cc; split; auto; split; auto; apply KN; auto]. }
  apply (B k O) in W. assert (Y : In k (map dl_to ds)) by (rewrite M; apply filter_In; auto). apply in_map_iff in Y. destruct Y as (d & DK & DI). exists d. split; auto. split; auto.
  apply (C18_bytes_partial f v c its w i (encode p) (info_of (v_tbl v) p) ds d WT R X DI). left. rewrite count_confs, DK. lia.
Qed.
End Running.

Lemma bridge_asked : forall dev baud sts, bridge (to_config numeric (asked_for dev baud sts)) (1 + length sts).
Proof.
  intros dev baud sts. split; try reflexivity.
  - intros k e N. unfold SpecRouter.confs in N. cbn [to_config cf_uarts cf_udps cf_tcps asked_for g_uarts g_udps g_tcps map app] in N. rewrite app_nil_r in N.
    apply nth_error_In in N. destruct N as [<-|N]; [cbn; repeat split; discriminate|]. rewrite map_map in N. apply in_map_iff in N. destruct N as (s & <- & _). cbn. repeat split; discriminate.
  - unfold SpecRouter.confs. cbn [to_config cf_uarts cf_udps cf_tcps asked_for g_uarts g_udps g_tcps map app length]. rewrite app_nil_r, !map_length. reflexivity.
Qed.

Lemma peer_same : forall cf h k, (forall a, In a (senders h k) -> a = cf) -> peer_after cf h k = cf.
Proof.
  intros cf h k. induction h as [|x h IH] using rev_ind; intros S; [reflexivity|]. rewrite peer_app. cbn [fold_left].
  assert (SH : forall a, In a (senders h k) -> a = cf). { intros a A. apply S. unfold senders in *. rewrite flat_map_app, rev_app_distr. apply in_or_app. auto. }
  rewrite (IH SH). unfold peer_step. destruct x as [i [bs a| |]| | |t cb| |]; auto.
  - destruct (Nat.eqb_spec i k); auto. subst. apply S. unfold senders. rewrite flat_map_app, rev_app_distr. cbn [flat_map app]. rewrite Nat.eqb_refl. cbn. auto.
  - destruct cb; auto. destruct (Nat.eqb i k); auto.
Qed.

(* Serial line to ground stations: with such a command line and no configuration files the program gets a configuration with which,
   whatever happens on its links, each valid packet on the serial line that is not meant for one system only is sent as one datagram with
   exactly its bytes to each ground station, at the address written on the command line, unless its sender was heard from that station, or
   somebody else sent datagrams to that endpoint. *)
Theorem C95_to_stations : forall fsv ischr ef ed argv dev baud sts, no_files fsv -> asks argv dev baud sts -> ischr dev = true ->
  exists g, configure_argv fsv ischr ef ed argv = Ok (Some g) /\
  forall f v its w ps rest n p, wf_table (v_tbl v) -> RouterSetup.runs f v (to_config numeric g) its w ->
    Forall (fun bs => (length bs <= 840)%nat) (reads its 0) -> segments (concat (reads its 0)) ps rest -> Forall (acceptable (v_tbl v)) ps ->
    nth_error ps n = Some p -> broadcast_sys (letter_of (info_of (v_tbl v) p)) ->
    exists pre ds post, its = pre ++ IRecv 0 (encode p) (info_of (v_tbl v) p) Routed ds :: post /\ length (got pre 0) = n /\
    forall k s, nth_error sts k = Some s -> ~ heard pre (1 + k) (p_sys p, p_comp p) -> (forall a, In a (senders pre (1 + k)) -> a = place s) ->
      exists d r, In d ds /\ dl_to d = (1 + k)%nat /\ dl_bytes d = encode p /\ dl_call d = DSent (Some (place s)) r.
Proof.
  intros fsv ischr ef ed argv dev baud sts NF AK CH. exists (asked_for dev baud sts). split; [apply C95_configured; auto|].
  intros f v its w ps rest n p WT R SH SG AC N BR. destruct AK as (ST & _).
  destruct (passed_on f v _ _ its w WT (bridge_asked dev baud sts) R 0 ps rest n p ltac:(lia) SH SG AC N) as (pre & ds & post & E & L & P).
  exists pre, ds, post. split; auto. split; auto. intros k s K NH SE.
  assert (KL : (k < length sts)%nat) by (apply nth_error_Some; congruence).
  destruct (P (1 + k)%nat ltac:(lia) ltac:(lia) NH) as (d & DI & DT & DB). { left. auto. }
  assert (IS : is_station s). { rewrite Forall_forall in ST. apply ST. eapply nth_error_In; eauto. } destruct IS as (W4 & DN & PR).
  assert (UC : udp_conf (to_config numeric (asked_for dev baud sts)) (dl_to d) = Some (false, place s)).
  { rewrite DT. unfold udp_conf, SpecRouter.confs. cbn [to_config cf_uarts cf_udps cf_tcps asked_for g_uarts g_udps g_tcps map app Nat.add nth_error]. rewrite app_nil_r, map_map, nth_error_map, K. cbn [option_map ec_of_udp ec_kind ud_mode ud_address ud_port].
    destruct (C87_ipv4_partial _ _ W4) as (_ & _ & IA). unfold numeric. rewrite IA. unfold u16. rewrite Z.mod_small by lia. reflexivity. }
  destruct (C34_destination f v _ its w pre _ post d false (place s) WT R E DI UC) as [_ B]. rewrite DT, (peer_same _ _ _ SE) in B.
  destruct B as (r & B); [unfold place; cbn [snd]; lia|]. exists d, r. auto.
Qed.
Print Assumptions C95_to_stations.

(* Ground station to serial line: each valid packet in the datagrams that arrive for a station's endpoint, meant for a system (and component)
   heard on the serial line before, or for all, is written to the serial line with exactly its bytes, unless its sender was heard there. *)
Theorem C95_to_vehicle : forall fsv ischr ef ed argv dev baud sts, no_files fsv -> asks argv dev baud sts -> ischr dev = true ->
  exists g, configure_argv fsv ischr ef ed argv = Ok (Some g) /\
  forall f v its w k ps rest n p, wf_table (v_tbl v) -> RouterSetup.runs f v (to_config numeric g) its w -> (k < length sts)%nat ->
    Forall (fun bs => (length bs <= 840)%nat) (reads its (1 + k)) -> segments (concat (reads its (1 + k))) ps rest -> Forall (acceptable (v_tbl v)) ps ->
    nth_error ps n = Some p ->
    exists pre ds post, its = pre ++ IRecv (1 + k) (encode p) (info_of (v_tbl v) p) Routed ds :: post /\ length (got pre (1 + k)) = n /\
    (~ heard pre 0 (p_sys p, p_comp p) -> addressed_to (letter_of (info_of (v_tbl v) p)) (heard pre 0) ->
      exists d r, In d ds /\ dl_to d = 0%nat /\ dl_bytes d = encode p /\ dl_call d = DSent None r).
Proof.
  intros fsv ischr ef ed argv dev baud sts NF AK CH. exists (asked_for dev baud sts). split; [apply C95_configured; auto|].
  intros f v its w k ps rest n p WT R KL SH SG AC N. destruct AK as (ST & _).
  destruct (passed_on f v _ _ its w WT (bridge_asked dev baud sts) R (1 + k)%nat ps rest n p ltac:(lia) SH SG AC N) as (pre & ds & post & E & L & P).
  exists pre, ds, post. split; auto. split; auto. intros NH AD. destruct (P 0%nat ltac:(lia) ltac:(lia) NH AD) as (d & DI & DT & DB).
  destruct (uart_told f v _ its w WT R (IRecv (1 + k) (encode p) (info_of (v_tbl v) p) Routed ds) d [baud]) as (r & B); auto.
  - rewrite E. apply in_or_app. right. left. auto.
  - rewrite DT. reflexivity.
  - exists d, r. auto.
Qed.
Print Assumptions C95_to_vehicle.

(* ---- the same with an incoming UDP connection instead of the serial line: -e address:port ... address:port ---- *)
Definition asks_udp (argv : list (list Z)) (l : station) (sts : list station) : Prop :=
  Forall is_station sts /\ is_station l /\ SpecArgs.written works argv (map (fun s => mkCo (chr "e") (word s)) sts) [word l].
Definition asked_udp (l : station) (sts : list station) : gconf :=
  mkG (g_tcp_port g_default) (g_stats g_default) (g_level g_default) (g_dedup g_default) (g_log g_default) []
    (map (fun s => mkUd CLI (st_ip s) (st_port s) UClient no_filters []) sts ++ [mkUd CLI (st_ip l) (st_port l) UServer no_filters []]) [] (g_sniffer g_default).
Theorem C95_udp_configured : forall fsv ischr ef ed argv l sts, no_files fsv -> asks_udp argv l sts -> ischr (st_ip l) = false ->
  configure_argv fsv ischr ef ed argv = Ok (Some (asked_udp l sts)).
Proof.
  intros fsv ischr ef ed argv l sts (NF & ND) (ST & (W4 & LD & LP) & W) CH. destruct (C90_written_partial _ _ _ W) as (_ & _ & _ & E). rewrite E. clear E.
  unfold configure. rewrite pre_stations. unfold parse_conf_files. rewrite NF, ND. cbn [parse bind]. change ((- (2) <? 0) && negb (- (2) =? - ENOENT)) with false. cbv iota.
  replace (parse_confs [] g_default) with (Ok (0, g_default)) by (vm_compute; reflexivity). cbn [bind]. change (0 <? 0) with false. cbv iota.
  unfold parse_argv. rewrite stations_options by auto. cbn [cli_positionals]. destruct (C87_ipv4_partial _ _ W4) as (V & _ & _).
  set (g1 := mkG _ _ _ _ _ _ _ _ _). destruct (C73_accepted_partial ischr (st_ip l) (st_num l) (st_port l) g1 V LD ltac:(lia) CH) as (_ & _ & E). fold (word l) in E. rewrite E. reflexivity.
Qed.
Print Assumptions C95_udp_configured.
Lemma bridge_udp : forall l sts, bridge (to_config numeric (asked_udp l sts)) (1 + length sts).
Proof.
  intros l sts. split; try reflexivity.
  - intros k e N. unfold SpecRouter.confs in N. cbn [to_config cf_uarts cf_udps cf_tcps asked_udp g_uarts g_udps g_tcps map app] in N. rewrite app_nil_r, map_app, map_map in N.
    apply nth_error_In in N. apply in_app_or in N. destruct N as [N|[<-|[]]]; [|cbn; repeat split; discriminate]. apply in_map_iff in N. destruct N as (s & <- & _). cbn. repeat split; discriminate.
  - unfold SpecRouter.confs. cbn [to_config cf_uarts cf_udps cf_tcps asked_udp g_uarts g_udps g_tcps map app length]. rewrite app_nil_r, map_length, app_length, map_length. cbn [length]. lia.
Qed.
Theorem C95_udp_to_stations : forall fsv ischr ef ed argv l sts, no_files fsv -> asks_udp argv l sts -> ischr (st_ip l) = false ->
  exists g, configure_argv fsv ischr ef ed argv = Ok (Some g) /\
  forall f v its w ps rest n p, wf_table (v_tbl v) -> RouterSetup.runs f v (to_config numeric g) its w -> let vehicle := length sts in
    Forall (fun bs => (length bs <= 840)%nat) (reads its vehicle) -> segments (concat (reads its vehicle)) ps rest -> Forall (acceptable (v_tbl v)) ps ->
    nth_error ps n = Some p -> broadcast_sys (letter_of (info_of (v_tbl v) p)) ->
    exists pre ds post, its = pre ++ IRecv vehicle (encode p) (info_of (v_tbl v) p) Routed ds :: post /\ length (got pre vehicle) = n /\
    forall k s, nth_error sts k = Some s -> ~ heard pre k (p_sys p, p_comp p) -> (forall a, In a (senders pre k) -> a = place s) ->
      exists d r, In d ds /\ dl_to d = k /\ dl_bytes d = encode p /\ dl_call d = DSent (Some (place s)) r.
Proof.
  intros fsv ischr ef ed argv l sts NF AK CH. exists (asked_udp l sts). split; [apply C95_udp_configured; auto|].
  intros f v its w ps rest n p WT R vehicle SH SG AC N BR. destruct AK as (ST & _).
  destruct (passed_on f v _ _ its w WT (bridge_udp l sts) R vehicle ps rest n p ltac:(unfold vehicle; lia) SH SG AC N) as (pre & ds & post & E & L & P).
  exists pre, ds, post. split; auto. split; auto. intros k s K NH SE.
  assert (KL : (k < length sts)%nat) by (apply nth_error_Some; congruence).
  destruct (P k ltac:(lia) ltac:(unfold vehicle; lia) NH) as (d & DI & DT & DB). { left. auto. }
  assert (IS : is_station s). { rewrite Forall_forall in ST. apply ST. eapply nth_error_In; eauto. } destruct IS as (W4 & DN & PR).
  assert (UC : udp_conf (to_config numeric (asked_udp l sts)) (dl_to d) = Some (false, place s)).
  { rewrite DT. unfold udp_conf, SpecRouter.confs. cbn [to_config cf_uarts cf_udps cf_tcps asked_udp g_uarts g_udps g_tcps map app]. rewrite app_nil_r, map_app, map_map, nth_error_app1 by (rewrite map_length; auto). rewrite nth_error_map, K. cbn [option_map ec_of_udp ec_kind ud_mode ud_address ud_port].
    destruct (C87_ipv4_partial _ _ W4) as (_ & _ & IA). unfold numeric. rewrite IA. unfold u16. rewrite Z.mod_small by lia. reflexivity. }
  destruct (C34_destination f v _ its w pre _ post d false (place s) WT R E DI UC) as [_ B]. rewrite DT, (peer_same _ _ _ SE) in B.
  destruct B as (r & B); [unfold place; cbn [snd]; lia|]. exists d, r. auto.
Qed.
Print Assumptions C95_udp_to_stations.
(* the other way messages go to where the latest datagram came from *)
Theorem C95_udp_to_vehicle : forall fsv ischr ef ed argv l sts, no_files fsv -> asks_udp argv l sts -> ischr (st_ip l) = false ->
  exists g, configure_argv fsv ischr ef ed argv = Ok (Some g) /\
  forall f v its w k ps rest n p, wf_table (v_tbl v) -> RouterSetup.runs f v (to_config numeric g) its w -> let vehicle := length sts in (k < length sts)%nat ->
    Forall (fun bs => (length bs <= 840)%nat) (reads its k) -> segments (concat (reads its k)) ps rest -> Forall (acceptable (v_tbl v)) ps ->
    nth_error ps n = Some p ->
    exists pre ds post, its = pre ++ IRecv k (encode p) (info_of (v_tbl v) p) Routed ds :: post /\ length (got pre k) = n /\
    (~ heard pre vehicle (p_sys p, p_comp p) -> addressed_to (letter_of (info_of (v_tbl v) p)) (heard pre vehicle) ->
      forall a more, senders pre vehicle = a :: more -> snd a <> 0 ->
      exists d r, In d ds /\ dl_to d = vehicle /\ dl_bytes d = encode p /\ dl_call d = DSent (Some a) r).
Proof.
  intros fsv ischr ef ed argv l sts NF AK CH. exists (asked_udp l sts). split; [apply C95_udp_configured; auto|].
  intros f v its w k ps rest n p WT R vehicle KL SH SG AC N.
  destruct (passed_on f v _ _ its w WT (bridge_udp l sts) R k ps rest n p ltac:(lia) SH SG AC N) as (pre & ds & post & E & L & P).
  exists pre, ds, post. split; auto. split; auto. intros NH AD a more SE NZ. destruct (P vehicle ltac:(unfold vehicle; lia) ltac:(unfold vehicle; lia) NH AD) as (d & DI & DT & DB).
  assert (UC : exists cf, udp_conf (to_config numeric (asked_udp l sts)) (dl_to d) = Some (true, cf)).
  { eexists. rewrite DT. unfold udp_conf, SpecRouter.confs. cbn [to_config cf_uarts cf_udps cf_tcps asked_udp g_uarts g_udps g_tcps map app]. rewrite app_nil_r, map_app, map_map, nth_error_app2 by (rewrite map_length; auto). rewrite map_length. unfold vehicle. rewrite Nat.sub_diag. reflexivity. }
  destruct UC as (cf & UC). pose proof (C34_server f v _ its w pre _ post d cf WT R E DI UC) as B. rewrite DT, SE in B. destruct (B NZ) as (r & B'). exists d, r. auto.
Qed.
Print Assumptions C95_udp_to_vehicle.

(* ---- the example of the README: mavlink-routerd -e 192.168.7.1:14550 -e 127.0.0.1:14550 /dev/ttyS1:1500000 ---- *)
Lemma dec_fold : forall l s n, decimal s n -> 0 < n -> Forall (fun d => 0 <= d < 10) l -> decimal (s ++ map (fun d => 48 + d) l) (fold_left (fun n d => 10 * n + d) l n).
Proof.
  induction l as [|d l IH]; intros s n D P F; cbn [map fold_left]. { rewrite app_nil_r. auto. }
  inversion F; subst. replace (s ++ 48 + d :: map (fun d => 48 + d) l) with ((s ++ [48 + d]) ++ map (fun d => 48 + d) l) by (rewrite <- app_assoc; reflexivity). apply IH; auto; [apply d_more; auto|lia].
Qed.
Ltac dec_by a l := match goal with |- decimal _ _ => change (decimal ([48 + a] ++ map (fun d => 48 + d) l) (fold_left (fun n d => 10 * n + d) l a)); apply dec_fold; [apply d_one; lia|lia|repeat (apply Forall_cons; [lia|]); apply Forall_nil] end.
Definition readme_argv : list (list Z) := [lit "-e"; lit "192.168.7.1:14550"; lit "-e"; lit "127.0.0.1:14550"; lit "/dev/ttyS1:1500000"].
Definition readme_sts : list station := [mkSt (lit "192.168.7.1") (lit "14550") [192; 168; 7; 1] 14550; mkSt (lit "127.0.0.1") (lit "14550") [127; 0; 0; 1] 14550].
Definition empty_disk : fsview := mkFv (fun _ => NErr 2) (fun _ => None).
Lemma readme_asks : asks readme_argv (lit "/dev/ttyS1") 1500000 readme_sts.
Proof.
  assert (P : decimal (lit "14550") 14550) by (dec_by 1 [4; 5; 5; 0]).
  assert (O1 : octet_text (lit "1") 1) by (split; [apply (d_one 1); lia|lia]). assert (O0 : octet_text (lit "0") 0) by (split; [apply (d_one 0); lia|lia]). assert (O7 : octet_text (lit "7") 7) by (split; [apply (d_one 7); lia|lia]).
  assert (O192 : octet_text (lit "192") 192) by (split; [dec_by 1 [9; 2]|lia]). assert (O168 : octet_text (lit "168") 168) by (split; [dec_by 1 [6; 8]|lia]). assert (O127 : octet_text (lit "127") 127) by (split; [dec_by 1 [2; 7]|lia]).
  split; [|split; [lia|]].
  - apply Forall_cons; [|apply Forall_cons; [|apply Forall_nil]]; (split; [|split; [exact P|cbn; lia]]).
    + exists (lit "192"), 192, (lit "168"), 168, (lit "7"), 7, (lit "1"), 1. do 4 (split; [assumption|]). split; reflexivity.
    + exists (lit "127"), 127, (lit "0"), 0, (lit "0"), 0, (lit "1"), 1. do 4 (split; [assumption|]). split; reflexivity.
  - exists (lit "1500000"). split; [dec_by 1 [5; 0; 0; 0; 0; 0]|].
    assert (O : forall v r os ps, SpecArgs.written works r os ps -> SpecArgs.written works ([lit "-e"; v] ++ r) (mkCo (chr "e") v :: os) ps).
    { intros v r os ps H. apply (w_option works (mkDoc (chr "e") (lit "endpoint") true) Letter); [apply (in_doc 0); reflexivity|cbn; split; discriminate|apply (sp_value (mkDoc (chr "e") (lit "endpoint") true)); reflexivity|exact H]. }
    apply (O (lit "192.168.7.1:14550")), (O (lit "127.0.0.1:14550")). apply w_endpoint; [cbn; lia|constructor].
Qed.
(* a heartbeat of the vehicle 1/1 arrives in two pieces and goes to both stations; then one station sends it a command *)
Definition readme_conf : config := to_config numeric (asked_for (lit "/dev/ttyS1") 1500000 readme_sts).
Definition readme_events : list (list event) :=
  [[EEp 0 (Some (OsData (firstn 7 (encode (rx_hb 1 1 0))) (0, 0))) false false]; [EEp 0 (Some (OsData (skipn 7 (encode (rx_hb 1 1 0))) (0, 0))) false false];
   [rx_from 2 (number4 [127; 0; 0; 1], 14550) (rx_cmd 255 190 1 1 0)]].
Example C95_nonvacuous : no_files empty_disk /\ asks readme_argv (lit "/dev/ttyS1") 1500000 readme_sts /\
  exists its w ds1 ds2 pre1 post1 pre2 post2, wf_table (v_tbl (rx_env [])) /\ RouterSetup.runs 20 (rx_env []) readme_conf its w /\
  concat (reads its 0) = encode (rx_hb 1 1 0) /\ length (reads its 0) = 2%nat /\ reads its 2 = [encode (rx_cmd 255 190 1 1 0)] /\
  segments (concat (reads its 0)) [rx_hb 1 1 0] [] /\ segments (concat (reads its 2)) [rx_cmd 255 190 1 1 0] [] /\
  acceptable rx_tbl (rx_hb 1 1 0) /\ acceptable rx_tbl (rx_cmd 255 190 1 1 0) /\ broadcast_sys (letter_of (info_of rx_tbl (rx_hb 1 1 0))) /\
  its = pre1 ++ IRecv 0 (encode (rx_hb 1 1 0)) (info_of rx_tbl (rx_hb 1 1 0)) Routed ds1 :: post1 /\
  map (fun d => (dl_to d, dl_call d)) ds1 = [(1%nat, DSent (Some (3232237313, 14550)) 21); (2%nat, DSent (Some (2130706433, 14550)) 21)] /\
  its = pre2 ++ IRecv 2 (encode (rx_cmd 255 190 1 1 0)) (info_of rx_tbl (rx_cmd 255 190 1 1 0)) Routed ds2 :: post2 /\
  map (fun d => (dl_to d, dl_call d)) ds2 = [(0%nat, DSent None 41)].
Proof.
  split; [split; reflexivity|]. split; [exact readme_asks|].
  destruct (view_runs _ (fun w its => its) (match view (session 20 (rx_env []) (Some []) readme_conf readme_events) (fun w its => its) with Some l => l | None => [] end)
    20 (rx_env []) (Some []) readme_conf readme_events) as (w & its & R & X). { vm_compute. reflexivity. }
  vm_compute in X. 
  exists its, w. rewrite X.
  do 2 eexists. exists (firstn 2 its), (skipn 3 its), (firstn 4 its), (skipn 5 its). rewrite X.
  split; [apply rx_tbl_wf|]. split; [rewrite <- X; exact R|].
  split; [vm_compute; reflexivity|]. split; [reflexivity|]. split; [vm_compute; reflexivity|].
  split. { replace (concat _) with (concat (map encode [rx_hb 1 1 0])) by (vm_compute; reflexivity). apply segments_concat. apply Forall_cons; [apply wf_packetb_ok; vm_compute; reflexivity|apply Forall_nil]. }
  split. { replace (concat _) with (concat (map encode [rx_cmd 255 190 1 1 0])) by (vm_compute; reflexivity). apply segments_concat. apply Forall_cons; [apply wf_packetb_ok; vm_compute; reflexivity|apply Forall_nil]. }
  split; [vm_compute; reflexivity|]. split; [vm_compute; reflexivity|]. split; [left; vm_compute; reflexivity|].
  split; [vm_compute; reflexivity|]. split; [vm_compute; reflexivity|]. split; [vm_compute; reflexivity|]. vm_compute; reflexivity.
Qed.
Definition readme_listen : station := mkSt (lit "0.0.0.0") (lit "24550") [0; 0; 0; 0] 24550.
Definition readme_udp : config := to_config numeric (asked_udp readme_listen readme_sts).
Definition readme_argv2 : list (list Z) := [lit "-e"; lit "192.168.7.1:14550"; lit "-e"; lit "127.0.0.1:14550"; lit "0.0.0.0:24550"].
Example C95_udp_nonvacuous : asks_udp readme_argv2 readme_listen readme_sts /\
  exists its w ds1 ds2 pre1 post1 pre2 post2, RouterSetup.runs 20 (rx_env []) readme_udp its w /\
  its = pre1 ++ IRecv 2 (encode (rx_hb 1 1 0)) (info_of rx_tbl (rx_hb 1 1 0)) Routed ds1 :: post1 /\
  map (fun d => (dl_to d, dl_call d)) ds1 = [(0%nat, DSent (Some (3232237313, 14550)) 21); (1%nat, DSent (Some (2130706433, 14550)) 21)] /\
  its = pre2 ++ IRecv 1 (encode (rx_cmd 255 190 1 1 0)) (info_of rx_tbl (rx_cmd 255 190 1 1 0)) Routed ds2 :: post2 /\
  map (fun d => (dl_to d, dl_call d)) ds2 = [(2%nat, DSent (Some (77, 4711)) 41)].
Proof.
  split.
  - destruct readme_asks as (F & _ & bn & _ & W). split; auto. split.
    + split; [|split; [dec_by 2 [4; 5; 5; 0]|cbn; lia]]. assert (O0 : octet_text (lit "0") 0) by (split; [apply (d_one 0); lia|lia]). exists (lit "0"), 0, (lit "0"), 0, (lit "0"), 0, (lit "0"), 0. do 4 (split; [assumption|]). split; reflexivity.
    + assert (O : forall v r os ps, SpecArgs.written works r os ps -> SpecArgs.written works ([lit "-e"; v] ++ r) (mkCo (chr "e") v :: os) ps).
      { intros v r os ps H. apply (w_option works (mkDoc (chr "e") (lit "endpoint") true) Letter); [apply (in_doc 0); reflexivity|cbn; split; discriminate|apply (sp_value (mkDoc (chr "e") (lit "endpoint") true)); reflexivity|exact H]. }
      apply (O (lit "192.168.7.1:14550")), (O (lit "127.0.0.1:14550")). apply w_endpoint; [cbn; lia|constructor].
  - destruct (view_runs _ (fun w its => its) (match view (session 20 (rx_env []) (Some []) readme_udp [[rx_from 2 (77, 4711) (rx_hb 1 1 0)]; [rx_from 1 (2130706433, 14550) (rx_cmd 255 190 1 1 0)]]) (fun w its => its) with Some l => l | None => [] end)
      20 (rx_env []) (Some []) readme_udp [[rx_from 2 (77, 4711) (rx_hb 1 1 0)]; [rx_from 1 (2130706433, 14550) (rx_cmd 255 190 1 1 0)]]) as (w & its & R & X). { vm_compute. reflexivity. }
    vm_compute in X. exists its, w. rewrite X. do 2 eexists. exists (firstn 1 its), (skipn 2 its), (firstn 3 its), (skipn 4 its). rewrite X. split; [rewrite <- X; exact R|].
    split; [vm_compute; reflexivity|]. split; [vm_compute; reflexivity|]. split; [vm_compute; reflexivity|]. vm_compute; reflexivity.
Qed.
