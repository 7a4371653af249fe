(* What a section of the configuration says about an endpoint, stated apart from the model: [lk] gives the value of a
   key, None if it is absent. *)
From Coq Require Import String.
From Verif Require Import Base Num SpecNum SpecConf Accept Opts LogFile RouterSetup.
Local Open Scope string_scope.
Local Open Scope list_scope.
Local Open Scope Z_scope.

Definition lookup_fn : Type := list Z -> option (list Z).

(* the readings of a value *)
Definition reads_int (v : list Z) (x : Z) : Prop := integer v x /\ - 2147483648 <= x < 2147483648.
Definition reads_nat (v : list Z) (x : Z) : Prop :=
  exists m, integer v m /\ - 18446744073709551616 < m < 18446744073709551616 /\ x = m mod 18446744073709551616.
Definition reads_bool (v : list Z) (b : bool) : Prop :=
  (same v (lit "true") /\ b = true) \/ (same v (lit "false") /\ b = false) \/ (exists n, reads_int v n /\ b = negb (n =? 0)).
Definition reads_udp_mode (v : list Z) (m : udpmode) : Prop :=
  (same v (lit "normal") /\ m = UClient) \/ (same v (lit "server") /\ m = UServer) \/ (same v (lit "eavesdropping") /\ m = UServer).
Definition reads_log_mode (v : list Z) (m : lmode) : Prop :=
  (same v (lit "always") /\ m = MAlways) \/ (same v (lit "while-armed") /\ m = MWhileArmed).
Definition reads_dialect (v : list Z) (m : dialect) : Prop :=
  (same v (lit "auto") /\ m = DAuto) \/ (same v (lit "common") /\ m = DCommon) \/ (same v (lit "ardupilotmega") /\ m = DArdupilot).
Definition reads_level (v : list Z) (m : level) : Prop :=
  (same v (lit "error") /\ m = LError) \/ (same v (lit "warning") /\ m = LWarning) \/ (same v (lit "info") /\ m = LInfo) \/
  (same v (lit "debug") /\ m = LDebug) \/ (same v (lit "trace") /\ m = LTrace).

(* the comma separated pieces, each read as a decimal number and reduced to the width of the list: for numbers in
   range this is the number (C70) *)
Definition words (v : list Z) : list Z := map (fun t => u32 (atol t)) (toks [] (cstr v)).
Definition octets (v : list Z) : list Z := map (fun t => u8 (atoi t)) (toks [] (cstr v)).

(* an optional key: its reading, or the default *)
Definition optional {A} (reads : list Z -> A -> Prop) (lk : option (list Z)) (dflt x : A) : Prop :=
  match lk with Some v => reads v x | None => x = dflt end.
Definition listed (f : list Z -> list Z) (lk : option (list Z)) : list Z := match lk with Some v => f v | None => [] end.
Definition text (lk : option (list Z)) (dflt : list Z) : list Z := match lk with Some v => v | None => dflt end.

Definition section_filters (lk : lookup_fn) (legacy : list Z) : filters :=
  mkFilters (legacy ++ listed words (lk (lit "AllowMsgIdOut"))) (listed words (lk (lit "BlockMsgIdOut")))
            (listed octets (lk (lit "AllowSrcCompOut"))) (listed octets (lk (lit "BlockSrcCompOut")))
            (listed octets (lk (lit "AllowSrcSysOut"))) (listed octets (lk (lit "BlockSrcSysOut")))
            (listed words (lk (lit "AllowMsgIdIn"))) (listed words (lk (lit "BlockMsgIdIn")))
            (listed octets (lk (lit "AllowSrcCompIn"))) (listed octets (lk (lit "BlockSrcCompIn")))
            (listed octets (lk (lit "AllowSrcSysIn"))) (listed octets (lk (lit "BlockSrcSysIn"))).

(* sections of the three kinds *)
Definition uart_says (name : list Z) (lk : lookup_fn) (u : uartc) : Prop :=
  ua_name u = name /\ lk (lit "device") = Some (ua_device u) /\
  ua_bauds u = (match listed words (lk (lit "baud")) with [] => [115200] | l => l end) /\
  optional reads_bool (lk (lit "FlowControl")) false (ua_flow u) /\
  ua_filters u = section_filters lk [] /\ ua_group u = text (lk (lit "group")) [].
Definition tcp_says (name : list Z) (lk : lookup_fn) (u : tcpc) : Prop :=
  tc_name u = name /\ lk (lit "address") = Some (tc_address u) /\
  (exists v, lk (lit "port") = Some v /\ reads_nat v (tc_port u)) /\
  optional reads_int (lk (lit "RetryTimeout")) 5 (tc_retry u) /\
  tc_filters u = section_filters lk [] /\ tc_group u = text (lk (lit "group")) [].
(* the port of a UDP section: [auto] for a client without port, otherwise as written *)
Definition udp_says (name : list Z) (lk : lookup_fn) (auto : Z) (u : udpc) : Prop :=
  ud_name u = name /\ lk (lit "address") = Some (ud_address u) /\
  (exists v, lk (lit "mode") = Some v /\ reads_udp_mode v (ud_mode u)) /\
  (exists p, optional reads_nat (lk (lit "port")) 18446744073709551615 p /\
     ud_port u = if (p =? 18446744073709551615) && (match ud_mode u with UClient => true | _ => false end) then auto else p) /\
  ud_filters u = section_filters lk (listed words (lk (lit "filter"))) /\ ud_group u = text (lk (lit "group")) [].
(* the General section *)
Definition log_says (lk : lookup_fn) (l0 l : logc) : Prop :=
  lo_dir l = text (lk (lit "Log")) (lo_dir l0) /\
  optional reads_log_mode (lk (lit "LogMode")) (lo_mode l0) (lo_mode l) /\
  optional reads_dialect (lk (lit "MavlinkDialect")) (lo_dialect l0) (lo_dialect l) /\
  optional reads_nat (lk (lit "MinFreeSpace")) (lo_minfree l0) (lo_minfree l) /\
  optional reads_nat (lk (lit "MaxLogFiles")) (lo_maxlogs l0) (lo_maxlogs l) /\
  optional (fun v x => reads_int v x /\ 1 <= x <= 255) (lk (lit "LogSystemId")) (lo_fcu l0) (lo_fcu l) /\
  optional reads_bool (lk (lit "LogTelemetry")) (lo_tlog l0) (lo_tlog l).
Definition global_says (lk : lookup_fn) (g0 g : gconf) : Prop :=
  optional reads_nat (lk (lit "TcpServerPort")) (g_tcp_port g0) (g_tcp_port g) /\
  optional reads_bool (lk (lit "ReportStats")) (g_stats g0) (g_stats g) /\
  optional reads_level (lk (lit "DebugLogLevel")) (g_level g0) (g_level g) /\
  optional reads_nat (lk (lit "DeduplicationPeriod")) (g_dedup g0) (g_dedup g) /\
  optional reads_nat (lk (lit "SnifferSysid")) (g_sniffer g0) (g_sniffer g).
