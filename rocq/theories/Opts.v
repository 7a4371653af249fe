(* Model of the option parsers and of option extraction: src/common/conf_file.cpp:340-407, 466-616, and the parsers in
   src/endpoint.cpp, src/logendpoint.cpp, src/main.cpp.  [storage_len] is the size of the field by construction of the
   tables and is left out.  A parser gets the value and the structure, and returns its code and the structure. *)
From Coq Require Import String.
From Verif Require Import Base Names Num Conf Accept LogFile RouterSetup.
Local Open Scope string_scope.
Local Open Scope list_scope.
Local Open Scope Z_scope.

Definition parser (D : Type) : Type := list Z -> D -> res (Z * D).

(* assert(val_len) *)
Definition asserted {D} (p : parser D) : parser D := fun v d => match v with [] => UB | _ :: _ => p v d end.

(* parse_stdstring, conf_file.cpp:501-517 *)
Definition parse_str {D} (set : D -> list Z -> D) : parser D := asserted (fun v d => Ok (0, set d v)).

(* the tokens strtok(.., ",") returns *)
Fixpoint toks (acc : list Z) (s : list Z) : list (list Z) :=
  match s with
  | [] => match acc with [] => [] | _ => [rev acc] end
  | c :: r => if c =? 44 then match acc with [] => toks [] r | _ => rev acc :: toks [] r end else toks (c :: acc) r
  end.

(* parse_uint8_vector, conf_file.cpp:519-541: push_back(atoi(token)) into a vector of uint8_t *)
Definition parse_u8s {D} (get : D -> list Z) (set : D -> list Z -> D) : parser D :=
  asserted (fun v d => Ok (0, set d (get d ++ map (fun t => u8 (atoi t)) (toks [] (cstr v))))).
(* parse_uint32_vector, conf_file.cpp:543-566 *)
Definition parse_u32s {D} (get : D -> list Z) (set : D -> list Z -> D) : parser D :=
  asserted (fun v d => Ok (0, set d (get d ++ map (fun t => u32 (atol t)) (toks [] (cstr v))))).

(* DEFINE_PARSE_INT, conf_file.cpp:596-616 *)
Definition parse_num {D} (f : list Z -> Z * option Z) (set : D -> Z -> D) : parser D :=
  asserted (fun v d => let (r, x) := f (cstr v) in Ok (r, match x with Some x => set d x | None => d end)).
Definition parse_i {D} (set : D -> Z -> D) : parser D := parse_num safe_atoi set.
Definition parse_ul {D} (set : D -> Z -> D) : parser D := parse_num safe_atoul set.

(* parse_bool, conf_file.cpp:568-594 *)
Definition parse_bool {D} (set : D -> bool -> D) : parser D :=
  asserted (fun v d =>
    if memcaseeq (lit "true") v then Ok (0, set d true)
    else if memcaseeq (lit "false") v then Ok (0, set d false)
    else parse_i (fun d x => set d (negb (x =? 0))) v d).

Inductive udpmode : Type := UUndefined | UServer | UClient.          (* endpoint.h:60 *)
(* UdpEndpoint::parse_udp_mode, endpoint.cpp:1382-1409 (values above INT_MAX characters cannot be stored) *)
Definition parse_udp_mode {D} (set : D -> udpmode -> D) : parser D :=
  asserted (fun v d =>
    if memcaseeq v (lit "normal") then Ok (0, set d UClient)
    else if memcaseeq v (lit "eavesdropping") then Ok (0, set d UServer)
    else if memcaseeq v (lit "server") then Ok (0, set d UServer)
    else Ok (- EINVAL, d)).

(* LogEndpoint::parse_mavlink_dialect, logendpoint.cpp:516-543 *)
Definition parse_dialect {D} (set : D -> dialect -> D) : parser D :=
  asserted (fun v d =>
    if memcaseeq v (lit "auto") then Ok (0, set d DAuto)
    else if memcaseeq v (lit "common") then Ok (0, set d DCommon)
    else if memcaseeq v (lit "ardupilotmega") then Ok (0, set d DArdupilot)
    else Ok (- EINVAL, d)).

(* LogEndpoint::parse_log_mode, logendpoint.cpp:545-573 *)
Definition parse_log_mode {D} (set : D -> lmode -> D) : parser D :=
  asserted (fun v d =>
    if (20 <? length v)%nat then Ok (- EINVAL, d)
    else if strcaseeq (cstr v) (lit "always") then Ok (0, set d MAlways)
    else if strcaseeq (cstr v) (lit "while-armed") then Ok (0, set d MWhileArmed)
    else Ok (- EINVAL, d)).

(* LogEndpoint::parse_fcu_id, logendpoint.cpp:576-589: the range check comes after the assignment *)
Definition parse_fcu_id {D} (get : D -> Z) (set : D -> Z -> D) : parser D := fun v d =>
  let* (r, d) := parse_i set v d in
  if negb (r =? 0) then Ok (r, d)
  else if (255 <? get d) || (get d <=? 0) then Ok (- EINVAL, d) else Ok (0, d).

(* Log::Level, log.h:28-35, and log_level_from_str, main.cpp:128-147; None: the exception *)
Inductive level : Type := LError | LWarning | LNotice | LInfo | LDebug | LTrace.
Definition log_level_from_str (s : list Z) : option level :=
  if strcaseeq s (lit "error") then Some LError
  else if strcaseeq s (lit "warning") then Some LWarning
  else if strcaseeq s (lit "info") then Some LInfo
  else if strcaseeq s (lit "debug") then Some LDebug
  else if strcaseeq s (lit "trace") then Some LTrace
  else None.
(* parse_log_level, main.cpp:405-429 *)
Definition parse_log_level {D} (set : D -> level -> D) : parser D :=
  asserted (fun v d =>
    if (10 <? length v)%nat then Ok (- EINVAL, d)
    else match log_level_from_str (cstr v) with
         | Some l => Ok (0, set d l)
         | None => Ok (- EINVAL, d)
         end).

(* ---- tables ----------------------------------------------------------------------------------------------- *)

(* struct OptionsTable, conf_file.h *)
Record opt (D : Type) : Type := mkOpt { o_key : list Z; o_req : bool; o_parse : parser D }.
Arguments mkOpt {D}. Arguments o_key {D}. Arguments o_req {D}. Arguments o_parse {D}.
Definition row {D} (key : string) (req : bool) (p : parser D) : opt D := mkOpt (lit key) req p.

(* ConfFile::_extract_options_from_section, conf_file.cpp:340-374 *)
Fixpoint extract_section {D} (s : sect) (table : list (opt D)) (d : D) : res (Z * D) :=
  match table with
  | [] => Ok (0, d)
  | t :: r =>
    match find_config (o_key t) (se_confs s) with
    | None => if o_req t then Ok (- ENOENT, d) else extract_section s r d
    | Some c =>
      let* (ret, d) := o_parse t (ce_val c) d in
      if ret <? 0 then Ok (ret, d) else extract_section s r d
    end
  end.

(* ConfFile::extract_options by name, conf_file.cpp:376-399 *)
Definition extract_options {D} (cs : confs) (name : list Z) (table : list (opt D)) (d : D) : res (Z * D) :=
  match find_section name cs with
  | None => Ok (if existsb o_req table then - ENOENT else 0, d)
  | Some s => extract_section s table d
  end.

(* ---- configuration structures -------------------------------------------------------------------------------- *)

(* struct UartEndpointConfig, endpoint.h:39-57 *)
Record uartc : Type := mkUa { ua_name : list Z; ua_device : list Z; ua_bauds : list Z; ua_flow : bool; ua_filters : filters; ua_group : list Z }.
(* struct UdpEndpointConfig, endpoint.h:59-80 *)
Record udpc : Type := mkUd { ud_name : list Z; ud_address : list Z; ud_port : Z; ud_mode : udpmode; ud_filters : filters; ud_group : list Z }.
(* struct TcpEndpointConfig, endpoint.h:82-104 *)
Record tcpc : Type := mkTc { tc_name : list Z; tc_address : list Z; tc_port : Z; tc_retry : Z; tc_filters : filters; tc_group : list Z }.
(* struct LogOptions, logendpoint.h:39-49 *)
Record logc : Type := mkLo { lo_dir : list Z; lo_mode : lmode; lo_dialect : dialect; lo_minfree : Z; lo_maxlogs : Z; lo_fcu : Z; lo_tlog : bool }.
(* struct Configuration, mainloop.h:33-47, without the file names and the log backend *)
Record gconf : Type := mkG {
  g_tcp_port : Z; g_stats : bool; g_level : level; g_dedup : Z; g_log : logc;
  g_uarts : list uartc; g_udps : list udpc; g_tcps : list tcpc; g_sniffer : Z }.
Definition g_default : gconf := mkG 5760 false LInfo 0 (mkLo [] MAlways DAuto 0 0 (-1) false) [] [] [] 0.

Definition with_log (g : gconf) (l : logc) : gconf :=
  mkG (g_tcp_port g) (g_stats g) (g_level g) (g_dedup g) l (g_uarts g) (g_udps g) (g_tcps g) (g_sniffer g).
Definition add_uart (g : gconf) (u : uartc) : gconf :=
  mkG (g_tcp_port g) (g_stats g) (g_level g) (g_dedup g) (g_log g) (g_uarts g ++ [u]) (g_udps g) (g_tcps g) (g_sniffer g).
Definition add_udp (g : gconf) (u : udpc) : gconf :=
  mkG (g_tcp_port g) (g_stats g) (g_level g) (g_dedup g) (g_log g) (g_uarts g) (g_udps g ++ [u]) (g_tcps g) (g_sniffer g).
Definition add_tcp (g : gconf) (u : tcpc) : gconf :=
  mkG (g_tcp_port g) (g_stats g) (g_level g) (g_dedup g) (g_log g) (g_uarts g) (g_udps g) (g_tcps g ++ [u]) (g_sniffer g).

(* field updates *)
Definition s_tcp_port (g : gconf) (x : Z) : gconf :=
  mkG x (g_stats g) (g_level g) (g_dedup g) (g_log g) (g_uarts g) (g_udps g) (g_tcps g) (g_sniffer g).
Definition s_stats (g : gconf) (x : bool) : gconf :=
  mkG (g_tcp_port g) x (g_level g) (g_dedup g) (g_log g) (g_uarts g) (g_udps g) (g_tcps g) (g_sniffer g).
Definition s_level (g : gconf) (x : level) : gconf :=
  mkG (g_tcp_port g) (g_stats g) x (g_dedup g) (g_log g) (g_uarts g) (g_udps g) (g_tcps g) (g_sniffer g).
Definition s_dedup (g : gconf) (x : Z) : gconf :=
  mkG (g_tcp_port g) (g_stats g) (g_level g) x (g_log g) (g_uarts g) (g_udps g) (g_tcps g) (g_sniffer g).
Definition s_sniffer (g : gconf) (x : Z) : gconf :=
  mkG (g_tcp_port g) (g_stats g) (g_level g) (g_dedup g) (g_log g) (g_uarts g) (g_udps g) (g_tcps g) x.
Definition s_dir (l : logc) (x : list Z) : logc := mkLo x (lo_mode l) (lo_dialect l) (lo_minfree l) (lo_maxlogs l) (lo_fcu l) (lo_tlog l).
Definition s_mode (l : logc) (x : lmode) : logc := mkLo (lo_dir l) x (lo_dialect l) (lo_minfree l) (lo_maxlogs l) (lo_fcu l) (lo_tlog l).
Definition s_dialect (l : logc) (x : dialect) : logc := mkLo (lo_dir l) (lo_mode l) x (lo_minfree l) (lo_maxlogs l) (lo_fcu l) (lo_tlog l).
Definition s_minfree (l : logc) (x : Z) : logc := mkLo (lo_dir l) (lo_mode l) (lo_dialect l) x (lo_maxlogs l) (lo_fcu l) (lo_tlog l).
Definition s_maxlogs (l : logc) (x : Z) : logc := mkLo (lo_dir l) (lo_mode l) (lo_dialect l) (lo_minfree l) x (lo_fcu l) (lo_tlog l).
Definition s_fcu (l : logc) (x : Z) : logc := mkLo (lo_dir l) (lo_mode l) (lo_dialect l) (lo_minfree l) (lo_maxlogs l) x (lo_tlog l).
Definition s_tlog (l : logc) (x : bool) : logc := mkLo (lo_dir l) (lo_mode l) (lo_dialect l) (lo_minfree l) (lo_maxlogs l) (lo_fcu l) x.

Definition ua_sf (u : uartc) (f : filters) : uartc := mkUa (ua_name u) (ua_device u) (ua_bauds u) (ua_flow u) f (ua_group u).
Definition ud_sf (u : udpc) (f : filters) : udpc := mkUd (ud_name u) (ud_address u) (ud_port u) (ud_mode u) f (ud_group u).
Definition tc_sf (u : tcpc) (f : filters) : tcpc := mkTc (tc_name u) (tc_address u) (tc_port u) (tc_retry u) f (tc_group u).

Definition sf_amo (f : filters) (x : list Z) := let 'mkFilters a b c d e g h i j k l m := f in mkFilters x b c d e g h i j k l m.
Definition sf_bmo (f : filters) (x : list Z) := let 'mkFilters a b c d e g h i j k l m := f in mkFilters a x c d e g h i j k l m.
Definition sf_aco (f : filters) (x : list Z) := let 'mkFilters a b c d e g h i j k l m := f in mkFilters a b x d e g h i j k l m.
Definition sf_bco (f : filters) (x : list Z) := let 'mkFilters a b c d e g h i j k l m := f in mkFilters a b c x e g h i j k l m.
Definition sf_aso (f : filters) (x : list Z) := let 'mkFilters a b c d e g h i j k l m := f in mkFilters a b c d x g h i j k l m.
Definition sf_bso (f : filters) (x : list Z) := let 'mkFilters a b c d e g h i j k l m := f in mkFilters a b c d e x h i j k l m.
Definition sf_ami (f : filters) (x : list Z) := let 'mkFilters a b c d e g h i j k l m := f in mkFilters a b c d e g x i j k l m.
Definition sf_bmi (f : filters) (x : list Z) := let 'mkFilters a b c d e g h i j k l m := f in mkFilters a b c d e g h x j k l m.
Definition sf_aci (f : filters) (x : list Z) := let 'mkFilters a b c d e g h i j k l m := f in mkFilters a b c d e g h i x k l m.
Definition sf_bci (f : filters) (x : list Z) := let 'mkFilters a b c d e g h i j k l m := f in mkFilters a b c d e g h i j x l m.
Definition sf_asi (f : filters) (x : list Z) := let 'mkFilters a b c d e g h i j k l m := f in mkFilters a b c d e g h i j k x m.
Definition sf_bsi (f : filters) (x : list Z) := let 'mkFilters a b c d e g h i j k l m := f in mkFilters a b c d e g h i j k l x.

(* the filter rows, the same in the three tables *)
Definition filter_rows {D} (get : D -> filters) (set : D -> filters -> D) : list (opt D) :=
  [ row "AllowMsgIdOut" false (parse_u32s (fun d => f_allow_msg_out (get d)) (fun d x => set d (sf_amo (get d) x)));
    row "BlockMsgIdOut" false (parse_u32s (fun d => f_block_msg_out (get d)) (fun d x => set d (sf_bmo (get d) x)));
    row "AllowSrcCompOut" false (parse_u8s (fun d => f_allow_comp_out (get d)) (fun d x => set d (sf_aco (get d) x)));
    row "BlockSrcCompOut" false (parse_u8s (fun d => f_block_comp_out (get d)) (fun d x => set d (sf_bco (get d) x)));
    row "AllowSrcSysOut" false (parse_u8s (fun d => f_allow_sys_out (get d)) (fun d x => set d (sf_aso (get d) x)));
    row "BlockSrcSysOut" false (parse_u8s (fun d => f_block_sys_out (get d)) (fun d x => set d (sf_bso (get d) x)));
    row "AllowMsgIdIn" false (parse_u32s (fun d => f_allow_msg_in (get d)) (fun d x => set d (sf_ami (get d) x)));
    row "BlockMsgIdIn" false (parse_u32s (fun d => f_block_msg_in (get d)) (fun d x => set d (sf_bmi (get d) x)));
    row "AllowSrcCompIn" false (parse_u8s (fun d => f_allow_comp_in (get d)) (fun d x => set d (sf_aci (get d) x)));
    row "BlockSrcCompIn" false (parse_u8s (fun d => f_block_comp_in (get d)) (fun d x => set d (sf_bci (get d) x)));
    row "AllowSrcSysIn" false (parse_u8s (fun d => f_allow_sys_in (get d)) (fun d x => set d (sf_asi (get d) x)));
    row "BlockSrcSysIn" false (parse_u8s (fun d => f_block_sys_in (get d)) (fun d x => set d (sf_bsi (get d) x))) ].

(* UartEndpoint::option_table, endpoint.cpp:58-77 *)
Definition uart_table : list (opt uartc) :=
  [ row "baud" false (parse_u32s ua_bauds (fun d x => mkUa (ua_name d) (ua_device d) x (ua_flow d) (ua_filters d) (ua_group d)));
    row "device" true (parse_str (fun d x => mkUa (ua_name d) x (ua_bauds d) (ua_flow d) (ua_filters d) (ua_group d)));
    row "FlowControl" false (parse_bool (fun d x => mkUa (ua_name d) (ua_device d) (ua_bauds d) x (ua_filters d) (ua_group d))) ]
  ++ filter_rows ua_filters ua_sf ++
  [ row "group" false (parse_str (fun d x => mkUa (ua_name d) (ua_device d) (ua_bauds d) (ua_flow d) (ua_filters d) x)) ].

(* UdpEndpoint::option_table, endpoint.cpp:79-99 *)
Definition udp_table : list (opt udpc) :=
  [ row "address" true (parse_str (fun d x => mkUd (ud_name d) x (ud_port d) (ud_mode d) (ud_filters d) (ud_group d)));
    row "mode" true (parse_udp_mode (fun d x => mkUd (ud_name d) (ud_address d) (ud_port d) x (ud_filters d) (ud_group d)));
    row "port" false (parse_ul (fun d x => mkUd (ud_name d) (ud_address d) x (ud_mode d) (ud_filters d) (ud_group d)));
    row "filter" false (parse_u32s (fun d => f_allow_msg_out (ud_filters d)) (fun d x => ud_sf d (sf_amo (ud_filters d) x))) ]
  ++ filter_rows ud_filters ud_sf ++
  [ row "group" false (parse_str (fun d x => mkUd (ud_name d) (ud_address d) (ud_port d) (ud_mode d) (ud_filters d) x)) ].

(* TcpEndpoint::option_table, endpoint.cpp:101-120 *)
Definition tcp_table : list (opt tcpc) :=
  [ row "address" true (parse_str (fun d x => mkTc (tc_name d) x (tc_port d) (tc_retry d) (tc_filters d) (tc_group d)));
    row "port" true (parse_ul (fun d x => mkTc (tc_name d) (tc_address d) x (tc_retry d) (tc_filters d) (tc_group d)));
    row "RetryTimeout" false (parse_i (fun d x => mkTc (tc_name d) (tc_address d) (tc_port d) x (tc_filters d) (tc_group d))) ]
  ++ filter_rows tc_filters tc_sf ++
  [ row "group" false (parse_str (fun d x => mkTc (tc_name d) (tc_address d) (tc_port d) (tc_retry d) (tc_filters d) x)) ].

(* LogEndpoint::option_table, logendpoint.cpp:48-58 *)
Definition log_table : list (opt logc) :=
  [ row "Log" false (parse_str s_dir);
    row "LogMode" false (parse_log_mode s_mode);
    row "MavlinkDialect" false (parse_dialect s_dialect);
    row "MinFreeSpace" false (parse_ul s_minfree);
    row "MaxLogFiles" false (parse_ul s_maxlogs);
    row "LogSystemId" false (parse_fcu_id lo_fcu s_fcu);
    row "LogTelemetry" false (parse_bool s_tlog) ].

(* global_option_table, main.cpp:438-446 *)
Definition global_table : list (opt gconf) :=
  [ row "TcpServerPort" false (parse_ul s_tcp_port);
    row "ReportStats" false (parse_bool s_stats);
    row "DebugLogLevel" false (parse_log_level s_level);
    row "DeduplicationPeriod" false (parse_ul s_dedup);
    row "SnifferSysid" false (parse_ul s_sniffer) ].
