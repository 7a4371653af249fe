(* Model of start-up: Mainloop::add_endpoints and the setup functions of the endpoints (src/mainloop.cpp,
   src/endpoint.cpp), and the states the router can reach. *)
From Verif Require Import Base Mav Frame Dedup Accept Names Sys LogFile ULog Loggers Router.

(* ---- configuration ------------------------------------------------------------------------------ *)

(* struct UartEndpointConfig, UdpEndpointConfig, TcpEndpointConfig, endpoint.h:46-104; [ec_valid]: the texts (device,
   address) pass validate_config *)
Inductive epkind : Type :=
| CUart (bauds : list Z) (flow : bool)
| CUdp (server : bool) (host port : Z)
| CTcp (retry : Z) (port : Z).
Record epconf : Type := mkEc { ec_kind : epkind; ec_valid : bool; ec_filters : filters; ec_group : list Z }.

(* struct LogOptions, logendpoint.h:39-49 *)
Inductive dialect : Type := DArdupilot | DCommon | DAuto.
Record logconf : Type := mkLc {
  lc_dialect : dialect; lc_minfree : Z; lc_maxlogs : Z; lc_mode : lmode; lc_fcu : Z; lc_tlog : bool }.

(* struct Configuration, mainloop.h; [cf_log]: None without log directory *)
Record config : Type := mkCf {
  cf_uarts : list epconf; cf_udps : list epconf; cf_tcps : list epconf;
  cf_tcp_port : Z; cf_log : option logconf; cf_sniffer : Z; cf_stats : bool; cf_dedup : Z }.

(* ---- endpoints ------------------------------------------------------------------------------------- *)

Definition ULONG_MAX : Z := 18446744073709551615.
Definition port_ok (p : Z) : bool := negb ((p =? 0) || (p =? ULONG_MAX)).

(* UartEndpoint::setup, endpoint.cpp:736-797, with validate_config 1050-1063, add_speeds 1032-1048; None: setup
   failed.  open, set_speed and set_flow_control: one result each.  Then add_fd, mainloop.cpp:370-380. *)
Definition setup_uart (v : env) (y : sys) (i : nat) (c : epconf) (bauds : list Z) (flow : bool) : option (sys * ep) :=
  if negb (ec_valid c) || is_empty bauds then None
  else
    let (junk, y) := ask_bytes RXMAX v y in
    let (o, y) := ask v y in
    if o <? 0 then None
    else
      let (s, y) := ask v y in
      if (s <? 0) && (length bauds =? 1)%nat then None
      else
        let (t, y) := (if (length bauds =? 1)%nat then (None, y) else add_timer v y 5000 (CbBaud i)) in
        let (fl, y) := (if flow then ask v y else (0, y)) in
        if fl <? 0 then None
        else Some (add_fd v y (new_ep (KUart bauds 0 t) true junk [] (ec_filters c) (ec_group c))).

(* UdpEndpoint::setup, endpoint.cpp:1079-1131, with validate_config 1411-1438 and open 1133-1274: socket, bind and
   the options: one result.  A server has no peer yet (port 0), a client sends to the configured address. *)
Definition setup_udp (v : env) (y : sys) (i : nat) (c : epconf) (server : bool) (host port : Z) : option (sys * ep) :=
  if negb (ec_valid c && port_ok port) then None
  else
    let (junk, y) := ask_bytes RXMAX v y in
    let (o, y) := ask v y in
    if o <? 0 then None
    else
      let a := (host, if server then 0 else u16 port) in
      let (t, y) := (if server then (None, y) else add_timer v y 0 (CbNoMsg i)) in
      Some (add_fd v y (new_ep (KUdp a a t) true junk [] (ec_filters c) (ec_group c))).

(* TcpEndpoint::setup, endpoint.cpp:1459-1515, with validate_config 1764-1786 and open 1606-1647 *)
Definition setup_tcp (v : env) (y : sys) (i : nat) (c : epconf) (retry port : Z) : option (sys * ep) :=
  if negb (ec_valid c && port_ok port) then None
  else
    let (junk, y) := ask_bytes RXMAX v y in
    let e := new_ep (KTcp retry true) false junk [] (ec_filters c) (ec_group c) in
    let (o, y) := ask v y in
    if o <? 0 then Some (schedule_reconnect v y i e retry)
    else Some (add_fd v y e).

Definition setup_ep (v : env) (y : sys) (i : nat) (c : epconf) : option (sys * ep) :=
  match ec_kind c with
  | CUart bauds flow => setup_uart v y i c bauds flow
  | CUdp server host port => setup_udp v y i c server host port
  | CTcp retry port => setup_tcp v y i c retry port
  end.

(* the loops of add_endpoints, mainloop.cpp:370-403 *)
Fixpoint setup_all (v : env) (y : sys) (eps : list (option ep)) (cs : list epconf) : option (sys * list (option ep)) :=
  match cs with
  | [] => Some (y, eps)
  | c :: r =>
    match setup_ep v y (length eps) c with
    | None => None
    | Some (y, e) => setup_all v y (eps ++ [Some e]) r
    end
  end.

(* Endpoint::link_group_member, endpoint.cpp:635-644, called for all other endpoints of the list,
   mainloop.cpp:405-416 (the name comparison there compares a name with itself) *)
Definition link_member (e : ep) (j : nat) (other : ep) : ep :=
  if is_empty (ep_group e) || negb (beqs (ep_group other) (ep_group e)) then e
  else set_members e (ep_members e ++ [j]).

Fixpoint link_one (i : nat) (e : ep) (k : nat) (eps : list (option ep)) : ep :=
  match eps with
  | [] => e
  | Some o :: r => link_one i (if Nat.eqb i k then e else link_member e k o) (Datatypes.S k) r
  | None :: r => link_one i e (Datatypes.S k) r
  end.

Fixpoint link_from (k : nat) (all eps : list (option ep)) : list (option ep) :=
  match eps with
  | [] => []
  | Some e :: r => Some (if is_empty (ep_group e) then e else link_one k e 0 all) :: link_from (Datatypes.S k) all r
  | None :: r => None :: link_from (Datatypes.S k) all r
  end.
Definition link_groups (eps : list (option ep)) : list (option ep) := link_from 0 eps eps.

(* Mainloop::tcp_open, mainloop.cpp:469-504: socket, bind and listen: one result; then add_fd.  The boolean: polled *)
Definition tcp_server (v : env) (y : sys) (port : Z) : bool * sys :=
  if port =? 0 then (false, y)
  else
    let (o, y) := ask v y in
    if o <? 0 then (false, y)
    else let (a, y) := ask v y in (0 <=? a, y).

(* a logger endpoint: no descriptor; knows 2/0 (logendpoint.cpp:61-66) *)
Definition LOG_ID : Z := 2 * 256 + 0.
Definition log_ep (junk : list Z) (l : logger) : ep := new_ep (KLog l) false junk [LOG_ID] no_filters [].

(* the flight stack logger, mainloop.cpp:424-437 *)
Definition new_logger (v : env) (y : sys) (i : nat) (c : logconf) : logger * sys :=
  match lc_dialect c with
  | DArdupilot => (LFile (lg_new i ext_bin (lc_minfree c) (lc_maxlogs c) (lc_mode c) (lc_fcu c)) (BBin 0), y)
  | DCommon => let (uj, y) := ask_bytes (UBUF + UPART) v y in
               (LFile (lg_new i ext_ulg (lc_minfree c) (lc_maxlogs c) (lc_mode c) (lc_fcu c)) (BULog (ul_new uj)), y)
  | DAuto => (LAuto (mkAuto i (lc_minfree c) (lc_maxlogs c) (lc_mode c) (lc_fcu c) (lc_fcu c) None), y)
  end.
Definition new_tlog (i : nat) (c : logconf) : logger :=
  LFile (lg_new i ext_tlog (lc_minfree c) (lc_maxlogs c) (lc_mode c) (lc_fcu c)) BTele.

(* mainloop.cpp:423-449 *)
Definition setup_log (v : env) (y : sys) (i : nat) (c : logconf) : sys * list ep :=
  let (junk, y) := ask_bytes RXMAX v y in
  let (l, y) := new_logger v y i c in
  let y := mark_unfinished_logs v y in
  if lc_tlog c then
    let (junk', y) := ask_bytes RXMAX v y in
    let y := mark_unfinished_logs v y in
    (y, [log_ep junk l; log_ep junk' (new_tlog (Datatypes.S i) c)])
  else (y, [log_ep junk l]).

(* Mainloop::add_endpoints, mainloop.cpp:362-462, and the beginning of Mainloop::loop, 245-259; sniffer_sysid is
   assigned to a uint16_t.  None: the program ends. *)
Definition start (v : env) (y : sys) (c : config) : option world :=
  match setup_all v y [] (cf_uarts c ++ cf_udps c ++ cf_tcps c) with
  | None => None
  | Some (y, eps) =>
    let eps := link_groups eps in
    let (server, y) := tcp_server v y (cf_tcp_port c) in
    let n := length eps in
    let '(y, logs) := match cf_log c with None => (y, []) | Some lc => setup_log v y n lc end in
    let (_, y) := (if cf_stats c then add_timer v y 1000 CbStats else (None, y)) in
    let (_, y) := add_timer v y 5000 CbAggregate in
    let eps := eps ++ map Some logs in
    Some (mkW y eps (seq 0 (length eps)) server (u16 (cf_sniffer c))
              (dedup_new (if 0 <? cf_dedup c then cf_dedup c else 0)) false 0
              (match logs with [] => None | _ => Some n end) None)
  end.

(* the state of the process when it starts *)
Definition boot (f : fs) (pos : nat) : sys := mkSys pos [] 0 f 0.

(* ---- executions ----------------------------------------------------------------------------------------- *)

(* what the operating system may report: bytes, error numbers; only for pointers registered when epoll_wait is
   called *)
Definition wf_read (o : osread) : Prop :=
  match o with OsData bs _ => bytes bs | OsAgain => True | OsErr n => 0 < n end.
Definition wf_event (w : world) (ev : event) : Prop :=
  registered w ev = true /\ match ev with EEp _ (Some o) _ _ => wf_read o | _ => True end.

(* the iterations of the main loop, with everything observed *)
Inductive exec (f : nat) (v : env) (w0 : world) : list item -> world -> Prop :=
| exec_start : exec f v w0 [] w0
| exec_step : forall its w evs its' w', exec f v w0 its w -> w_exit w = None -> Forall (wf_event w) evs ->
    step f v w evs = Ok (w', its') -> exec f v w0 (its ++ its') w'.

(* everything observed in a run of the program so far, and the state it is in between two batches of events *)
Definition runs (f : nat) (v : env) (c : config) (its : list item) (w : world) : Prop :=
  exists d pos w0, start v (boot d pos) c = Some w0 /\ exec f v w0 its w.
