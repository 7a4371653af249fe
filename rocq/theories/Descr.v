(* Model of the descriptors an endpoint holds: opening, closing and re-opening of UART, UDP and TCP endpoints and their timers, one
   system call at a time.  src/endpoint.cpp, src/mainloop.cpp, src/pollable.cpp.  The rest of the router (Router.v) only
   knows whether an endpoint has a descriptor. *)
From Coq Require Import String.
From Verif Require Import Base Names Num Regex.
Open Scope string_scope.
Open Scope list_scope.
Open Scope Z_scope.

(* the kernel: the descriptors of the process that are open; results of system calls come from a tape, [k_n] is the
   position in it *)
Record kern : Type := mkK { k_open : list Z; k_n : nat }.

Definition mem (d : Z) (l : list Z) : bool := existsb (Z.eqb d) l.

(* a system call that does not make a descriptor; negative: it failed *)
Definition call (o : nat -> Z) (k : kern) : Z * kern := (o (k_n k), mkK (k_open k) (Datatypes.S (k_n k))).

(* open, socket, accept4, timerfd_create: a number that is not in use, chosen by the tape, or failure *)
Definition unused (l : list Z) : Z := fold_right Z.max 2 l + 1.
Definition make (o : nat -> Z) (k : kern) : Z * kern :=
  let (r, k) := call o k in
  if r <? 0 then (-1, k)
  else let d := (if mem r (k_open k) then unused (k_open k) else r) in (d, mkK (d :: k_open k) (k_n k)).

(* close: closing a number that is not open (or, by then, belongs to somebody else) counts as undefined *)
Definition close (d : Z) (k : kern) : res kern :=
  if mem d (k_open k) then Ok (mkK (remove Z.eq_dec d (k_open k)) (k_n k)) else UB.

(* the calls of a list, until one fails *)
Fixpoint calls (o : nat -> Z) (n : nat) (k : kern) : bool * kern :=
  match n with
  | O => (true, k)
  | Datatypes.S n => let (r, k) := call o k in if r <? 0 then (false, k) else calls o n k
  end.

(* an endpoint: its descriptor (-1: none) and the timers made for it that are in Mainloop::_timeouts, with remove_me *)
Record dep : Type := mkDe { d_fd : Z; d_tmrs : list (Z * bool) }.

(* Mainloop::add_timeout, mainloop.cpp:506-533; when epoll refuses the descriptor, ~Pollable closes it.  The result of
   timerfd_settime is ignored. *)
Definition add_timeout (o : nat -> Z) (k : kern) (e : dep) : res (kern * dep) :=
  let (d, k) := make o k in
  if d <? 0 then Ok (k, e)
  else
    let (_, k) := call o k in
    let (r, k) := call o k in
    if r <? 0 then let* k := close d k in Ok (k, e)
    else Ok (k, mkDe (d_fd e) ((d, false) :: d_tmrs e)).

(* Mainloop::del_timeout, mainloop.cpp:535-538, of every timer of the endpoint (there is at most one not yet deleted) *)
Definition del_timeouts (e : dep) : dep := mkDe (d_fd e) (map (fun t => (fst t, true)) (d_tmrs e)).

(* Mainloop::_del_timeouts, mainloop.cpp:552-578, for the timers of the endpoint *)
Fixpoint sweep_list (l : list (Z * bool)) (k : kern) : res (kern * list (Z * bool)) :=
  match l with
  | [] => Ok (k, [])
  | (d, true) :: r => let* k := close d k in sweep_list r k
  | (d, false) :: r => let* (k, r) := sweep_list r k in Ok (k, (d, false) :: r)
  end.
Definition sweep (k : kern) (e : dep) : res (kern * dep) :=
  let* (k, l) := sweep_list (d_tmrs e) k in Ok (k, mkDe (d_fd e) l).

(* Pollable::~Pollable, pollable.cpp:23-28, of an endpoint *)
Definition drop (k : kern) (e : dep) : res (kern * dep) :=
  if -1 <? d_fd e then let* k := close (d_fd e) k in Ok (k, mkDe (-1) (d_tmrs e)) else Ok (k, e).

(* the failure exit of the functions that open: close and forget *)
Definition give_up (k : kern) (e : dep) : res (kern * dep * bool) :=
  let* k := close (d_fd e) k in Ok (k, mkDe (-1) (d_tmrs e), false).

(* ---- UART --------------------------------------------------------------------------------------------------- *)

(* UartEndpoint::open, endpoint.cpp:864-952: reset_uart (xtermios.cpp: three calls), TCGETS2 and TCSETS2 must succeed, then two
   calls whose result does not matter, then TCFLSH must succeed *)
Definition uart_open (o : nat -> Z) (k : kern) (e : dep) : res (kern * dep * bool) :=
  let (d, k) := make o k in
  let e := mkDe d (d_tmrs e) in
  if d <? 0 then Ok (k, e, false)
  else
    let (ok, k) := calls o 5 k in
    if negb ok then give_up k e
    else
      let (_, k) := call o k in
      let (_, k) := call o k in
      let (r, k) := call o k in
      if r <? 0 then give_up k e else Ok (k, e, true).

(* UartEndpoint::setup, endpoint.cpp:730-760, with set_speed 799-832 (three calls), set_flow_control 834-862 (two calls) and add_speeds 1032-1048.
   A failure after open leaves the descriptor to the destructor. *)
Definition uart_setup (o : nat -> Z) (k : kern) (bauds : nat) (flow : bool) : res (kern * dep * bool) :=
  let* (k, e, ok) := uart_open o k (mkDe (-1) []) in
  if negb ok then Ok (k, e, false)
  else
    let (s, k) := calls o 3 k in
    if (bauds =? 1)%nat && negb s then Ok (k, e, false)
    else
      let* (k, e) := (if (bauds =? 1)%nat then Ok (k, e) else add_timeout o k e) in
      let (f, k) := (if flow then calls o 2 k else (true, k)) in
      Ok (k, e, f).

(* ---- UDP ---------------------------------------------------------------------------------------------------- *)

(* ipv6_is_multicast, endpoint.cpp:135-139 *)
Definition starts (p s : list Z) : bool := if list_eq_dec Z.eq_dec (firstn (length p) s) p then true else false.
Definition is_multicast (ip : list Z) : bool := starts (lit "ff0") ip.

(* UdpEndpoint::open_ipv6, endpoint.cpp:1133-1192: [multi] is the result of ipv6_is_multicast for the normalised address *)
Definition udp_open6 (o : nat -> Z) (k : kern) (e : dep) (multi server : bool) : res (kern * dep * bool) :=
  let (d, k) := make o k in
  let e := mkDe d (d_tmrs e) in
  if d <? 0 then Ok (k, e, false)
  else
    let (r, k) := (if server && multi then call o k else (0, k)) in
    if r <? 0 then give_up k e
    else
      let (b, k) := (if server then call o k else (0, k)) in
      if b <? 0 then give_up k e else Ok (k, e, true).

(* UdpEndpoint::open_ipv4, endpoint.cpp:1194-1222 *)
Definition udp_open4 (o : nat -> Z) (k : kern) (e : dep) (server : bool) : res (kern * dep * bool) :=
  let (d, k) := make o k in
  let e := mkDe d (d_tmrs e) in
  if d <? 0 then Ok (k, e, false)
  else
    let (b, k) := (if server then call o k else (0, k)) in
    if b <? 0 then give_up k e else Ok (k, e, true).

(* UdpEndpoint::open, endpoint.cpp:1224-1274; UdpEndpoint::setup does nothing else with descriptors *)
Definition udp_setup (o : nat -> Z) (k : kern) (v6 multi server : bool) : res (kern * dep * bool) :=
  let e := mkDe (-1) [] in
  let* (k, e, _) := (if v6 then udp_open6 o k e multi server else udp_open4 o k e server) in
  if d_fd e <? 0 then Ok (k, e, false)
  else
    let (s, k) := (if server then (0, k) else call o k) in
    if s <? 0 then give_up k e
    else
      let* (k, e) := (if server then Ok (k, e) else add_timeout o k e) in
      let (r, k) := call o k in
      if r <? 0 then give_up k e else Ok (k, e, true).

(* UdpEndpoint::~UdpEndpoint, endpoint.cpp:1072-1077, and ~Pollable *)
Definition udp_drop (k : kern) (e : dep) : res (kern * dep) := drop k (del_timeouts e).

(* ---- TCP ---------------------------------------------------------------------------------------------------- *)

(* TcpEndpoint::open_ipv6, endpoint.cpp:1554-1589: the descriptor made, or -1.  The failure exit does not close it. *)
Definition tcp_open6 (o : nat -> Z) (k : kern) (ip : list Z) : res (kern * Z) :=
  let (d, k) := make o k in
  if d =? -1 then Ok (k, -1)
  else
    match tl ip with
    | [] => UB                                       (* ip_str[-1] *)
    | _ => if is_multicast (removelast (tl ip)) then Ok (k, -1) else Ok (k, d)
    end.

(* TcpEndpoint::open, endpoint.cpp:1606-1647, with open_ipv4, 1591-1604; connect and fcntl must succeed *)
Definition tcp_open (o : nat -> Z) (k : kern) (e : dep) (ip : list Z) : res (kern * dep * bool) :=
  let* (k, d) := (if ip_str_is_ipv6 ip then tcp_open6 o k ip else (let (d, k) := make o k in Ok (k, d))) in
  let e := mkDe d (d_tmrs e) in
  if d <? 0 then Ok (k, e, false)
  else
    let (ok, k) := calls o 2 k in
    if ok then Ok (k, e, true) else give_up k e.

(* TcpEndpoint::close, endpoint.cpp:1752-1762; the result of remove_fd is ignored *)
Definition tcp_close (o : nat -> Z) (k : kern) (e : dep) : res (kern * dep) :=
  if -1 <? d_fd e then
    let (_, k) := call o k in
    let* k := close (d_fd e) k in Ok (k, mkDe (-1) (d_tmrs e))
  else Ok (k, mkDe (-1) (d_tmrs e)).

(* TcpEndpoint::_schedule_reconnect, endpoint.cpp:1788-1808 *)
Definition reconnect (o : nat -> Z) (k : kern) (e : dep) (retry : Z) : res (kern * dep) :=
  if retry <=? 0 then Ok (k, e)
  else let* (k, e) := tcp_close o k e in add_timeout o k e.

(* TcpEndpoint::setup, endpoint.cpp:1501-1514; the result of add_fd is ignored.  It always succeeds. *)
Definition tcp_setup (o : nat -> Z) (k : kern) (ip : list Z) (retry : Z) : res (kern * dep) :=
  let* (k, e, ok) := tcp_open o k (mkDe (-1) []) ip in
  if ok then let (_, k) := call o k in Ok (k, e)
  else reconnect o k e retry.

(* the connection is lost: endpoint.cpp:1671-1679 and 1716-1723.  Without reconnection, the object is deleted by
   process_tcp_hangups, mainloop.cpp:205-225, unless a group holds it. *)
Definition tcp_lost (o : nat -> Z) (k : kern) (e : dep) (retry : Z) : res (kern * dep) :=
  if 0 <? retry then reconnect o k e retry else Ok (k, e).

(* the retry timer fires: Timeout::handle_read, timeout.cpp:32-46, and TcpEndpoint::_retry_timeout_cb, endpoint.cpp:1810-1821 *)
Definition tcp_retry (o : nat -> Z) (k : kern) (e : dep) (ip : list Z) : res (kern * dep) :=
  let* (k, e, ok) := tcp_open o k e ip in
  if ok then let (_, k) := call o k in Ok (k, del_timeouts e) else Ok (k, e).

(* TcpEndpoint::~TcpEndpoint, endpoint.cpp:1447-1450, and ~Pollable (the descriptor is -1 by then) *)
Definition tcp_drop (o : nat -> Z) (k : kern) (e : dep) : res (kern * dep) :=
  let* (k, e) := tcp_close o k e in drop k e.

(* Mainloop::handle_tcp_connection, mainloop.cpp:227-245, with TcpEndpoint::accept, endpoint.cpp:1522-1552; the result of
   add_fd is ignored *)
Definition tcp_accept (o : nat -> Z) (k : kern) : res (kern * dep * bool) :=
  let (d, k) := make o k in
  let e := mkDe d [] in
  let (r, k) := (if d =? -1 then (-1, k) else call o k) in
  if r <? 0 then let* (k, e) := tcp_drop o k e in Ok (k, e, false)
  else let (_, k) := call o k in Ok (k, e, true).

(* Mainloop::tcp_open, mainloop.cpp:469-504: bind and listen must succeed; the results of setsockopt and add_fd are ignored *)
Definition tcp_listen (o : nat -> Z) (k : kern) : res (kern * Z) :=
  let (d, k) := make o k in
  if d =? -1 then Ok (k, -1)
  else
    let (_, k) := call o k in
    let (ok, k) := calls o 2 k in
    if ok then let (_, k) := call o k in Ok (k, d)
    else let* k := close d k in Ok (k, -1).

(* ---- the life of an endpoint ---------------------------------------------------------------------------------- *)

Inductive dkind : Type :=
| DUart (bauds : nat) (flow : bool)
| DUdp (v6 multi server : bool)
| DTcp (ip : list Z) (retry : Z)       (* TCP client *)
| DAccepted.                           (* connection to the TCP server *)

(* setup; the boolean: the endpoint was set up *)
Definition begin (o : nat -> Z) (k : kern) (d : dkind) : res (kern * dep * bool) :=
  match d with
  | DUart bauds flow => uart_setup o k bauds flow
  | DUdp v6 multi server => udp_setup o k v6 multi server
  | DTcp ip retry => let* (k, e) := tcp_setup o k ip retry in Ok (k, e, true)
  | DAccepted => tcp_accept o k
  end.

(* what can happen later.  [Others l]: the rest of the process opened and closed descriptors and has [l] now. *)
Inductive dev : Type :=
| Lost                                 (* the other side of the TCP connection is gone *)
| Fires                                (* a timer of the endpoint that is not deleted fires *)
| Found                                (* a packet arrived: the UART keeps its speed, endpoint.cpp:968-983 *)
| Sweep                                (* end of an iteration of the main loop *)
| Others (l : list Z).

Definition own (e : dep) : list Z := (if d_fd e <? 0 then [] else [d_fd e]) ++ map fst (d_tmrs e).
Definition pending (e : dep) : bool := existsb (fun t => negb (snd t)) (d_tmrs e).

(* UartEndpoint::_change_baud_cb, endpoint.cpp:954-966, and UdpEndpoint::_nomessage_timeout_cb, 1276-1294, touch no descriptors (the ioctls of set_speed
   are calls) *)
Definition happen (o : nat -> Z) (k : kern) (d : dkind) (e : dep) (v : dev) : res (kern * dep) :=
  match v, d with
  | Lost, DTcp _ retry => if d_fd e <? 0 then Ok (k, e) else tcp_lost o k e retry
  | Lost, _ => Ok (k, e)
  | Fires, DTcp ip _ => if pending e then tcp_retry o k e ip else Ok (k, e)
  | Fires, DUart _ _ => let (_, k) := calls o 3 k in Ok (k, e)
  | Fires, _ => Ok (k, e)
  | Found, DUart _ _ => Ok (k, del_timeouts e)
  | Found, _ => Ok (k, e)
  | Sweep, _ => sweep k e
  | Others l, _ =>
    if forallb (fun x => (0 <=? x) && negb (mem x (own e))) l then Ok (mkK (own e ++ nodup Z.eq_dec l) (k_n k), e) else Ok (k, e)
  end.

(* a history; also returns what the rest of the process has open *)
Fixpoint lives (o : nat -> Z) (k : kern) (d : dkind) (e : dep) (oth : list Z) (vs : list dev) : res (kern * dep * list Z) :=
  match vs with
  | [] => Ok (k, e, oth)
  | v :: r =>
    let oth := (match v with Others l => if forallb (fun x => (0 <=? x) && negb (mem x (own e))) l then nodup Z.eq_dec l else oth | _ => oth end) in
    let* (k, e) := happen o k d e v in lives o k d e oth r
  end.

(* the endpoint is destroyed, and the main loop frees its deleted timers *)
Definition finish (o : nat -> Z) (k : kern) (d : dkind) (e : dep) : res (kern * dep) :=
  let* (k, e) := match d with
    | DUart _ _ => drop k e
    | DUdp _ _ _ => udp_drop k e
    | _ => tcp_drop o k e
    end in sweep k e.
