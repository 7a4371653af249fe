(* Model of the router: endpoints of all kinds, routing, main loop.  src/mainloop.cpp, src/endpoint.cpp,
   src/timeout.cpp, src/pollable.h. *)
From Verif Require Import Base Mav Frame Dedup Accept Names Sys LogFile ULog Loggers.

(* ---- endpoints ----------------------------------------------------------------------------------- *)

(* sockaddr_in / sockaddr_in6: address and port; port 0 means no peer *)
Definition addr : Type := (Z * Z)%type.

(* LogEndpoint and its subclasses: BinLog, ULog and TLog are [LFile], AutoLog is [LAuto] *)
Inductive logger : Type :=
| LFile (g : lg) (b : backend)
| LAuto (a : autolog).

(* the members of the subclasses of Endpoint, endpoint.h:294-402 *)
Inductive kind : Type :=
| KUart (bauds : list Z) (cur : nat) (tmo : option nat)  (* _baudrates, _current_baud_idx, _change_baud_timeout *)
| KUdp (conf peer : addr) (tmo : option nat)             (* config_sock, sockaddr, nomessage_timeout *)
| KTcp (retry : Z) (valid : bool)                        (* _retry_timeout, _valid *)
| KLog (l : logger).

(* class Endpoint, endpoint.h:138-292.  [ep_fd]: fd >= 0; [ep_poll]: registered with epoll, and whether
   EPOLLOUT is requested.  tx_buf is never filled and left out. *)
Record ep : Type := mkEp {
  ep_kind : kind;
  ep_fd : bool;
  ep_poll : option bool;
  ep_rx : rx;
  ep_rstat : rstat;
  ep_wtotal : Z;             (* _stat.write.total, uint32_t *)
  ep_wbytes : Z;             (* _stat.write.bytes, uint64_t *)
  ep_incomplete : Z;         (* _incomplete_msgs, uint32_t *)
  ep_ids : list Z;           (* _sys_comp_ids *)
  ep_filters : filters;
  ep_group : list Z;         (* _group_name *)
  ep_members : list nat }.   (* _group_members *)

Definition set_kind (e : ep) (k : kind) : ep :=
  mkEp k (ep_fd e) (ep_poll e) (ep_rx e) (ep_rstat e) (ep_wtotal e) (ep_wbytes e) (ep_incomplete e) (ep_ids e) (ep_filters e) (ep_group e) (ep_members e).
Definition set_fd (e : ep) (o : bool) (p : option bool) : ep :=
  mkEp (ep_kind e) o p (ep_rx e) (ep_rstat e) (ep_wtotal e) (ep_wbytes e) (ep_incomplete e) (ep_ids e) (ep_filters e) (ep_group e) (ep_members e).
Definition set_rx (e : ep) (x : rx) (s : rstat) : ep :=
  mkEp (ep_kind e) (ep_fd e) (ep_poll e) x s (ep_wtotal e) (ep_wbytes e) (ep_incomplete e) (ep_ids e) (ep_filters e) (ep_group e) (ep_members e).
Definition set_wstat (e : ep) (t b i : Z) : ep :=
  mkEp (ep_kind e) (ep_fd e) (ep_poll e) (ep_rx e) (ep_rstat e) t b i (ep_ids e) (ep_filters e) (ep_group e) (ep_members e).
Definition set_ids (e : ep) (l : list Z) : ep :=
  mkEp (ep_kind e) (ep_fd e) (ep_poll e) (ep_rx e) (ep_rstat e) (ep_wtotal e) (ep_wbytes e) (ep_incomplete e) l (ep_filters e) (ep_group e) (ep_members e).
Definition set_members (e : ep) (l : list nat) : ep :=
  mkEp (ep_kind e) (ep_fd e) (ep_poll e) (ep_rx e) (ep_rstat e) (ep_wtotal e) (ep_wbytes e) (ep_incomplete e) (ep_ids e) (ep_filters e) (ep_group e) l.

(* ---- the process ------------------------------------------------------------------------------------- *)

(* class Mainloop, mainloop.h.  [w_eps]: all endpoint objects ever created, by creation order (their number is
   the pointer); None: deleted.  [w_order]: g_endpoints.  [w_server]: the listening socket is polled.
   [w_exit]: exit requested, with return code. *)
Record world : Type := mkW {
  w_sys : sys;
  w_eps : list (option ep);
  w_order : list nat;
  w_server : bool;
  w_sniffer : Z;             (* Endpoint::sniffer_sysid, uint16_t *)
  w_dedup : dedup;           (* _msg_dedup *)
  w_hang : bool;             (* should_process_tcp_hangups *)
  w_unknown : Z;             (* _errors_aggregate.msg_to_unknown, uint32_t *)
  w_log : option nat;        (* _log_endpoint *)
  w_exit : option Z }.

Definition set_sys (w : world) (y : sys) : world :=
  mkW y (w_eps w) (w_order w) (w_server w) (w_sniffer w) (w_dedup w) (w_hang w) (w_unknown w) (w_log w) (w_exit w).
Definition set_eps (w : world) (l : list (option ep)) : world :=
  mkW (w_sys w) l (w_order w) (w_server w) (w_sniffer w) (w_dedup w) (w_hang w) (w_unknown w) (w_log w) (w_exit w).
Definition set_order (w : world) (o : list nat) : world :=
  mkW (w_sys w) (w_eps w) o (w_server w) (w_sniffer w) (w_dedup w) (w_hang w) (w_unknown w) (w_log w) (w_exit w).
Definition set_server (w : world) (b : bool) : world :=
  mkW (w_sys w) (w_eps w) (w_order w) b (w_sniffer w) (w_dedup w) (w_hang w) (w_unknown w) (w_log w) (w_exit w).
Definition set_dedup (w : world) (d : dedup) : world :=
  mkW (w_sys w) (w_eps w) (w_order w) (w_server w) (w_sniffer w) d (w_hang w) (w_unknown w) (w_log w) (w_exit w).
Definition set_hang (w : world) (b : bool) : world :=
  mkW (w_sys w) (w_eps w) (w_order w) (w_server w) (w_sniffer w) (w_dedup w) b (w_unknown w) (w_log w) (w_exit w).
Definition set_unknown (w : world) (n : Z) : world :=
  mkW (w_sys w) (w_eps w) (w_order w) (w_server w) (w_sniffer w) (w_dedup w) (w_hang w) n (w_log w) (w_exit w).
Definition set_log (w : world) (l : option nat) : world :=
  mkW (w_sys w) (w_eps w) (w_order w) (w_server w) (w_sniffer w) (w_dedup w) (w_hang w) (w_unknown w) l (w_exit w).
Definition set_exit (w : world) (c : option Z) : world :=
  mkW (w_sys w) (w_eps w) (w_order w) (w_server w) (w_sniffer w) (w_dedup w) (w_hang w) (w_unknown w) (w_log w) c.

(* following a pointer to an endpoint; undefined if the object is gone *)
Definition lookup (w : world) (i : nat) : option ep :=
  match nth_error (w_eps w) i with Some (Some e) => Some e | _ => None end.
Definition get (w : world) (i : nat) : res ep := match lookup w i with Some e => Ok e | None => UB end.
Definition put (w : world) (i : nat) (e : ep) : world := set_eps w (set_nth i (Some e) (w_eps w)).

Definition EPIPE : Z := 32.
Definition EINVAL : Z := 22.

(* ---- what can be observed -------------------------------------------------------------------------------- *)

(* one call of write_msg: the endpoint, the bytes handed to it, and the system call it made: none (not connected,
   no peer), write/sendto with destination and result (number of bytes or -errno), or the logger's processing;
   [dl_req]: the result of epoll_ctl, if EPOLLOUT was requested afterwards *)
Inductive dcall : Type :=
| DNone
| DSent (dest : option addr) (r : Z)
| DLogged.
Record delivery : Type := mkDel { dl_to : nat; dl_bytes : list Z; dl_call : dcall; dl_req : option Z }.

Inductive verdict : Type := Duplicate | Refused | Routed.

(* what the OS returns to read/recvfrom: bytes (none: end of stream, or an empty datagram) and their sender,
   EAGAIN, or another error *)
Inductive osread : Type :=
| OsData (bs : list Z) (from : addr)
| OsAgain
| OsErr (errno : Z).

Inductive item : Type :=
| IRead (i : nat) (o : osread)                                                    (* read/recvfrom called for endpoint i *)
| IRecv (i : nat) (bs : list Z) (m : minfo) (d : verdict) (ds : list delivery)   (* packet received on endpoint i *)
| ICtl (i : nat) (bs : list Z) (m : minfo) (ds : list delivery)                  (* message sent by the logger i *)
| IFire (t : nat) (cb : callback)                                                 (* timer callback invoked *)
| INew (i : nat)                                                                  (* TCP client accepted *)
| IGone (i : nat).                                                                (* endpoint removed from g_endpoints *)

(* ---- writing ------------------------------------------------------------------------------------------------ *)

(* TcpEndpoint::_schedule_reconnect, endpoint.cpp:1788-1808, with TcpEndpoint::close, 1752-1762; closing the
   descriptor removes it from epoll *)
Definition schedule_reconnect (v : env) (y : sys) (i : nat) (e : ep) (retry : Z) : sys * ep :=
  if retry <=? 0 then (y, e)
  else
    let e := set_fd e false None in
    let (_, y) := add_timer v y (1000 * retry) (CbRetry i) in
    (y, e).

(* the peer is gone: endpoint.cpp:1671-1679 and 1716-1723 *)
Definition tcp_lost (v : env) (y : sys) (i : nat) (e : ep) (retry : Z) : sys * ep :=
  if 0 <? retry then
    let (y, e) := schedule_reconnect v y i e retry in (y, set_kind e (KTcp retry true))
  else (y, set_kind e (KTcp retry false)).

(* result of write/sendto for [len] bytes: at most that many, or -errno *)
Definition os_write (v : env) (y : sys) (len : Z) : Z * sys :=
  let (r, y) := ask v y in (if r <? 0 then r else Z.min r len, y).

(* _stat.write and _incomplete_msgs after a write that returned r *)
Definition count_sent (e : ep) (len r : Z) : ep :=
  set_wstat e (u32 (ep_wtotal e + 1)) (u64 (ep_wbytes e + len))
            (if r =? len then ep_incomplete e else u32 (ep_incomplete e + 1)).

(* write_msg: UartEndpoint endpoint.cpp:998-1030, UdpEndpoint 1326-1380, TcpEndpoint 1685-1739, loggers Loggers.v.
   [mem]: the buffer the message lies in, from its first byte; ULog changes it in place.  The messages a logger
   sends ([ctl]) are routed after its write_msg returned; in the code this happens in the middle of it. *)
Definition write_ep (f : nat) (v : env) (y : sys) (i : nat) (e : ep) (mem : list Z) (m : minfo)
  : res (sys * ep * list Z * Z * dcall * list ctl) :=
  let len := Z.of_nat (m_len m) in
  match ep_kind e with
  | KUart _ _ _ =>
    if negb (ep_fd e) then Ok (y, e, mem, - EINVAL, DNone, [])
    else
      let (r, y) := os_write v y len in
      if r =? - EAGAIN then Ok (y, e, mem, r, DSent None r, [])
      else Ok (y, count_sent e len r, mem, (if r <? 0 then -1 else r), DSent None r, [])
  | KUdp _ peer _ =>
    if negb (ep_fd e) then Ok (y, e, mem, - EINVAL, DNone, [])
    else if snd peer =? 0 then Ok (y, e, mem, 0, DNone, [])
    else
      let (r, y) := os_write v y len in
      if r <? 0 then Ok (y, e, mem, r, DSent (Some peer) r, [])
      else Ok (y, count_sent e len r, mem, r, DSent (Some peer) r, [])
  | KTcp retry _ =>
    if negb (ep_fd e) then Ok (y, e, mem, 0, DNone, [])
    else
      let (r, y) := os_write v y len in
      if r <? 0 then
        let (y, e) := (if r =? - EPIPE then tcp_lost v y i e retry else (y, e)) in
        Ok (y, e, mem, r, DSent None r, [])
      else Ok (y, count_sent e len r, mem, r, DSent None r, [])
  | KLog (LFile g b) =>
    let* (y, g, b, mem, cs) := lwrite f v y g b mem m in
    Ok (y, set_kind e (KLog (LFile g b)), mem, len, DLogged, cs)
  | KLog (LAuto a) =>
    let* (y, a, mem, cs) := auto_write f v y a mem m in
    Ok (y, set_kind e (KLog (LAuto a)), mem, len, DLogged, cs)
  end.

(* Mainloop::mod_fd, mainloop.cpp:103-116; it fails on a descriptor that is not registered *)
Definition mod_fd (v : env) (y : sys) (e : ep) (out : bool) : sys * ep * Z :=
  let (r, y) := ask v y in
  match ep_poll e with
  | Some _ => if r <? 0 then (y, e, r) else (y, set_fd e (ep_fd e) (Some out), r)
  | None => (y, e, - EINVAL)
  end.

(* ---- routing -------------------------------------------------------------------------------------------------- *)

(* route a list of control messages of endpoint i with [sub] *)
Fixpoint route_ctls (sub : world -> ctl -> res (world * list delivery * list item)) (w : world) (i : nat) (cs : list ctl)
  : res (world * list item) :=
  match cs with
  | [] => Ok (w, [])
  | c :: r =>
    let* (w, ds, its) := sub w c in
    let* (w, its') := route_ctls sub w i r in
    Ok (w, ICtl i (fst c) (snd c) ds :: its ++ its')
  end.

(* the loop of Mainloop::route_msg, mainloop.cpp:162-192, with Mainloop::write_msg, 143-156; [unknown] as in
   the code *)
Fixpoint route_each (sub : world -> ctl -> res (world * list delivery * list item)) (f : nat) (v : env) (w : world) (order : list nat)
  (mem : list Z) (m : minfo) (unknown : bool) : res (world * list Z * list delivery * list item * bool) :=
  match order with
  | [] => Ok (w, mem, [], [], unknown)
  | i :: r =>
    let* e := get w i in
    match accept_msg (w_sniffer w) (ep_ids e) (ep_filters e) m with
    | Accepted =>
      let* bs := slice mem 0 (m_len m) in
      let* (y, e, mem, ret, call, cs) := write_ep f v (w_sys w) i e mem m in
      let '(y, e, req) := (if ret =? - EAGAIN then let '(y, e, r) := mod_fd v y e true in (y, e, Some r) else (y, e, None)) in
      let w := put (set_sys w y) i e in
      let w := (if ret =? - EPIPE then set_hang w true else w) in
      let* (w, its) := route_ctls sub w i cs in
      let* (w, mem, ds, its', unknown) := route_each sub f v w r mem m false in
      Ok (w, mem, mkDel i bs call req :: ds, its ++ its', unknown)
    | Filtered => route_each sub f v w r mem m false
    | Rejected => route_each sub f v w r mem m unknown
    end
  end.

(* Mainloop::route_msg, mainloop.cpp:158-203.  [n]: nesting of messages sent by loggers *)
Fixpoint route (n f : nat) (v : env) (w : world) (mem : list Z) (m : minfo) : res (world * list Z * list delivery * list item) :=
  match n with
  | O => Fuel
  | Datatypes.S k =>
    let sub w (c : ctl) := (let* (w, _, ds, its) := route k f v w (fst c) (snd c) in Ok (w, ds, its)) in
    let* (w, mem, ds, its, unknown) := route_each sub f v w (w_order w) mem m true in
    Ok (if unknown then set_unknown w (u32 (w_unknown w + 1)) else w, mem, ds, its)
  end.

Definition NEST : nat := 2.

Definition route_sub (f : nat) (v : env) (w : world) (c : ctl) : res (world * list delivery * list item) :=
  let* (w, _, ds, its) := route NEST f v w (fst c) (snd c) in Ok (w, ds, its).

(* ---- receiving -------------------------------------------------------------------------------------------------- *)

(* Endpoint::_add_sys_comp_id, endpoint.cpp:461-480, which calls itself for the members of the group *)
Fixpoint learn (n : nat) (w : world) (i : nat) (id : Z) : res world :=
  match n with
  | O => Fuel
  | Datatypes.S k =>
    let* e := get w i in
    if contains (ep_ids e) id then Ok w
    else
      (fix each (w : world) (l : list nat) : res world :=
         match l with
         | [] => Ok w
         | j :: r => let* w := learn k w j id in each w r
         end) (put w i (set_ids e (ep_ids e ++ [id]))) (ep_members e)
  end.

(* Mainloop::dedup_check_msg, mainloop.cpp:356-360; the clock is read only if de-duplication is on *)
Definition check_dup (v : env) (w : world) (pkt : list Z) : res (world * bool) :=
  if dd_period (w_dedup w) =? 0 then Ok (w, true)
  else
    let (now, y) := ask v (w_sys w) in
    let* (d, fresh) := dedup_check (v_hash v) (w_dedup w) now pkt in
    Ok (set_dedup (set_sys w y) d, fresh).

(* the body of the loop in Endpoint::handle_read, endpoint.cpp:231-248.  The message lies at the beginning of the
   receive buffer of the endpoint. *)
Definition handle_msg (f : nat) (v : env) (w : world) (i : nat) (m : minfo) : res (world * list item) :=
  let* e := get w i in
  let* pkt := slice (rx_data (ep_rx e)) 0 (m_len m) in
  let* (w, fresh) := check_dup v w pkt in
  if negb fresh then Ok (w, [IRecv i pkt m Duplicate []])
  else if negb (allowed_in (ep_filters e) m) then Ok (w, [IRecv i pkt m Refused []])
  else
    let* w := learn (Datatypes.S (length (w_eps w))) w i (m_ssys m * 256 + m_scomp m) in
    let* e := get w i in
    let* (w, mem, ds, its) := route NEST f v w (rx_data (ep_rx e)) m in
    let* e := get w i in
    Ok (put w i (set_rx e (mkRx mem (rx_len (ep_rx e)) (rx_last (ep_rx e))) (ep_rstat e)), IRecv i pkt m Routed ds :: its).

(* UartEndpoint::read_msg, endpoint.cpp:968-983, after Endpoint::read_msg returned a known message *)
Definition keep_baud (w : world) (i : nat) (e : ep) : res world :=
  match ep_kind e with
  | KUart bauds cur (Some t) =>
    let* y := del_timer (w_sys w) t in
    Ok (put (set_sys w y) i (set_kind e (KUart bauds cur None)))
  | _ => Ok w
  end.

(* Endpoint::handle_read, endpoint.cpp:220-252, and the test of fd in Endpoint::read_msg, 263-266.  [rr]: what
   _read_msg returns, if it is called.  [n] bounds the number of packets. *)
Fixpoint read_loop (n f : nat) (v : env) (w : world) (i : nat) (rr : rdres) : res (world * list item * Z) :=
  match n with
  | O => Fuel
  | Datatypes.S k =>
    let* e := get w i in
    if negb (ep_fd e) then Ok (w, [], - EINVAL)
    else
      let* (x, st, r) := read_msg (v_tbl v) (ep_rx e) (ep_rstat e) rr in
      let e := set_rx e x st in
      let w := put w i e in
      match r with
      | RetNone r => Ok (w, [], r)
      | RetMsg known m =>
        let* w := (if known then keep_baud w i e else Ok w) in
        let* (w, its) := handle_msg f v w i m in
        let* (w, its', r) := read_loop k f v w i (RdFail 0) in
        Ok (w, its ++ its', r)
      end
  end.

(* _read_msg: UartEndpoint endpoint.cpp:985-996, UdpEndpoint 1296-1324, TcpEndpoint 1649-1683.  EOF is -1. *)
Definition os_read (v : env) (w : world) (i : nat) (e : ep) (o : osread) : res (world * rdres) :=
  match o with
  | OsAgain => Ok (w, RdFail 0)
  | OsErr n => Ok (w, RdFail (- n))
  | OsData bs from =>
    match ep_kind e with
    | KUdp conf _ tmo =>
      let* y := match tmo with Some t => mod_timer (w_sys w) t 5000 | None => Ok (w_sys w) end in
      Ok (put (set_sys w y) i (set_kind e (KUdp conf from tmo)), RdBytes bs)
    | KTcp retry _ =>
      match bs with
      | [] =>
        if (RXMAX - rx_len (ep_rx e) =? 0)%nat then Ok (w, RdFail 0)
        else let (y, e) := tcp_lost v (w_sys w) i e retry in Ok (put (set_sys w y) i e, RdFail (-1))
      | _ => Ok (w, RdBytes bs)
      end
    | _ => Ok (w, RdBytes bs)
    end
  end.

(* handle_read of an endpoint.  When the peer of a TCP endpoint is gone, the descriptor may be closed in the
   middle of read_msg, which then returns the error without looking at it again. *)
Definition handle_read (f : nat) (v : env) (w : world) (i : nat) (o : osread) : res (world * list item * Z) :=
  let* e := get w i in
  if negb (ep_fd e) then Ok (w, [], - EINVAL)
  else if needs_read (ep_rx e) then
    let* (w, rr) := os_read v w i e o in
    match rr with
    | RdFail r => Ok (w, [IRead i o], r)
    | RdBytes _ => let* (w, its, r) := read_loop (RXMAX + 2) f v w i rr in Ok (w, IRead i o :: its, r)
    end
  else read_loop (RXMAX + 2) f v w i (RdFail 0).

(* ---- timers ---------------------------------------------------------------------------------------------------------- *)

(* UartEndpoint::_change_baud_cb, endpoint.cpp:954-966; the modulo is undefined for an empty list *)
Definition cb_baud (v : env) (w : world) (i : nat) : res world :=
  let* e := get w i in
  match ep_kind e with
  | KUart bauds cur t =>
    match bauds with
    | [] => UB
    | _ => let (_, y) := ask v (w_sys w) in
           Ok (put (set_sys w y) i (set_kind e (KUart bauds (Nat.modulo (cur + 1) (length bauds)) t)))
    end
  | _ => UB
  end.

(* UdpEndpoint::_nomessage_timeout_cb, endpoint.cpp:1276-1294 *)
Definition cb_nomsg (w : world) (i : nat) : res world :=
  let* e := get w i in
  match ep_kind e with
  | KUdp conf _ (Some t) =>
    let* y := mod_timer (w_sys w) t 0 in
    Ok (put (set_sys w y) i (set_kind e (KUdp conf conf (Some t))))
  | _ => UB
  end.

(* Mainloop::add_fd, mainloop.cpp:118-131 *)
Definition add_fd (v : env) (y : sys) (e : ep) : sys * ep :=
  let (r, y) := ask v y in (y, set_fd e true (if r <? 0 then None else Some false)).

(* TcpEndpoint::_retry_timeout_cb, endpoint.cpp:1810-1821, with TcpEndpoint::open, 1606-1647 (socket, connect and
   fcntl: one result).  The boolean is the callback's: repeat. *)
Definition cb_retry (v : env) (w : world) (i : nat) : res (world * bool) :=
  let* e := get w i in
  match ep_kind e with
  | KTcp retry _ =>
    let (r, y) := ask v (w_sys w) in
    if r <? 0 then Ok (put (set_sys w y) i (set_fd e false None), true)
    else let (y, e) := add_fd v y (set_kind e (KTcp retry true)) in Ok (put (set_sys w y) i e, false)
  | _ => UB
  end.

(* Mainloop::_log_aggregate_timeout, mainloop.cpp:327-340, and Endpoint::log_aggregate *)
Definition cb_aggregate (w : world) : res world :=
  fold_left (fun rw i => let* w := rw in let* e := get w i in Ok (put w i (set_wstat e (ep_wtotal e) (ep_wbytes e) 0)))
            (w_order w) (Ok (set_unknown w 0)).

(* callbacks of the loggers; the timers belong to the logger inside an AutoLog endpoint *)
Definition log_cb (w : world) (i : nat) (k : lg -> backend -> res (sys * lg * backend * list ctl * bool)) (f : nat) (v : env)
  : res (world * list item * bool) :=
  let* e := get w i in
  match ep_kind e with
  | KLog (LFile g b) =>
    let* (y, g, b, cs, again) := k g b in
    let* (w, its) := route_ctls (route_sub f v) (put (set_sys w y) i (set_kind e (KLog (LFile g b)))) i cs in
    Ok (w, its, again)
  | KLog (LAuto a) =>
    match a_inner a with
    | Some (g, b) =>
      let* (y, g, b, cs, again) := k g b in
      let a := mkAuto (a_ep a) (a_minfree a) (a_maxlogs a) (a_mode a) (a_fcu a) (a_target a) (Some (g, b)) in
      let* (w, its) := route_ctls (route_sub f v) (put (set_sys w y) i (set_kind e (KLog (LAuto a)))) i cs in
      Ok (w, its, again)
    | None => UB
    end
  | _ => UB
  end.

(* the callback of a timer; the boolean: repeat *)
Definition run_cb (f : nat) (v : env) (w : world) (cb : callback) : res (world * list item * bool) :=
  match cb with
  | CbAggregate => let* w := cb_aggregate w in Ok (w, [], true)
  | CbStats => Ok (w, [], true)
  | CbBaud i => let* w := cb_baud v w i in Ok (w, [], true)
  | CbNoMsg i => let* w := cb_nomsg w i in Ok (w, [], true)
  | CbRetry i => let* (w, again) := cb_retry v w i in Ok (w, [], again)
  | CbLogStart i => log_cb w i (fun g b => let '(y, g, cs) := lcb_start (w_sys w) g b in Ok (y, g, b, cs, true)) f v
  | CbFsync i => log_cb w i (fun g b => Ok (w_sys w, g, b, [], lcb_fsync g)) f v
  | CbAlive i => log_cb w i (fun g b => let* (y, g, b, cs) := lcb_alive f v (w_sys w) g b in Ok (y, g, b, cs, true)) f v
  end.

Definition find_timer (y : sys) (t : nat) : option timer := find (fun x => Nat.eqb (tm_id x) t) (y_timers y).

(* Timeout::handle_read, timeout.cpp:31-45; [fired]: the descriptor was readable and held a count > 0 *)
Definition timer_read (f : nat) (v : env) (w : world) (t : nat) (fired : bool) : res (world * list item) :=
  match find_timer (w_sys w) t with
  | None => UB
  | Some x =>
    if negb fired || tm_dead x then Ok (w, [])
    else
      let* (w, its, again) := run_cb f v w (tm_cb x) in
      let* y := (if again then Ok (w_sys w) else del_timer (w_sys w) t) in
      Ok (set_sys w y, IFire t (tm_cb x) :: its)
  end.

(* ---- events ------------------------------------------------------------------------------------------------------------- *)

(* TcpEndpoint::TcpEndpoint and accept, endpoint.cpp:1522-1552: no filters, no group, no reconnect *)
Definition new_ep (k : kind) (fd : bool) (junk : list Z) (ids : list Z) (fl : filters) (group : list Z) : ep :=
  mkEp k fd None (rx_fresh junk) rstat0 0 0 0 ids fl group [].

(* Mainloop::handle_tcp_connection, mainloop.cpp:224-243; accept4 and setsockopt: one result *)
Definition tcp_connection (v : env) (w : world) : world * list item :=
  let (r, y) := ask v (w_sys w) in
  if r <? 0 then (set_sys w y, [])
  else
    let (junk, y) := ask_bytes RXMAX v y in
    let i := length (w_eps w) in
    let (y, e) := add_fd v y (new_ep (KTcp 0 true) true junk [] no_filters []) in
    (set_order (set_eps (set_sys w y) (w_eps w ++ [Some e])) (w_order w ++ [i]), [INew i]).

(* an event epoll_wait returns, or a signal that asks for exit.  For endpoints: EPOLLIN with what read will
   return, EPOLLOUT, EPOLLERR.  For timers: EPOLLIN with a count > 0, EPOLLERR. *)
Inductive event : Type :=
| EServer
| EEp (i : nat) (rd : option osread) (out err : bool)
| ETimer (t : nat) (fired err : bool)
| ESignal.

Definition is_valid (e : ep) : bool := match ep_kind e with KTcp _ valid => valid | _ => true end.
Definition is_critical (e : ep) : bool := match ep_kind e with KTcp _ _ => false | _ => true end.

(* the body of the loop over the events, mainloop.cpp:266-304; EXIT_FAILURE is 1.  The signal handler asks for exit with 0 *)
Definition handle_event (f : nat) (v : env) (w : world) (ev : event) : res (world * list item) :=
  match ev with
  | EServer => Ok (tcp_connection v w)
  | ESignal => Ok (set_exit w (Some 0), [])
  | EEp i rd out err =>
    let* _ := get w i in
    let* (w, its) :=
      match rd with
      | None => Ok (w, [])
      | Some o =>
        let* (w, its, r) := handle_read f v w i o in
        let* e := get w i in
        Ok (if (r <? 0) && negb (is_valid e) then set_hang w true else w, its)
      end in
    let* e := get w i in
    let w := (if out then let '(y, e, _) := mod_fd v (w_sys w) e false in put (set_sys w y) i e else w) in
    let* e := get w i in
    Ok (if err && is_critical e then set_exit w (Some 1) else w, its)
  | ETimer t fired err =>
    let* (w, its) := timer_read f v w t fired in
    Ok (if err then set_exit w (Some 1) else w, its)
  end.

Fixpoint handle_events (f : nat) (v : env) (w : world) (evs : list event) : res (world * list item) :=
  match evs with
  | [] => Ok (w, [])
  | e :: r =>
    let* (w, its) := handle_event f v w e in
    let* (w, its') := handle_events f v w r in
    Ok (w, its ++ its')
  end.

(* another endpoint holds a shared_ptr to endpoint i in its group *)
Definition held (w : world) (i : nat) : bool :=
  existsb (fun o => match o with Some e => existsb (Nat.eqb i) (ep_members e) | None => false end) (w_eps w).

(* Mainloop::process_tcp_hangups, mainloop.cpp:205-222.  An endpoint no other endpoint points to is destroyed,
   which closes its descriptor. *)
Fixpoint hangups (w : world) (order : list nat) : res (world * list nat * list item) :=
  match order with
  | [] => Ok (w, [], [])
  | i :: r =>
    let* e := get w i in
    if is_valid e then let* (w, o, its) := hangups w r in Ok (w, i :: o, its)
    else
      let w := (if held w i then w else set_eps w (set_nth i None (w_eps w))) in
      let* (w, o, its) := hangups w r in Ok (w, o, IGone i :: its)
  end.

Definition process_hangups (w : world) : res (world * list item) :=
  if w_hang w then
    let* (w, o, its) := hangups w (w_order w) in Ok (set_hang (set_order w o) false, its)
  else Ok (w, []).

(* one iteration of the main loop, mainloop.cpp:258-312 *)
Definition step (f : nat) (v : env) (w : world) (evs : list event) : res (world * list item) :=
  let* (w, its) := handle_events f v w evs in
  let* (w, its') := process_hangups w in
  Ok (set_sys w (sweep_timers (w_sys w)), its ++ its').

(* the loop, until exit is requested *)
Fixpoint run (f : nat) (v : env) (w : world) (batches : list (list event)) : res (world * list item) :=
  match batches with
  | [] => Ok (w, [])
  | b :: r =>
    match w_exit w with
    | Some _ => Ok (w, [])
    | None =>
      let* (w, its) := step f v w b in
      let* (w, its') := run f v w r in
      Ok (w, its ++ its')
    end
  end.

(* what epoll can report: pointers registered when epoll_wait is called *)
Definition registered (w : world) (ev : event) : bool :=
  match ev with
  | EServer => w_server w
  | EEp i _ _ _ => match lookup w i with Some e => match ep_poll e with Some _ => true | None => false end | None => false end
  | ETimer t _ _ => has_timer (w_sys w) t
  | ESignal => true
  end.

(* the end of Mainloop::loop, mainloop.cpp:314-325: the flight stack log is stopped, then everything is freed *)
Definition finish (f : nat) (v : env) (w : world) : res (world * list item) :=
  match w_log w with
  | None => Ok (w, [])
  | Some i =>
    let* e := get w i in
    match ep_kind e with
    | KLog (LFile g b) =>
      let* (y, g, b, cs) := lstop f v (w_sys w) g b in
      route_ctls (route_sub f v) (put (set_sys w y) i (set_kind e (KLog (LFile g b)))) i cs
    | KLog (LAuto a) =>
      match a_inner a with
      | None => Ok (w, [])
      | Some (g, b) =>
        let* (y, g, b, cs) := lstop f v (w_sys w) g b in
        let a := mkAuto (a_ep a) (a_minfree a) (a_maxlogs a) (a_mode a) (a_fcu a) (a_target a) (Some (g, b)) in
        route_ctls (route_sub f v) (put (set_sys w y) i (set_kind e (KLog (LAuto a)))) i cs
      end
    | _ => UB
    end
  end.
