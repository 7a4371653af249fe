(* Model of the log file handling common to all loggers: src/logendpoint.cpp, src/logendpoint.h. *)
From Verif Require Import Base Mav Frame Names Sys.

Inductive lmode : Type := MAlways | MWhileArmed | MDisabled.     (* logendpoint.h:32-37 *)

(* class LogEndpoint, logendpoint.h:51-118: the parts that change at run time or steer the behaviour.
   The log directory is the one of [sys]. *)
Record lg : Type := mkLg {
  l_ep : nat;               (* the endpoint, for the timers' callbacks *)
  l_ext : list Z;           (* _get_logfile_extension() *)
  l_minfree : Z;            (* MinFreeSpace *)
  l_maxlogs : Z;            (* MaxLogFiles *)
  l_mode : lmode;           (* LogMode *)
  l_target : Z;             (* _target_system_id, -1: none yet *)
  l_open : bool;            (* _file != -1 *)
  l_name : list Z;          (* _filename *)
  l_off : nat;              (* offset of the open file *)
  l_tstart : option nat;    (* _timeout.logging_start *)
  l_tfsync : option nat;    (* _timeout.fsync *)
  l_talive : option nat;    (* _timeout.alive *)
  l_wtotal : Z;             (* _stat.write.total, uint32_t *)
  l_wbytes : Z;             (* _stat.write.bytes, uint64_t *)
  l_sent : Z;               (* _stat.read.total / handled, uint32_t *)
  l_mark : Z }.             (* _timeout_write_total *)

Definition set_mode (g : lg) (m : lmode) : lg :=
  mkLg (l_ep g) (l_ext g) (l_minfree g) (l_maxlogs g) m (l_target g) (l_open g) (l_name g) (l_off g)
       (l_tstart g) (l_tfsync g) (l_talive g) (l_wtotal g) (l_wbytes g) (l_sent g) (l_mark g).
Definition set_target (g : lg) (t : Z) : lg :=
  mkLg (l_ep g) (l_ext g) (l_minfree g) (l_maxlogs g) (l_mode g) t (l_open g) (l_name g) (l_off g)
       (l_tstart g) (l_tfsync g) (l_talive g) (l_wtotal g) (l_wbytes g) (l_sent g) (l_mark g).
Definition set_file (g : lg) (o : bool) (n : list Z) (off : nat) : lg :=
  mkLg (l_ep g) (l_ext g) (l_minfree g) (l_maxlogs g) (l_mode g) (l_target g) o n off
       (l_tstart g) (l_tfsync g) (l_talive g) (l_wtotal g) (l_wbytes g) (l_sent g) (l_mark g).
Definition set_timeouts (g : lg) (s f a : option nat) : lg :=
  mkLg (l_ep g) (l_ext g) (l_minfree g) (l_maxlogs g) (l_mode g) (l_target g) (l_open g) (l_name g) (l_off g)
       s f a (l_wtotal g) (l_wbytes g) (l_sent g) (l_mark g).
Definition set_counts (g : lg) (w b s m : Z) : lg :=
  mkLg (l_ep g) (l_ext g) (l_minfree g) (l_maxlogs g) (l_mode g) (l_target g) (l_open g) (l_name g) (l_off g)
       (l_tstart g) (l_tfsync g) (l_talive g) w b s m.

(* LogEndpoint::LogEndpoint, logendpoint.cpp:61-81; [fcu]: LogSystemId, -1 when not configured *)
Definition lg_new (ep : nat) (ext : list Z) (minfree maxlogs : Z) (mode : lmode) (fcu : Z) : lg :=
  mkLg ep ext minfree maxlogs mode fcu false [] 0 None None None 0 0 0 0.

(* LogEndpoint::_send_msg, logendpoint.cpp:83-103, together with the packing in its callers.  The message
   is handed to route_msg by the caller of the logger function in the model, after that function returns:
   routing does not read or change the logger, and the logger does not touch other endpoints. *)
Definition send_ctl (y : sys) (g : lg) (msgid crc_extra : Z) (payload : list Z) : sys * lg * ctl :=
  let data := pack2 (y_seq y) msgid crc_extra payload in
  (mkSys (y_pos y) (y_timers y) (y_next y) (y_fs y) (u8 (y_seq y + 1)),
   set_counts g (l_wtotal g) (l_wbytes g) (u32 (l_sent g + 1)) (l_mark g),
   (data, mkInfo msgid (l_target g) 0 2 0 0 0 (length data))).

(* LogEndpoint::mark_unfinished_logs, logendpoint.cpp:105-139.  opendir, and for each candidate stat and
   chmod, can fail (negative result).  The path is assumed shorter than PATH_MAX. *)
Fixpoint mark_entries (v : env) (y : sys) (l : list dirent) : list dirent * sys :=
  match l with
  | [] => ([], y)
  | e :: r =>
    match scan_index (d_name e) with
    | None => let (r', y) := mark_entries v y r in (e :: r', y)
    | Some _ =>
      let (st, y) := ask v y in
      match d_kind e with
      | FReg =>
        if (0 <=? st) && d_w e then
          let (ch, y) := ask v y in
          let (r', y) := mark_entries v y r in ((if 0 <=? ch then d_readonly e else e) :: r', y)
        else let (r', y) := mark_entries v y r in (e :: r', y)
      | _ => let (r', y) := mark_entries v y r in (e :: r', y)
      end
    end
  end.

Definition mark_unfinished_logs (v : env) (y : sys) : sys :=
  let (o, y) := ask v y in
  match y_fs y with
  | Some l => if 0 <=? o then let (l', y) := mark_entries v y l in set_fs y (Some l') else y
  | None => y
  end.

(* ---- _delete_old_logs, logendpoint.cpp:141-262 ---------------------------------------------- *)

(* std::map<unsigned long, tuple<string, unsigned long>>: operator[] assignment; sorted by key *)
Fixpoint map_put (m : list (Z * (list Z * Z))) (k : Z) (x : list Z * Z) : list (Z * (list Z * Z)) :=
  match m with
  | [] => [(k, x)]
  | (k', x') :: r => if k <? k' then (k, x) :: m else if k =? k' then (k, x) :: r else (k', x') :: map_put r k x
  end.

(* logendpoint.cpp:186-210; fstatat can fail *)
Fixpoint collect (v : env) (y : sys) (l : list dirent) (m : list (Z * (list Z * Z)))
  : list (Z * (list Z * Z)) * sys :=
  match l with
  | [] => (m, y)
  | e :: r =>
    match scan_log (d_name e) with
    | None => collect v y r m
    | Some idx =>
      let (st, y) := ask v y in
      let closed := match d_kind e with FDir => false | _ => true end in
      if (0 <=? st) && closed && negb (d_w e)
      then collect v y r (map_put m idx (d_name e, Z.of_nat (length (d_data e))))
      else collect v y r m
    end
  end.

(* conversion to int64_t / ssize_t *)
Definition s64 (z : Z) : Z := (z + 9223372036854775808) mod 18446744073709551616 - 9223372036854775808.

(* logendpoint.cpp:226-254; remove can fail *)
Fixpoint delete_loop (v : env) (y : sys) (m : list (Z * (list Z * Z))) (btd ftd : Z) : sys :=
  match m with
  | [] => y
  | (_, (name, size)) :: r =>
    if (btd <=? 0) && (ftd <=? 0) then y
    else
      let (rm, y) := ask v y in
      if 0 <=? rm
      then delete_loop v (set_fs y (Some (filter (fun e => negb (beqs (d_name e) name)) (entries (y_fs y)))))
                       r (s64 (btd - size)) (ftd - 1)
      else delete_loop v y r btd ftd
  end.

(* statvfs: >= 0 the free space in bytes, -2 (ENOENT) no such directory, other negative: error *)
Definition delete_old_logs (v : env) (y : sys) (g : lg) : sys :=
  let (sv, y) := ask v y in
  if sv =? -2 then y
  else
    let free := if 0 <=? sv then u64 sv else 18446744073709551615 in
    if (l_minfree g <? free) && (l_maxlogs g =? 0) then y
    else
      let (o, y) := ask v y in
      match y_fs y with
      | None => y
      | Some l =>
        if o <? 0 then y
        else
          let (m, y) := collect v y l [] in
          let btd := s64 (l_minfree g - free) in
          let ftd := if 0 <? l_maxlogs g then s64 (Z.of_nat (length m) - l_maxlogs g) else -1 in
          delete_loop v y m btd ftd
      end.

(* ---- opening a file, logendpoint.cpp:264-355 --------------------------------------------------- *)

(* LogEndpoint::_get_prefix, 264-278 *)
Fixpoint get_prefix (l : list dirent) (prefix : Z) : Z :=
  match l with
  | [] => prefix
  | e :: r =>
    match scan_index (d_name e) with
    | Some u => if (prefix <=? u) && (u <? 4294967295) then get_prefix r (u + 1) else get_prefix r prefix
    | None => get_prefix r prefix
    end
  end.

(* LogEndpoint::_open_or_create_dir, 280-296; mkdir_p is modelled in Mkdir.v *)
Definition open_dir (v : env) (y : sys) : option (list dirent) * sys :=
  let (o, y) := ask v y in
  match y_fs y with
  | Some l => if 0 <=? o then (Some l, y) else (None, y)
  | None => if 0 <=? o then (Some [], set_fs y (Some [])) else (None, y)
  end.

(* localtime(time()): six arbitrary values, kept in range; years 1970 to 9969 *)
Definition ask_stamp (v : env) (y : sys) : stamp * sys :=
  let (a, y) := ask v y in let (b, y) := ask v y in let (c, y) := ask v y in
  let (d, y) := ask v y in let (e, y) := ask v y in let (f, y) := ask v y in
  (mkStamp (1970 + a mod 8000) (1 + b mod 12) (1 + c mod 31) (d mod 24) (e mod 60) (f mod 61), y).

(* the loop of _get_file, 318-351: [n] attempts left, j made.  The file name always fits in _filename
   (NamesProofs.log_name_length).  openat fails with EEXIST exactly when the name exists, other errors
   when the result is negative. *)
Fixpoint create_loop (n : nat) (v : env) (y : sys) (l : list dirent) (i : Z) (j : Z) (t : stamp) (ext : list Z)
  : option (list Z) * sys :=
  match n with
  | O => (None, y)
  | Datatypes.S n =>
    let name := log_name (u32 (i + j)) t ext in
    let (o, y) := ask v y in
    if o <? 0 then (None, y)
    else if fs_mem l name then create_loop n v y l i (j + 1) t ext
    else (Some name, set_fs y (Some (l ++ [mkDirent name FReg true []])))
  end.

(* LogEndpoint::_get_file, 298-355; MAX_RETRIES is 10 *)
Definition get_file (v : env) (y : sys) (g : lg) : option (list Z) * sys :=
  let (t, y) := ask_stamp v y in
  let (d, y) := open_dir v y in
  match d with
  | None => (None, y)
  | Some l => create_loop 11 v y l (get_prefix l 0) 0 t (l_ext g)
  end.

(* ---- start and stop ---------------------------------------------------------------------------- *)

(* LogEndpoint::start, logendpoint.cpp:388-433.  When a timer cannot be created the file stays behind,
   empty and writable. *)
Definition log_start (v : env) (y : sys) (g : lg) : res (sys * lg * bool) :=
  if l_open g then Ok (y, g, false)
  else
    let y := delete_old_logs v y g in
    let (f, y) := get_file v y g in
    match f with
    | None => Ok (y, g, false)
    | Some name =>
      let g1 := set_file g true name 0 in
      let (ts, y) := add_timer v y 1000 (CbLogStart (l_ep g)) in
      match ts with
      | None => Ok (y, set_timeouts (set_file g1 false name 0) None (l_tfsync g1) (l_talive g1), false)
      | Some ts =>
        let (tf, y) := add_timer v y 1000 (CbFsync (l_ep g)) in
        match tf with
        | None =>
          let* y := del_timer y ts in
          Ok (y, set_timeouts (set_file g1 false name 0) None None (l_talive g1), false)
        | Some tf => Ok (y, set_timeouts g1 (Some ts) (Some tf) (l_talive g1), true)
        end
      end
    end.

(* if (t) { del_timeout(t); t = nullptr; } *)
Definition drop_timer (y : sys) (t : option nat) : res sys :=
  match t with Some id => del_timer y id | None => Ok y end.

(* LogEndpoint::stop, logendpoint.cpp:357-386; chmod can fail *)
Definition log_stop (v : env) (y : sys) (g : lg) : res (sys * lg) :=
  let* y := drop_timer y (l_tstart g) in
  let* y := drop_timer y (l_talive g) in
  let* y := drop_timer y (l_tfsync g) in
  let (ch, y) := ask v y in
  let y := if 0 <=? ch then
             match y_fs y with
             | Some l => set_fs y (Some (fs_upd l (l_name g) d_readonly))
             | None => y
             end
           else y in
  Ok (y, set_timeouts (set_file g false (l_name g) (l_off g)) None None None).

(* LogEndpoint::_start_alive_timeout, logendpoint.cpp:471-478; ALIVE_TIMEOUT is 5 *)
Definition start_alive (v : env) (y : sys) (g : lg) : sys * lg :=
  let (t, y) := add_timer v y 5000 (CbAlive (l_ep g)) in
  (y, set_timeouts g (l_tstart g) (l_tfsync g) t).

(* LogEndpoint::_remove_logging_start_timeout, logendpoint.cpp:465-469 *)
Definition remove_start_timeout (y : sys) (g : lg) : res (sys * lg) :=
  match l_tstart g with
  | Some id => let* y := del_timer y id in Ok (y, set_timeouts g None (l_tfsync g) (l_talive g))
  | None => UB
  end.

(* "set the expected system id to the first autopilot that we get a heartbeat from": binlog.cpp:91-95,
   ulog.cpp:108-112, tlog.cpp:59-63, autolog.cpp:31-35; MAV_COMP_ID_AUTOPILOT1 is 1, HEARTBEAT is 0 *)
Definition learn_target (g : lg) (m : minfo) : lg :=
  if (l_target g =? -1) && (m_id m =? 0) && (m_scomp m =? 1) then set_target g (m_ssys m) else g.

(* write(_file, bs, n) on a log file at offset [off]: >= 0 that many bytes at most, negative -errno *)
Definition file_write (v : env) (y : sys) (g : lg) (off : nat) (bs : list Z) : Z * sys * lg :=
  if l_open g then
    let (r, y) := ask v y in
    if r <? 0 then (r, y, g)
    else
      let n := Nat.min (Z.to_nat r) (length bs) in
      let y := match y_fs y with
               | Some l => set_fs y (Some (fs_upd l (l_name g) (d_put off (firstn n bs))))
               | None => y
               end in
      (Z.of_nat n, y, set_file g true (l_name g) (off + n))
  else (-9, y, g).   (* EBADF *)

Definition EAGAIN : Z := 11.
