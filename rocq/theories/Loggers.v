(* Model of the loggers: src/binlog.cpp, src/ulog.cpp (write_msg), src/tlog.cpp, src/autolog.cpp and the
   run-time part of src/logendpoint.cpp that calls the loggers' virtual functions. *)
From Verif Require Import Base Mav Frame Names Sys LogFile ULog.

(* the state of the classes derived from LogEndpoint *)
Inductive backend : Type :=
| BBin (acked : Z)          (* BinLog::_last_acked_seqno, uint32_t *)
| BULog (u : ulst)
| BTele.

(* ---- binary log ------------------------------------------------------------------- *)

(* mavlink_msg_remote_log_block_status_pack: id 185, CRC extra 186, seqno 0-3, target 4-5, status 6 *)
Definition send_block_status (y : sys) (g : lg) (seqno status : Z) : sys * lg * ctl :=
  send_ctl y g 185 186 (le32 seqno ++ [u8 (l_target g); 0; status]).

Definition BLOCK_STOP : Z := 2147483645.     (* MAV_REMOTE_LOG_DATA_BLOCK_STOP *)
Definition BLOCK_START : Z := 2147483646.    (* MAV_REMOTE_LOG_DATA_BLOCK_START *)
Definition BLOCK_NACK : Z := 0.
Definition BLOCK_ACK : Z := 1.

(* the NACK loop of BinLog::_send_ack, binlog.cpp:169-178: n iterations, all with the same number *)
Fixpoint send_nacks (n : nat) (y : sys) (g : lg) (seqno : Z) : sys * lg * list ctl :=
  match n with
  | O => (y, g, [])
  | Datatypes.S n =>
    let '(y, g, c) := send_block_status y g seqno BLOCK_NACK in
    let '(y, g, cs) := send_nacks n y g seqno in
    (y, g, c :: cs)
  end.

(* BinLog::_send_ack, binlog.cpp:151-192.  The loop variable runs from acked+1 (uint32_t) up to seqno. *)
Definition send_ack (y : sys) (g : lg) (acked seqno : Z) : sys * lg * Z * list ctl :=
  if seqno <? acked then
    let '(y, g, c) := send_block_status y g seqno BLOCK_ACK in (y, g, acked, [c])
  else
    let '(y, g, cs) := send_nacks (Z.to_nat (seqno - u32 (acked + 1))) y g seqno in
    let '(y, g, c) := send_block_status y g seqno BLOCK_ACK in
    (y, g, seqno, cs ++ [c]).

(* BinLog::start, binlog.cpp:48-57 *)
Definition bin_start (v : env) (y : sys) (g : lg) (acked : Z) : res (sys * lg * Z * bool) :=
  let* (y, g, ok) := log_start v y g in
  Ok (y, g, if ok then 0 else acked, ok).

(* BinLog::stop, binlog.cpp:59-69 *)
Definition bin_stop (v : env) (y : sys) (g : lg) : res (sys * lg * list ctl) :=
  if negb (l_open g) then Ok (y, g, [])
  else
    let '(y, g, c) := send_block_status y g BLOCK_STOP 1 in
    let* (y, g) := log_stop v y g in
    Ok (y, g, [c]).

(* BinLog::_restart, binlog.cpp:221-226 *)
Definition bin_restart (v : env) (y : sys) (g : lg) (acked : Z) : res (sys * lg * Z * list ctl) :=
  let* (y, g, cs) := bin_stop v y g in
  let* (y, g, acked, _) := bin_start v y g acked in
  Ok (y, g, acked, cs).

(* BinLog::_logging_data_process, binlog.cpp:194-219.  lseek fails on a closed file (EBADF) or when the
   system says so; the offset is computed in uint32_t. *)
Definition bin_process (v : env) (y : sys) (g : lg) (acked seqno : Z) (data : list Z)
  : res (sys * lg * Z * list ctl) :=
  if negb (l_open g) then bin_restart v y g acked
  else
    let (s, y) := ask v y in
    if s <? 0 then bin_restart v y g acked
    else
      let off := Z.to_nat (u32 (seqno * 200)) in
      let '(r, y, g) := file_write v y g off data in
      if (r <? 0) && negb (r =? - EAGAIN) then bin_restart v y g acked
      else if negb (r =? 200) then Ok (y, g, acked, [])
      else Ok (send_ack y g acked seqno).

(* ---- dispatch of the virtual functions start() and stop() ------------------------------ *)

Definition lstart (v : env) (y : sys) (g : lg) (b : backend) : res (sys * lg * backend * bool) :=
  match b with
  | BBin a => let* (y, g, a, ok) := bin_start v y g a in Ok (y, g, BBin a, ok)
  | BULog u => let* (y, g, u, ok) := ul_start v y g u in Ok (y, g, BULog u, ok)
  | BTele => let* (y, g, ok) := log_start v y g in Ok (y, g, BTele, ok)       (* tlog.cpp:38-45 *)
  end.

Definition lstop (fuel : nat) (v : env) (y : sys) (g : lg) (b : backend) : res (sys * lg * backend * list ctl) :=
  match b with
  | BBin a => let* (y, g, cs) := bin_stop v y g in Ok (y, g, BBin a, cs)
  | BULog u => let* (y, g, u, cs) := ul_stop fuel v y g u in Ok (y, g, BULog u, cs)
  | BTele =>                                                                   (* tlog.cpp:47-55 *)
    if negb (l_open g) then Ok (y, g, BTele, [])
    else let* (y, g) := log_stop v y g in Ok (y, g, BTele, [])
  end.

(* LogEndpoint::_handle_auto_start_stop, logendpoint.cpp:480-514; base_mode is byte 6 of the heartbeat
   payload (read in place, without restoring trimmed zeros), MAV_MODE_FLAG_SAFETY_ARMED is 128 *)
Definition auto_start_stop (fuel : nat) (v : env) (y : sys) (g : lg) (b : backend) (mem : list Z) (m : minfo)
  : res (sys * lg * backend * list ctl) :=
  if l_target g =? -1 then Ok (y, g, b, [])
  else
    match l_mode g with
    | MAlways =>
      if l_open g then Ok (y, g, b, [])
      else
        let* (y, g, b, ok) := lstart v y g b in
        Ok (y, if ok then g else set_mode g MDisabled, b, [])
    | MWhileArmed =>
      if (m_id m =? 0) && (m_ssys m =? l_target g) && (m_scomp m =? 1) then
        let* bm := rd mem (m_poff m + 6) in
        let armed := 128 <=? bm in
        if negb (l_open g) && armed then
          let* (y, g, b, ok) := lstart v y g b in
          Ok (y, if ok then g else set_mode g MDisabled, b, [])
        else if l_open g && negb armed then lstop fuel v y g b
        else Ok (y, g, b, [])
      else Ok (y, g, b, [])
    | MDisabled => Ok (y, g, b, [])
    end.

(* ---- write_msg ---------------------------------------------------------------------------- *)

(* common prologue of the flight stack loggers: payload length limited to the dialect's maximum and number
   of zero bytes MAVLink 2 trimmed (binlog.cpp:105-121, ulog.cpp:124-139, Endpoint::get_trimmed_zeros
   endpoint.cpp:693-709) *)
Definition payload_dims (e : entry) (mem : list Z) (m : minfo) : res (Z * Z) :=
  let* stx := rd mem 0 in
  let pl := if e_max_len e <? m_plen m then e_max_len e else m_plen m in
  if stx =? STX2 then
    let* hl := rd mem 1 in
    Ok (pl, if e_max_len e <? hl then 0 else e_max_len e - hl)
  else Ok (pl, 0).

(* a local struct of [size] bytes filled with the payload and the trimmed zeros; overflowing it is
   undefined; what follows is not initialised and not modelled (reading it is UB here) *)
Definition local_copy (size : nat) (mem : list Z) (m : minfo) (pl tz : Z) : res (list Z) :=
  let* p := slice mem (m_poff m) (Z.to_nat pl) in
  let loc := p ++ repeat 0 (Z.to_nat tz) in
  if (length loc <=? size)%nat then Ok loc else UB.

Definition count_write (g : lg) (m : minfo) : lg :=
  set_counts g (u32 (l_wtotal g + 1)) (u64 (l_wbytes g + Z.of_nat (m_len m))) (l_sent g) (l_mark g).

Definition rd32 (mm : list Z) (i : nat) : res Z :=
  let* a := rd mm i in let* b := rd mm (i + 1) in let* c := rd mm (i + 2) in let* d := rd mm (i + 3) in
  Ok (a + 256 * b + 65536 * c + 16777216 * d).

(* BinLog::write_msg, binlog.cpp:85-149, after _handle_auto_start_stop; REMOTE_LOG_DATA_BLOCK is 184:
   seqno 0-3, target 4-5, data 6-205 *)
Definition bin_write (v : env) (y : sys) (g : lg) (acked : Z) (mem : list Z) (m : minfo)
  : res (sys * lg * Z * list ctl) :=
  if negb (m_id m =? 184) then Ok (y, g, acked, [])
  else
    match v_tbl v (m_id m) with
    | None => Ok (y, g, acked, [])
    | Some e =>
      let* (pl, tz) := payload_dims e mem m in
      let* (mm, b) := (if tz =? 0 then Ok (mem, m_poff m)
                       else let* loc := local_copy 206 mem m pl tz in Ok (loc, O)) in
      let* seqno := rd32 mm b in
      let* (y, g, cs0, go) :=
        match l_tstart g with
        | Some _ =>
          if seqno =? 0 then
            let* (y, g) := remove_start_timeout y g in
            let (y, g) := start_alive v y g in
            Ok (y, g, [], true)
          else
            let '(y, g, c) := send_block_status y g BLOCK_STOP 1 in Ok (y, g, [c], false)
        | None => Ok (y, g, [], true)
        end in
      if go then
        let* data := slice mm (b + 6) 200 in
        let* (y, g, acked, cs) := bin_process v y g acked seqno data in
        Ok (y, count_write g m, acked, cs0 ++ cs)
      else Ok (y, g, acked, cs0)
    end.

(* bytes of an uninitialised local: arbitrary *)
Fixpoint ask_bytes (n : nat) (v : env) (y : sys) : list Z * sys :=
  match n with
  | O => ([], y)
  | Datatypes.S n => let (b, y) := ask v y in let (r, y) := ask_bytes n v y in (u8 b :: r, y)
  end.

(* ULog::write_msg, ulog.cpp:103-196, after _handle_auto_start_stop.  COMMAND_ACK is 77 (command 0-1,
   result 2), LOGGING_DATA 266, LOGGING_DATA_ACKED 267, LOGGING_ACK 268 (CRC extra 14, 4 bytes). *)
Definition ul_write (fuel : nat) (v : env) (y : sys) (g : lg) (u : ulst) (mem : list Z) (m : minfo)
  : res (sys * lg * ulst * list Z * list ctl) :=
  if negb ((m_id m =? 77) || (m_id m =? 266) || (m_id m =? 267)) then Ok (y, g, u, mem, [])
  else
    match v_tbl v (m_id m) with
    | None => Ok (y, g, u, mem, [])
    | Some e =>
      let* (pl, tz) := payload_dims e mem m in
      if m_id m =? 77 then
        let* loc := local_copy 10 mem m pl tz in
        let (junk, y) := ask_bytes (3 - length loc) v y in
        let cmd := loc ++ junk in
        let* c0 := rd cmd 0 in let* c1 := rd cmd 1 in let* r := rd cmd 2 in
        match l_tstart g with
        | Some _ =>
          if c0 + 256 * c1 =? CMD_LOGGING_START then
            if r =? 0 then
              let* (y, g) := remove_start_timeout y g in
              let (y, g) := start_alive v y g in
              Ok (y, count_write g m, u, mem, [])
            else Ok (y, count_write g m, u, mem, [])
          else Ok (y, g, u, mem, [])
        | None => Ok (y, g, u, mem, [])
        end
      else
        let* (y, g, cs0) :=
          (if m_id m =? 267 then
             let* a := rd mem (m_poff m) in
             let* b := rd mem (m_poff m + 1) in
             let '(y, g, c) := send_ctl y g 268 14 (le16 (a + 256 * b) ++ [u8 (l_target g); 0]) in
             Ok (y, g, [c])
           else Ok (y, g, [])) in
        if tz =? 0 then
          let* (y, g, u, mem, cs) := ul_process fuel v y g u mem (m_poff m) in
          Ok (y, count_write g m, u, mem, cs0 ++ cs)
        else
          let* loc := local_copy 255 mem m pl tz in
          let* (y, g, u, _, cs) := ul_process fuel v y g u loc 0 in
          Ok (y, count_write g m, u, mem, cs0 ++ cs)
    end.

(* htobe64 *)
Definition be64 (z : Z) : list Z :=
  map (fun k => u8 (z / 2 ^ k)) [56; 48; 40; 32; 24; 16; 8; 0].

(* TLog::write_msg, tlog.cpp:57-77, after _handle_auto_start_stop; the clock is an arbitrary value *)
Definition tele_write (v : env) (y : sys) (g : lg) (mem : list Z) (m : minfo) : res (sys * lg) :=
  let (now, y) := ask v y in
  let* data := slice mem 0 (m_len m) in
  let '(_, y, g) := file_write v y g (l_off g) (be64 (u64 now)) in
  let '(_, y, g) := file_write v y g (l_off g) data in
  Ok (y, g).

(* write_msg of the three loggers.  [mem]: the receive buffer the message lies in, from its first byte;
   ULog changes it in place. *)
Definition lwrite (fuel : nat) (v : env) (y : sys) (g : lg) (b : backend) (mem : list Z) (m : minfo)
  : res (sys * lg * backend * list Z * list ctl) :=
  let g := learn_target g m in
  let* (y, g, b, cs) := auto_start_stop fuel v y g b mem m in
  match b with
  | BBin a => let* (y, g, a, cs') := bin_write v y g a mem m in Ok (y, g, BBin a, mem, cs ++ cs')
  | BULog u => let* (y, g, u, mem, cs') := ul_write fuel v y g u mem m in Ok (y, g, BULog u, mem, cs ++ cs')
  | BTele => let* (y, g) := tele_write v y g mem m in Ok (y, g, BTele, mem, cs)
  end.

(* ---- timer callbacks; all return true ------------------------------------------------------ *)

(* _logging_start_timeout: binlog.cpp:32-46, ulog.cpp:42-56, tlog.cpp:32-36 *)
Definition lcb_start (y : sys) (g : lg) (b : backend) : sys * lg * list ctl :=
  match b with
  | BBin _ => let '(y, g, c) := send_block_status y g BLOCK_START 1 in (y, g, [c])
  | BULog _ => let '(y, g, c) := send_command y g CMD_LOGGING_START in (y, g, [c])
  | BTele => (y, g, [])
  end.

(* LogEndpoint::_alive_timeout, logendpoint.cpp:435-445 *)
Definition lcb_alive (fuel : nat) (v : env) (y : sys) (g : lg) (b : backend) : res (sys * lg * backend * list ctl) :=
  let* (y, g, b, cs) :=
    (if l_mark g =? l_wtotal g then
       let* (y, g, b, cs) := lstop fuel v y g b in
       let* (y, g, b, _) := lstart v y g b in
       Ok (y, g, b, cs)
     else Ok (y, g, b, [])) in
  Ok (y, set_counts g (l_wtotal g) (l_wbytes g) (l_sent g) (l_wtotal g), b, cs).

(* LogEndpoint::_fsync, logendpoint.cpp:447-463: repeat while the file is open; the asynchronous fsync has no
   effect visible in the model *)
Definition lcb_fsync (g : lg) : bool := l_open g.

(* ---- automatic dialect selection, src/autolog.cpp, autolog.h -------------------------------- *)

Record autolog : Type := mkAuto {
  a_ep : nat; a_minfree : Z; a_maxlogs : Z; a_mode : lmode; a_fcu : Z;   (* _config *)
  a_target : Z;                                                          (* _target_system_id *)
  a_inner : option (lg * backend) }.                                     (* _logger *)

Definition ext_bin : list Z := [98; 105; 110].
Definition ext_ulg : list Z := [117; 108; 103].
Definition ext_tlog : list Z := [116; 108; 111; 103].

(* new ULog / new BinLog; the staging buffers of ULog are not initialised ([junk]) *)
Definition ul_new (junk : list Z) : ulst := mkUl 0 true false (firstn UBUF junk) 0 0 (skipn UBUF junk) 0.

Definition new_inner (a : autolog) (px4 : bool) (junk : list Z) : lg * backend :=
  (lg_new (a_ep a) (if px4 then ext_ulg else ext_bin) (a_minfree a) (a_maxlogs a) (a_mode a) (a_fcu a),
   if px4 then BULog (ul_new junk) else BBin 0).

(* AutoLog::write_msg, autolog.cpp:25-55; autopilot is byte 5 of the heartbeat payload, MAV_AUTOPILOT_PX4 is
   12, MAV_AUTOPILOT_ARDUPILOTMEGA 3 *)
Definition auto_write (fuel : nat) (v : env) (y : sys) (a : autolog) (mem : list Z) (m : minfo)
  : res (sys * autolog * list Z * list ctl) :=
  match a_inner a with
  | Some (g, b) =>
    let* (y, g, b, mem, cs) := lwrite fuel v y g b mem m in
    Ok (y, mkAuto (a_ep a) (a_minfree a) (a_maxlogs a) (a_mode a) (a_fcu a) (a_target a) (Some (g, b)), mem, cs)
  | None =>
    let t := if (a_target a =? -1) && (m_id m =? 0) && (m_scomp m =? 1) then m_ssys m else a_target a in
    let a := mkAuto (a_ep a) (a_minfree a) (a_maxlogs a) (a_mode a) (a_fcu a) t None in
    if negb ((m_id m =? 0) && (m_ssys m =? t)) then Ok (y, a, mem, [])
    else
      let* ap := rd mem (m_poff m + 5) in
      if ap =? 12 then
        let (junk, y) := ask_bytes (UBUF + UPART) v y in
        Ok (y, mkAuto (a_ep a) (a_minfree a) (a_maxlogs a) (a_mode a) (a_fcu a) t (Some (new_inner a true junk)), mem, [])
      else if ap =? 3 then
        Ok (y, mkAuto (a_ep a) (a_minfree a) (a_maxlogs a) (a_mode a) (a_fcu a) t (Some (new_inner a false [])), mem, [])
      else Ok (y, a, mem, [])
  end.
