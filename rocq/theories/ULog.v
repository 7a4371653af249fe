(* Model of the ULog (PX4) stream handling: src/ulog.cpp, src/ulog.h. *)
From Verif Require Import Base Mav Frame Names Sys LogFile.

(* class ULog, ulog.h:44-57 *)
Record ulst : Type := mkUl {
  u_exp : Z;               (* _expected_seq, uint16_t *)
  u_hdr : bool;            (* _waiting_header *)
  u_first : bool;          (* _waiting_first_msg_offset *)
  u_buf : list Z;          (* _buffer[2048] *)
  u_len : Z;               (* _buffer_len, uint16_t *)
  u_idx : Z;               (* _buffer_index, uint16_t *)
  u_part : list Z;         (* _buffer_partial[1024] *)
  u_plen : Z }.            (* _buffer_partial_len, uint16_t *)

Definition UBUF : nat := 2048.    (* BUFFER_LEN, ulog.h:23 *)
Definition UPART : nat := 1024.

Definition set_part (u : ulst) (p : list Z) (n : Z) : ulst :=
  mkUl (u_exp u) (u_hdr u) (u_first u) (u_buf u) (u_len u) (u_idx u) p n.
Definition set_buf (u : ulst) (b : list Z) (n i : Z) : ulst :=
  mkUl (u_exp u) (u_hdr u) (u_first u) b n i (u_part u) (u_plen u).
Definition set_exp (u : ulst) (e : Z) : ulst :=
  mkUl e (u_hdr u) (u_first u) (u_buf u) (u_len u) (u_idx u) (u_part u) (u_plen u).
Definition set_wait (u : ulst) (h f : bool) : ulst :=
  mkUl (u_exp u) h f (u_buf u) (u_len u) (u_idx u) (u_part u) (u_plen u).

(* ULog::start, ulog.cpp:58-72: the part after LogEndpoint::start succeeded *)
Definition ul_reset (u : ulst) : ulst := mkUl 0 true false (u_buf u) 0 0 (u_part u) 0.

(* first loop of ULog::_logging_flush, ulog.cpp:315-327.  The boolean: return (with the value) *)
Fixpoint flush_part (fuel : nat) (v : env) (y : sys) (g : lg) (u : ulst) : res (sys * lg * ulst * option bool) :=
  if u_plen u =? 0 then Ok (y, g, u, None)
  else
    match fuel with
    | O => Fuel
    | Datatypes.S k =>
      let* bs := slice (u_part u) 0 (Z.to_nat (u_plen u)) in
      let '(r, y, g) := file_write v y g (l_off g) bs in
      if (r =? 0) || (r =? - EAGAIN) then Ok (y, g, u, Some true)
      else if r <? 0 then Ok (y, g, u, Some false)
      else
        let n := u16 (u_plen u - r) in
        let* p := memmove (u_part u) 0 (Z.to_nat r) (Z.to_nat n) in
        flush_part k v y g (set_part u p n)
    end.

(* second loop, ulog.cpp:329-368; ulog_msg_header is msg_size (uint16_t) and msg_type *)
Fixpoint flush_msgs (fuel : nat) (v : env) (y : sys) (g : lg) (u : ulst) : res (sys * lg * ulst * bool) :=
  if negb ((3 <=? u_len u) && (u_plen u =? 0)) then Ok (y, g, u, true)
  else
    match fuel with
    | O => Fuel
    | Datatypes.S k =>
      let i := Z.to_nat (u_idx u) in
      let* b0 := rd (u_buf u) i in
      let* b1 := rd (u_buf u) (i + 1) in
      let full := u16 (b0 + 256 * b1 + 3) in
      if u_len u <? full then Ok (y, g, u, true)
      else
        let* bs := slice (u_buf u) i (Z.to_nat full) in
        let '(r, y, g) := file_write v y g (l_off g) bs in
        if r =? full then flush_msgs k v y g (set_buf u (u_buf u) (u16 (u_len u - full)) (u16 (u_idx u + full)))
        else if (r =? 0) || (r =? - EAGAIN) then Ok (y, g, u, true)
        else if r <? 0 then Ok (y, g, u, false)
        else
          let pl := u16 (full - r) in
          if Z.of_nat UPART <? pl then Ok (y, g, set_part u (u_part u) 0, true)
          else
            let* q := slice (u_buf u) (Z.to_nat (u_idx u + r)) (Z.to_nat pl) in
            let* p := blit (u_part u) 0 q in
            Ok (y, g, set_buf (set_part u p pl) (u_buf u) (u16 (u_len u - full)) (u16 (u_idx u + full)), true)
    end.

(* ULog::_logging_flush, ulog.cpp:313-371 *)
Definition ul_flush (fuel : nat) (v : env) (y : sys) (g : lg) (u : ulst) : res (sys * lg * ulst * bool) :=
  let* (y, g, u, ret) := flush_part fuel v y g u in
  match ret with
  | Some b => Ok (y, g, u, b)
  | None => flush_msgs fuel v y g u
  end.

(* the loop of ULog::stop, ulog.cpp:93-98: while (_buffer_partial_len) if (!_logging_flush()) break; *)
Fixpoint stop_flush (n fuel : nat) (v : env) (y : sys) (g : lg) (u : ulst) : res (sys * lg * ulst) :=
  if u_plen u =? 0 then Ok (y, g, u)
  else
    match n with
    | O => Fuel
    | Datatypes.S n =>
      let* (y, g, u, ok) := ul_flush fuel v y g u in
      if ok then stop_flush n fuel v y g u else Ok (y, g, u)
    end.

(* mavlink_msg_command_long_encode with all parameters zero; COMMAND_LONG is 76, CRC extra 152, 33 bytes *)
Definition send_command (y : sys) (g : lg) (cmd : Z) : sys * lg * ctl :=
  send_ctl y g 76 152 (repeat 0 28 ++ le16 cmd ++ [u8 (l_target g); 0; 0]).

Definition CMD_LOGGING_START : Z := 2510.
Definition CMD_LOGGING_STOP : Z := 2511.

(* ULog::start, ulog.cpp:58-72 *)
Definition ul_start (v : env) (y : sys) (g : lg) (u : ulst) : res (sys * lg * ulst * bool) :=
  let* (y, g, ok) := log_start v y g in
  Ok (y, g, if ok then ul_reset u else u, ok).

(* ULog::stop, ulog.cpp:74-101 *)
Definition ul_stop (fuel : nat) (v : env) (y : sys) (g : lg) (u : ulst) : res (sys * lg * ulst * list ctl) :=
  if negb (l_open g) then Ok (y, g, u, [])
  else
    let '(y, g, c) := send_command y g CMD_LOGGING_STOP in
    let* (y, g, u) := stop_flush fuel fuel v y g (set_buf u (u_buf u) 0 (u_idx u)) in
    let* (y, g) := log_stop v y g in
    Ok (y, g, u, [c]).

(* ULog::_logging_seq, ulog.cpp:201-226: None: ignore the packet; Some drops *)
Definition logging_seq (u : ulst) (seq : Z) : option (ulst * bool) :=
  if u_exp u =? seq then Some (set_exp u (u16 (u_exp u + 1)), false)
  else
    let take := if u_exp u <? seq then u16 (seq - u_exp u) <=? 32767
                else 32767 <=? u16 (u_exp u - seq) in
    if take then Some (set_exp u (u16 (seq + 1)), true) else None.

Definition ULOG_MAGIC : list Z := [85; 76; 111; 103; 1; 18; 53].      (* 0x55 0x4C 0x6F 0x67 0x01 0x12 0x35 *)

(* ULog::_logging_data_process, ulog.cpp:228-311.  [mm] is the memory the message lies in and [b] its
   offset there: either the receive buffer itself or a local copy of 255 bytes.  Layout of
   mavlink_logging_data_t: sequence 0-1, target 2-3, length 4, first_message_offset 5, data 6-254. *)
Definition ul_restart (fuel : nat) (v : env) (y : sys) (g : lg) (u : ulst) : res (sys * lg * ulst * list ctl) :=
  let* (y, g, u, cs) := ul_stop fuel v y g u in
  let* (y, g, u, _) := ul_start v y g u in
  Ok (y, g, u, cs).

(* from ulog.cpp:262 on: the header has been dealt with *)
Definition ul_data (fuel : nat) (v : env) (y : sys) (g : lg) (u : ulst) (mm : list Z) (b : nat) (drops : bool)
  : res (sys * lg * ulst * list Z) :=
  let* (y, g, u) := (if drops then
                       let* (y, g, u, _) := ul_flush fuel v y g u in
                       Ok (y, g, set_wait (set_buf u (u_buf u) 0 0) (u_hdr u) true)
                     else Ok (y, g, u)) in
  let* len := rd mm (b + 4) in
  let u := if Z.of_nat UBUF <? u_len u + len then set_wait (set_buf u (u_buf u) 0 (u_idx u)) (u_hdr u) true else u in
  let* u := (if Z.of_nat UBUF <? u_idx u + u_len u + len then
               let* nb := memmove (u_buf u) 0 (Z.to_nat (u_idx u)) (Z.to_nat (u_len u)) in
               Ok (set_buf u nb (u_len u) 0)
             else Ok u) in
  let* fmo := rd mm (b + 5) in
  if u_first u && (fmo =? 255) then Ok (y, g, u, mm)
  else
    let begin := if u_first u then fmo else 0 in
    let u := set_wait u (u_hdr u) false in
    if len =? 0 then Ok (y, g, u, mm)
    else
      let len' := u8 (len - begin) in
      let* mm := blit mm (b + 4) [len'] in
      let* bs := slice mm (b + 6 + Z.to_nat begin) (Z.to_nat len') in
      let* nb := blit (u_buf u) (Z.to_nat (u_idx u + u_len u)) bs in
      let u := set_buf u nb (u16 (u_len u + len')) (u_idx u) in
      let* (y, g, u, _) := ul_flush fuel v y g u in
      Ok (y, g, u, mm).

Definition ul_process (fuel : nat) (v : env) (y : sys) (g : lg) (u : ulst) (mm : list Z) (b : nat)
  : res (sys * lg * ulst * list Z * list ctl) :=
  let* s0 := rd mm b in
  let* s1 := rd mm (b + 1) in
  match logging_seq u (s0 + 256 * s1) with
  | None => Ok (y, g, u, mm, [])
  | Some (u, drops) =>
    if u_hdr u then
      let* len := rd mm (b + 4) in
      if len <? 16 then let* (y, g, u, cs) := ul_restart fuel v y g u in Ok (y, g, u, mm, cs)
      else
        let* mg := slice mm (b + 6) 7 in
        if negb (beqs mg ULOG_MAGIC) then let* (y, g, u, cs) := ul_restart fuel v y g u in Ok (y, g, u, mm, cs)
        else
          let* hd := slice mm (b + 6) 16 in
          let* p := blit (u_part u) 0 hd in
          let u := set_wait (set_part u p 16) false (u_first u) in
          let* mm := memmove mm (b + 6) (b + 22) (Z.to_nat len) in
          let* mm := blit mm (b + 4) [len - 16] in
          let* (y, g, u, mm) := ul_data fuel v y g u mm b drops in
          Ok (y, g, u, mm, [])
    else
      let* (y, g, u, mm) := ul_data fuel v y g u mm b drops in
      Ok (y, g, u, mm, [])
  end.
