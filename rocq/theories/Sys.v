(* Process-wide state outside the endpoints: results of system calls, timers, log directory, MAVLink
   transmit sequence number. *)
From Verif Require Import Base Mav Frame Names.

(* ---- environment ------------------------------------------------------------ *)

(* What is fixed during a run: the dialect, the hash function of the de-duplication and the results of
   the system calls made, in order (an arbitrary sequence: the meaning of each number is given where it
   is consumed); for the creation of timers separately whether it succeeds. *)
Record env : Type := mkEnv { v_tbl : table; v_hash : list Z -> Z; v_orc : nat -> Z; v_tmr : nat -> bool }.

(* ---- log directory -------------------------------------------------------------- *)

Inductive fkind : Type := FReg | FDir | FOther.

(* one directory entry: name, type, owner write permission (S_IWUSR), contents *)
Record dirent : Type := mkDirent { d_name : list Z; d_kind : fkind; d_w : bool; d_data : list Z }.

(* None: the directory does not exist.  The order of the list is the order readdir returns. *)
Definition fs : Type := option (list dirent).

Definition entries (f : fs) : list dirent := match f with Some l => l | None => [] end.

Fixpoint beqs (a b : list Z) : bool :=
  match a, b with
  | [], [] => true
  | x :: a, y :: b => (x =? y) && beqs a b
  | _, _ => false
  end.

Definition fs_mem (l : list dirent) (name : list Z) : bool := existsb (fun e => beqs (d_name e) name) l.

(* apply [f] to the entries called [name] *)
Definition fs_upd (l : list dirent) (name : list Z) (f : dirent -> dirent) : list dirent :=
  map (fun e => if beqs (d_name e) name then f e else e) l.

Definition d_readonly (e : dirent) : dirent := mkDirent (d_name e) (d_kind e) false (d_data e).

(* contents after writing [bs] at offset [off] (a gap reads as zeros) *)
Definition file_put (data : list Z) (off : nat) (bs : list Z) : list Z :=
  firstn off (data ++ repeat 0 (off - length data)) ++ bs ++ skipn (off + length bs) data.

Definition d_put (off : nat) (bs : list Z) (e : dirent) : dirent :=
  mkDirent (d_name e) (d_kind e) (d_w e) (file_put (d_data e) off bs).

(* ---- timers ------------------------------------------------------------------------ *)

(* the callbacks in use; the number is the endpoint *)
Inductive callback : Type :=
| CbAggregate | CbStats
| CbBaud (i : nat) | CbNoMsg (i : nat) | CbRetry (i : nat)
| CbLogStart (i : nat) | CbFsync (i : nat) | CbAlive (i : nat).

(* class Timeout; [tm_ms]: the programmed interval, [tm_dead]: remove_me.  Timer identities are never
   reused; the linked list is modelled in Timers.v, here it is its abstraction (Prop_Timers.v, C37). *)
Record timer : Type := mkTimer { tm_id : nat; tm_cb : callback; tm_ms : Z; tm_dead : bool }.

Record sys : Type := mkSys {
  y_pos : nat;               (* system calls made so far *)
  y_timers : list timer;     (* Mainloop::_timeouts, newest first *)
  y_next : nat;              (* next timer identity *)
  y_fs : fs;
  y_seq : Z }.               (* transmit sequence number of the MAVLink library, channel 0 *)

Definition set_pos (y : sys) (p : nat) : sys := mkSys p (y_timers y) (y_next y) (y_fs y) (y_seq y).
Definition set_timers (y : sys) (t : list timer) : sys := mkSys (y_pos y) t (y_next y) (y_fs y) (y_seq y).
Definition set_fs (y : sys) (f : fs) : sys := mkSys (y_pos y) (y_timers y) (y_next y) f (y_seq y).

(* result of the next system call *)
Definition ask (v : env) (y : sys) : Z * sys := (v_orc v (y_pos y), set_pos y (Datatypes.S (y_pos y))).

(* Mainloop::add_timeout, mainloop.cpp:506-533; [v_tmr]: whether timerfd_create and epoll_ctl succeed *)
Definition add_timer (v : env) (y : sys) (ms : Z) (cb : callback) : option nat * sys :=
  let ok := v_tmr v (y_pos y) in
  let y := set_pos y (Datatypes.S (y_pos y)) in
  if negb ok then (None, y)
  else (Some (y_next y),
        mkSys (y_pos y) (mkTimer (y_next y) cb (u32 ms) false :: y_timers y) (Datatypes.S (y_next y)) (y_fs y) (y_seq y)).

Definition has_timer (y : sys) (id : nat) : bool := existsb (fun t => Nat.eqb (tm_id t) id) (y_timers y).

(* Mainloop::del_timeout, mainloop.cpp:535-538; undefined on a deleted timer *)
Definition del_timer (y : sys) (id : nat) : res sys :=
  if has_timer y id then
    Ok (set_timers y (map (fun t => if Nat.eqb (tm_id t) id then mkTimer (tm_id t) (tm_cb t) (tm_ms t) true else t)
                          (y_timers y)))
  else UB.

(* Mainloop::mod_timeout, mainloop.cpp:540-550 *)
Definition mod_timer (y : sys) (id : nat) (ms : Z) : res sys :=
  if has_timer y id then
    Ok (set_timers y (map (fun t => if Nat.eqb (tm_id t) id then mkTimer (tm_id t) (tm_cb t) (u32 ms) (tm_dead t) else t)
                          (y_timers y)))
  else UB.

(* Mainloop::_del_timeouts, mainloop.cpp:552-578 *)
Definition sweep_timers (y : sys) : sys := set_timers y (filter (fun t => negb (tm_dead t)) (y_timers y)).

(* ---- packing of the messages the loggers send (MAVLink library, MAVLink 2, unsigned) ------- *)

(* _mav_trim_payload: strip trailing zeros but keep one byte *)
Fixpoint strip_zeros (r : list Z) : list Z :=
  match r with
  | 0 :: r => strip_zeros r
  | _ => r
  end.
Definition trim_payload (p : list Z) : list Z :=
  match rev (strip_zeros (rev p)) with
  | [] => firstn 1 p
  | q => q
  end.

(* mavlink_msg_*_pack followed by mavlink_msg_to_send_buffer: system 2, component 0; the sequence number is a
   uint8_t *)
Definition pack2 (seq msgid crc_extra : Z) (payload : list Z) : list Z :=
  let p := trim_payload payload in
  let body := [Z.of_nat (length p); 0; 0; u8 seq; 2; 0; msgid mod 256; msgid / 256 mod 256; msgid / 65536 mod 256] ++ p in
  let ck := crc_calculate (body ++ [crc_extra]) in
  STX2 :: body ++ [ck mod 256; ck / 256].

(* a message a logger hands to the router: bytes and routing data (struct buffer) *)
Definition ctl : Type := (list Z * minfo)%type.

Definition le16 (z : Z) : list Z := [u8 z; u8 (z / 256)].
Definition le32 (z : Z) : list Z := [u8 z; u8 (z / 256); u8 (z / 65536); u8 (z / 16777216)].
