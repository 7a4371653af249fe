(* The parts of the MAVLink C library that mavlink-router calls.  The library is
   a git submodule which is empty in /repo (modules/mavlink_c_library_v2), so
   these definitions follow the public MAVLink sources (checksum.h,
   mavlink_types.h) and belong to the trusted base. *)
From Verif Require Import Base.

(* Start markers and constants: mavlink_types.h; used at endpoint.cpp:299-379. *)
Definition STX2 : Z := 253.            (* MAVLINK_STX *)
Definition STX1 : Z := 254.            (* MAVLINK_STX_MAVLINK1 *)
Definition HDR2 : nat := 10.           (* sizeof(mavlink_router_mavlink2_header), endpoint.h:110-119 *)
Definition HDR1 : nat := 6.            (* sizeof(mavlink_router_mavlink1_header), endpoint.h:129-136 *)
Definition SIGLEN : nat := 13.         (* MAVLINK_SIGNATURE_BLOCK_LEN *)

(* crc_accumulate (checksum.h), called at endpoint.cpp:665-666. *)
Definition crc_accumulate (data crc : Z) : Z :=
  let tmp := Z.lxor data (Z.land crc 255) in
  let tmp := Z.land (Z.lxor tmp (Z.shiftl tmp 4)) 255 in
  Z.land
    (Z.lxor (Z.lxor (Z.lxor (Z.shiftr crc 8) (Z.shiftl tmp 8)) (Z.shiftl tmp 3))
            (Z.shiftr tmp 4))
    65535.

(* crc_init + crc_calculate (checksum.h). *)
Fixpoint crc_run (crc : Z) (l : list Z) : Z :=
  match l with
  | [] => crc
  | b :: t => crc_run (crc_accumulate b crc) t
  end.

Definition crc_calculate (l : list Z) : Z := crc_run 65535 l.

(* mavlink_msg_entry_t (mavlink_types.h): the fields used by the router.
   [e_tsys]/[e_tcomp]: offset of the target field when the corresponding
   MAV_MSG_ENTRY_FLAG_HAVE_TARGET_* flag is set. *)
Record entry : Type := mkEntry {
  e_crc_extra : Z;
  e_max_len : Z;
  e_tsys : option nat;
  e_tcomp : option nat }.

(* mavlink_get_msg_entry: an arbitrary table.  The library returns the entry
   whose msgid equals the argument, so endpoint.cpp:432 (msg_id =
   msg_entry->msgid) is the identity and is not modelled. *)
Definition table := Z -> option entry.
