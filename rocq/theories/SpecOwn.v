(* Specification of the messages the program sends itself. *)
From Verif Require Import Base Mav SpecCrc SpecFrame.

(* identifier and CRC extra (MAVLink XML definitions) of COMMAND_LONG, REMOTE_LOG_BLOCK_STATUS and LOGGING_ACK, and the
   position of target_system in the payload *)
Definition own_kinds : list (Z * Z * nat) := [(76, 152, 30%nat); (185, 186, 4%nat); (268, 14, 2%nat)].

(* a MAVLink 2 packet without signature from system 2, component 0, of one of these kinds, with a correct checksum, and
   addressed to the system [target] *)
Definition own_packet (p : packet) (target : Z) : Prop :=
  wf_packet p /\ p_ver p = V2 0 0 [] /\ p_sys p = 2 /\ p_comp p = 0 /\
  exists extra at_, In (p_id p, extra, at_) own_kinds /\ crc_matches extra p /\ nth at_ (p_payload p) 0 = target.
