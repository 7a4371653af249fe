(* What the loggers ask of the vehicle, and what counts as its answer. *)
From Verif Require Import Base Mav SpecFrame SpecLog.

(* the protocol of a logger: remote log blocks (ArduPilot), log streaming (PX4), or none (telemetry log) *)
Inductive protocol : Type := Blocks | Streaming | NoProtocol.

(* message identifier and payload (with trimmed zeros restored) of a raw MAVLink 2 packet *)
Definition raw_id (pkt : list Z) : Z := nth 7 pkt 0 + 256 * nth 8 pkt 0 + 65536 * nth 9 pkt 0.
Definition raw_payload (n : nat) (pkt : list Z) : list Z := restored n (firstn (Z.to_nat (nth 1 pkt 0)) (skipn 10 pkt)).

(* REMOTE_LOG_BLOCK_STATUS (185): seqno 0-3, target system 4, component 5, status 6; seqno 2147483646 asks to start, 2147483645 to
   stop.  COMMAND_LONG (76): parameters 0-27, command 28-29, target system 30; 2510 is MAV_CMD_LOGGING_START, 2511 _STOP. *)
Definition request (k : protocol) (blocks command target : Z) (pkt : list Z) : Prop :=
  match k with
  | Blocks => raw_id pkt = 185 /\ field32 (raw_payload 7 pkt) 0 = blocks /\ nth 4 (raw_payload 7 pkt) 0 = target /\ nth 6 (raw_payload 7 pkt) 0 = 1
  | Streaming => raw_id pkt = 76 /\ field16 (raw_payload 33 pkt) 28 = command /\ nth 30 (raw_payload 33 pkt) 0 = target
  | NoProtocol => False
  end.
Definition start_request (k : protocol) : Z -> list Z -> Prop := request k 2147483646 2510.
Definition stop_request (k : protocol) : Z -> list Z -> Prop := request k 2147483645 2511.

(* the vehicle's answer to a start request: block 0, or COMMAND_ACK (77: command 0-1, result 2) accepting the command *)
Definition answer (k : protocol) (p : packet) : bool :=
  match k with
  | Blocks => (p_id p =? 184) && (block_number p =? 0)
  | Streaming => (p_id p =? 77) && (field16 (restored 3 (p_payload p)) 0 =? 2510) && (nth 2 (restored 3 (p_payload p)) 0 =? 0)
  | NoProtocol => false
  end.
(* messages with log data *)
Definition log_data (k : protocol) (p : packet) : bool :=
  match k with
  | Blocks => p_id p =? 184
  | Streaming => (p_id p =? 266) || (p_id p =? 267)
  | NoProtocol => false
  end.
