(* Specification side of the logger properties: what a sequence of packets says about the vehicle, and
   what log files should contain. *)
From Verif Require Import Base Mav SpecFrame.

(* a heartbeat sent by an autopilot component (component 1) *)
Definition autopilot_heartbeat (p : packet) : bool := (p_id p =? 0) && (p_comp p =? 1).

(* the monitored system: the configured one, otherwise the sender of the first autopilot heartbeat *)
Fixpoint first_autopilot (ps : list packet) : Z :=
  match ps with
  | [] => -1
  | p :: r => if autopilot_heartbeat p then p_sys p else first_autopilot r
  end.
Definition monitored (configured : Z) (ps : list packet) : Z :=
  if configured =? -1 then first_autopilot ps else configured.

(* HEARTBEAT payload: custom_mode 0-3, type 4, autopilot 5, base_mode 6 ...; bytes missing at the end are 0 *)
Definition base_mode (p : packet) : Z := nth 6 (p_payload p) 0.
Definition autopilot_type (p : packet) : Z := nth 5 (p_payload p) 0.

(* base_mode has MAV_MODE_FLAG_SAFETY_ARMED (128) *)
Definition says_armed (p : packet) : bool := Z.testbit (base_mode p) 7.

(* what the last heartbeat of the autopilot of system [s] said; not armed if there was none *)
Fixpoint reported_armed (s : Z) (ps : list packet) (acc : bool) : bool :=
  match ps with
  | [] => acc
  | p :: r => reported_armed s r (if autopilot_heartbeat p && (p_sys p =? s) then says_armed p else acc)
  end.

(* payload with the zero bytes MAVLink 2 may have cut off the end *)
Definition restored (n : nat) (payload : list Z) : list Z := firstn n (payload ++ repeat 0 n).

Definition field32 (l : list Z) (i : nat) : Z :=
  nth i l 0 + 256 * nth (i + 1) l 0 + 65536 * nth (i + 2) l 0 + 16777216 * nth (i + 3) l 0.
Definition field16 (l : list Z) (i : nat) : Z := nth i l 0 + 256 * nth (i + 1) l 0.

(* REMOTE_LOG_DATA_BLOCK (184): seqno 0-3, target system and component 4-5, data 6-205 *)
Definition block_number (p : packet) : Z := field32 (restored 206 (p_payload p)) 0.
Definition block_data (p : packet) : list Z := skipn 6 (restored 206 (p_payload p)).

(* the most recent data of block [n] *)
Fixpoint latest (n : Z) (bs : list (Z * list Z)) (acc : option (list Z)) : option (list Z) :=
  match bs with
  | [] => acc
  | (k, d) :: r => latest n r (if k =? n then Some d else acc)
  end.

(* REMOTE_LOG_BLOCK_STATUS (185), as raw MAVLink 2 packet: (seqno, status); 1 is ACK, 0 NACK *)
Definition status_of (pkt : list Z) : Z * Z :=
  let len := Z.to_nat (nth 1 pkt 0) in
  let pl := restored 7 (firstn len (skipn 10 pkt)) in
  (field32 pl 0, nth 6 pl 0).

(* telemetry log: records of an 8 byte big-endian time and a packet *)
Fixpoint be_bytes (n : nat) (t : Z) : list Z :=
  match n with
  | O => []
  | S n => (t / 256 ^ Z.of_nat n) mod 256 :: be_bytes n t
  end.
Definition record (t : Z) (p : packet) : list Z := be_bytes 8 t ++ encode p.

(* binary log: the data blocks among the packets; until the vehicle has sent block 0 the others are refused *)
Definition blocks (ps : list packet) : list (Z * list Z) :=
  map (fun p => (block_number p, block_data p)) (filter (fun p => p_id p =? 184) ps).
Fixpoint accepted (waiting : bool) (bs : list (Z * list Z)) : list (Z * list Z) :=
  match bs with
  | [] => []
  | (n, d) :: r => if waiting && negb (n =? 0) then accepted true r else (n, d) :: accepted false r
  end.

(* what the flight stack is told about the accepted blocks, hi being the highest block number so far: for each one, as many negative
   reports as block numbers are skipped - under the number of the block itself - and its acknowledgement *)
Fixpoint block_reports (hi : Z) (bs : list (Z * list Z)) : list (Z * Z) :=
  match bs with
  | [] => []
  | (n, _) :: r => repeat (n, 0) (Z.to_nat (n - hi - 1)) ++ (n, 1) :: block_reports (Z.max hi n) r
  end.

(* [data] is the log made of the blocks [bs]: block n is at 200 * n, holes are zero, and nothing follows the last block *)
Definition log_image (bs : list (Z * list Z)) (data : list Z) : Prop :=
  (forall n i, 0 <= n -> (i < 200)%nat -> nth (Z.to_nat (200 * n) + i) data 0 =
     match latest n bs None with Some d => nth i d 0 | None => 0 end) /\
  length data = fold_right (fun b m => Nat.max (Z.to_nat (200 * (fst b + 1))) m) 0%nat bs.

(* what the telemetry log covers: every message from the moment the monitored system is known *)
Fixpoint covered (configured : Z) (ps : list packet) : list packet :=
  match ps with
  | [] => []
  | p :: r => if (configured =? -1) && negb (autopilot_heartbeat p) then covered configured r else p :: r
  end.

(* a reader of telemetry logs: 8 bytes of time, then a packet whose size its header gives *)
Fixpoint be_value (acc : Z) (l : list Z) : Z :=
  match l with [] => acc | b :: r => be_value (256 * acc + b) r end.
Definition packet_size (l : list Z) : option nat :=
  match l with
  | 253 :: len :: flags :: _ => Some (12 + Z.to_nat len + if Z.odd flags then 13 else 0)%nat
  | 254 :: len :: _ => Some (8 + Z.to_nat len)%nat
  | _ => None
  end.
Fixpoint read_log (fuel : nat) (l : list Z) : list (Z * list Z) :=
  match fuel with
  | O => []
  | S fuel =>
    match packet_size (skipn 8 l) with
    | Some n => (be_value 0 (firstn 8 l), firstn n (skipn 8 l)) :: read_log fuel (skipn n (skipn 8 l))
    | None => []
    end
  end.
