(* Specification side of the ULog properties: ULog data as the vehicle streams it (PX4 "ULog file format" and
   the MAVLink messages LOGGING_DATA / LOGGING_DATA_ACKED). *)
From Verif Require Import Base Mav SpecFrame SpecLog.

(* LOGGING_DATA (266), LOGGING_DATA_ACKED (267): sequence 0-1, target 2-3, length 4, first_message_offset 5, data 6-254 *)
Definition ul_fields (p : packet) : list Z := restored 255 (p_payload p).
Definition ul_seq (p : packet) : Z := field16 (ul_fields p) 0.
Definition ul_size (p : packet) : Z := nth 4 (ul_fields p) 0.
Definition ul_offset (p : packet) : Z := nth 5 (ul_fields p) 0.
Definition ul_bytes (p : packet) : list Z := firstn (Z.to_nat (ul_size p)) (skipn 6 (ul_fields p)).
Definition is_ulog (p : packet) : bool := (p_id p =? 266) || (p_id p =? 267).

(* a message of the ULog format: size of the body (2 bytes), type, body *)
Definition ulog_message (m : list Z) : Prop :=
  exists lo hi ty body, m = lo :: hi :: ty :: body /\ is_byte lo /\ is_byte hi /\ Z.of_nat (length body) = lo + 256 * hi.

(* [s] is the messages [ms] followed by the beginning [r] of one more message.  Messages are limited to what the staging
   buffer holds beside one LOGGING_DATA payload. *)
Definition small_message (m : list Z) : Prop := ulog_message m /\ Z.of_nat (length m) <= 1799.
Definition ulog_stream (s : list Z) (ms : list (list Z)) (r : list Z) : Prop :=
  s = concat ms ++ r /\ Forall small_message ms /\ exists t, t <> [] /\ small_message (r ++ t).

(* how far sequence number [s] is ahead of the expected one, in the circle of 16 bit numbers *)
Definition ahead (exp s : Z) : Z := (s - exp) mod 65536.
Definition after (s : Z) : Z := (s + 1) mod 65536.

(* What reaches the logger, as runs of consecutive bytes of the vehicle's stream.  A packet less than half the
   number space ahead of the expected one closes a run (packets were lost); the next run begins at the first message
   boundary a packet announces (first_message_offset, 255: none).  Packets from behind are retransmissions.  [cur]:
   the run so far; [lost]: waiting for a boundary. *)
Fixpoint runs (exp : Z) (lost : bool) (cur : list Z) (ps : list packet) : list (list Z) :=
  match ps with
  | [] => [cur]
  | p :: r =>
    let begin := if ul_offset p =? 255 then runs (after (ul_seq p)) true [] r
                 else runs (after (ul_seq p)) false (skipn (Z.to_nat (ul_offset p)) (ul_bytes p)) r in
    if ahead exp (ul_seq p) =? 0 then
      if lost then begin else runs (after (ul_seq p)) false (cur ++ ul_bytes p) r
    else if ahead exp (ul_seq p) <? 32768 then cur :: begin
    else runs exp lost cur r
  end.

(* the file of a list of runs: their whole messages *)
Definition kept (rs : list (list Z)) (qs : list (list (list Z) * list Z)) : Prop :=
  Forall2 (fun s q => ulog_stream s (fst q) (snd q)) rs qs.
Definition messages (qs : list (list (list Z) * list Z)) : list Z := concat (map (fun q => concat (fst q)) qs).

(* no packet is exactly half the number space ahead (32768) or one more: those are neither clearly new nor clearly old *)
Fixpoint unambiguous (exp : Z) (ps : list packet) : Prop :=
  match ps with
  | [] => True
  | p :: r => ahead exp (ul_seq p) <> 32768 /\ ahead exp (ul_seq p) <> 32769 /\
              unambiguous (if ahead exp (ul_seq p) <? 32768 then after (ul_seq p) else exp) r
  end.

(* fields that make sense: at most 249 data bytes, and a message boundary inside them, if one is announced *)
Definition ul_consistent (p : packet) : Prop :=
  ul_size p <= 249 /\ (ul_offset p = 255 \/ ul_offset p <= ul_size p).

(* the 16 byte header of a ULog file begins with these bytes *)
Definition ulog_magic : list Z := [85; 76; 111; 103; 1; 18; 53].
