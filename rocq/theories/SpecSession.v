(* A vehicle's ULog log as it reaches a streaming logger, read off the trace of the program. *)
From Verif Require Import Base Mav SpecFrame Names Sys LogFile ULog Loggers Router SpecLog SpecULog SpecAsk SpecTalk LogRun ULogRun SpecVehicle.

(* [b] is the part of the trace [its] since logger [i] last told the vehicle to stop, or all of it *)
Definition since_stop (i : nat) (its b : list item) : Prop :=
  exists a, its = a ++ b /\ (a = [] \/ exists a0 s, a = a0 ++ [s] /\ stops Streaming i s) /\ forall s, In s b -> ~ stops Streaming i s.

(* Packet number 0 of a log: the header [hd] of 16 bytes, which begins with the ULog magic, followed by data [x]. (Up to
   233 bytes: see C53 for more.) *)
Definition opening (hd x : list Z) (p : packet) : Prop :=
  ul_packet p /\ is_ulog p = true /\ ul_seq p = 0 /\ 17 <= ul_size p <= 233 /\ ul_bytes p = hd ++ x /\ length hd = 16%nat /\ firstn 7 hd = ulog_magic.
Definition gets_header (i : nat) (hd x : list Z) (h : item) : Prop :=
  exists j p m d ds, h = IRecv j (encode p) m d ds /\ In i (map dl_to ds) /\ opening hd x p.

(* Of the packets [ps] any reach logger [i], in any order, any number of times, between other traffic, but none is more
   than half the number space away from the newest one; [e], [e']: the packet after the newest one, before and after. *)
Inductive follow (i : nat) (ps : list packet) : nat -> list item -> nat -> Prop :=
| fo_end : forall e, follow i ps e [] e
| fo_other : forall e x b e', ~ gets is_ulog i x -> follow i ps e b e' -> follow i ps e (x :: b) e'
| fo_data : forall e j k p m d ds b e', nth_error ps k = Some p -> In i (map dl_to ds) -> - 32767 < Z.of_nat k - Z.of_nat e < 32768 ->
    follow i ps (Nat.max e (Datatypes.S k)) b e' -> follow i ps e (IRecv j (encode p) m d ds :: b) e'.

(* the log since the last stop request: a start request, the header, then packets of the vehicle *)
Definition log_session (i : nat) (hd x : list Z) (ps : list packet) (its : list item) (e : nat) : Prop :=
  exists b1 h b2, since_stop i its (b1 ++ h :: b2) /\ (exists s, In s b1 /\ asks Streaming i s) /\ (forall s, In s b1 -> ~ gets is_ulog i s) /\
    gets_header i hd x h /\ follow i ps 0 b2 e.

(* no write of a message leaves more than 1024 bytes of it behind, unless it fails *)
Definition tame (v : env) (ms : list (list Z)) : Prop :=
  forall k m, In m ms -> Z.of_nat (length m) <= 2048 -> v_orc v k <= 0 \/ Z.of_nat (length m) - 1024 <= v_orc v k.
