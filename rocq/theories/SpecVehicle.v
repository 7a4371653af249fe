(* Specification side of the ULog properties: the vehicle that sends a log, and what may reach the router of it. *)
From Verif Require Import Base Mav SpecFrame Sys SpecLog SpecULog LogRun ULogRun.

(* [a] is [b] with some elements left out *)
Inductive part_of {A} : list A -> list A -> Prop :=
| po_nil : forall b, part_of [] b
| po_skip : forall x a b, part_of a b -> part_of a (x :: b)
| po_take : forall x a b, part_of a b -> part_of (x :: a) (x :: b).

(* [data] is the header [hd] followed by some of the messages [ms], in order, each at most once and each unchanged; of
   the last of them, or of the header, the bytes [rest] at the end may be missing *)
Definition log_of (hd : list Z) (ms : list (list Z)) (data rest : list Z) : Prop :=
  exists some, part_of some ms /\ data ++ rest = hd ++ concat some /\ (length rest <= length (last some hd))%nat.

(* the position in the stream where message number k begins *)
Definition begins (ms : list (list Z)) (k : nat) : nat := length (concat (firstn k ms)).

(* the position in the stream where the data of packet number i begins; [x]: the data sent along with the header *)
Definition packet_at (x : list Z) (ps : list packet) (i : nat) : nat := length (x ++ concat (map ul_bytes (firstn i ps))).

(* A vehicle sends the ULog messages [ms] as one stream of bytes: [x] along with the header, the rest in the packets
   [ps], numbered 1, 2, ... modulo 2^16.  Each packet says where in it the first message begins, or 255. *)
Record vehicle (ms : list (list Z)) (x : list Z) (ps : list packet) : Prop := mkVehicle {
  ve_messages : Forall (fun m => ulog_message m /\ Z.of_nat (length m) < 65536) ms;
  ve_stream : exists more, x ++ concat (map ul_bytes ps) ++ more = concat ms;
  ve_packets : forall i p, nth_error ps i = Some p ->
    is_ulog p = true /\ ul_packet p /\ ul_consistent p /\ ul_seq p = (Z.of_nat i + 1) mod 65536 /\
    (ul_offset p = 255 \/ exists k, (k <= length ms)%nat /\ begins ms k = (packet_at x ps i + Z.to_nat (ul_offset p))%nat) }.

(* Any of the packets arrive, in any order, any number of times, between other traffic, but none is more than half the
   number space away from the newest one. [e]: the packet after the newest one so far. *)
Inductive arrives (v : env) (ps : list packet) : nat -> list lev -> Prop :=
| ar_end : forall e, arrives v ps e []
| ar_other : forall e ev r, ul_event_ok v ev -> ulogs [ev] = [] -> arrives v ps e r -> arrives v ps e (ev :: r)
| ar_data : forall e i p tail r, nth_error ps i = Some p -> bytes tail -> - 32767 < Z.of_nat i - Z.of_nat e < 32768 ->
    arrives v ps (Nat.max e (Datatypes.S i)) r -> arrives v ps e (LMsg p tail :: r).

(* Writes may fail or stop anywhere, except that no write of a message leaves more than 1024 bytes of it behind.
   (Only messages of up to 2048 bytes are ever written.) *)
Definition mild_writes (v : env) (y : sys) (ms : list (list Z)) : Prop :=
  forall k m, (y_pos y <= k)%nat -> In m ms -> Z.of_nat (length m) <= 2048 -> v_orc v k <= 0 \/ Z.of_nat (length m) - 1024 <= v_orc v k.
