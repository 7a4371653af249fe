(* What the settings of a serial port mean: termios(3). *)
From Verif Require Import Base Tty.

Definition bit (w : Z) (k : Z) : bool := Z.testbit w k.
Definition cc (t : tty) (k : nat) : Z := nth k (t_cc t) 0.

(* what happens when a byte arrives: programs read it (at once, or after the line is complete and edited), it is sent back, it sends a signal to
   processes, it stops or continues the output *)
Inductive effect : Type := Read (c : Z) | Edit (c : Z) | Echo (c : Z) | Signal | Flow.

Definition is_upper (c : Z) : bool := (65 <=? c) && (c <=? 90).
(* c_iflag: BRKINT 1, PARMRK 3, ISTRIP 5, INLCR 6, IGNCR 7, ICRNL 8, IUCLC 9, IXON 10; c_lflag: ISIG 0, ICANON 1, ECHO 3, ECHONL 6, IEXTEN 15;
   c_cc: VINTR 0, VQUIT 1, VSTART 8, VSTOP 9, VSUSP 10 *)
Definition arrives (t : tty) (c : Z) : list effect :=
  let i := bit (t_iflag t) in let l := bit (t_lflag t) in
  let c := if i 5 then c mod 128 else c in
  let c := if i 9 && l 15 && is_upper c then c + 32 else c in
  if i 10 && ((c =? cc t 8) || (c =? cc t 9)) then [Flow]
  else if l 0 && ((c =? cc t 0) || (c =? cc t 1) || (c =? cc t 10)) then [Signal]
  else if (c =? 13) && i 7 then []
  else
    let c := if (c =? 13) && i 8 then 10 else if (c =? 10) && i 6 then 13 else c in
    (if l 3 || (l 1 && l 6 && (c =? 10)) then [Echo c] else []) ++
    (if l 1 then [Edit c] else if i 3 && (c =? 255) then [Read 255; Read 255] else [Read c]).
(* a break condition: ignored (IGNBRK 0), a signal (BRKINT), or read *)
Definition breaks (t : tty) : list effect :=
  if bit (t_iflag t) 0 then [] else if bit (t_iflag t) 1 then [Signal] else if bit (t_iflag t) 3 then [Read 255; Read 0; Read 0] else [Read 0].
(* a byte the program writes, on the line: c_oflag: OPOST 0, OLCUC 1, ONLCR 2, OCRNL 3 (the others left out: without OPOST they mean nothing) *)
Definition leaves (t : tty) (c : Z) : list Z :=
  let o := bit (t_oflag t) in
  if o 0 then
    if (c =? 10) && o 2 then [13; 10] else if (c =? 13) && o 3 then [10] else if o 1 && (97 <=? c) && (c <=? 122) then [c - 32] else [c]
  else [c].

(* format and speed of the line: CSIZE 4-5, CSTOPB 6, CREAD 7, PARENB 8, CLOCAL 11, CRTSCTS 31; CBAUD 0-3 and 12, the same 16 bits higher for
   the input (0: as the output) *)
Definition data_bits (t : tty) : Z := 5 + 2 * Z.b2z (bit (t_cflag t) 5) + Z.b2z (bit (t_cflag t) 4).
Definition stop_bits (t : tty) : Z := if bit (t_cflag t) 6 then 2 else 1.
Definition parity (t : tty) : bool := bit (t_cflag t) 8.
Definition receives (t : tty) : bool := bit (t_cflag t) 7.
Definition modem_lines (t : tty) : bool := negb (bit (t_cflag t) 11).
Definition hardware_flow (t : tty) : bool := bit (t_cflag t) 31.
Definition software_flow (t : tty) : bool := bit (t_iflag t) 10 || bit (t_iflag t) 12.
Definition coded (c field ours : Z) : Z := if c =? 4096 then field else if c =? 9 then 1200 else ours.
Definition out_speed (t : tty) : Z := coded (Z.land (t_cflag t) 4111) (t_ospeed t) 0.
Definition in_speed (t : tty) : Z := coded (Z.land (Z.shiftr (t_cflag t) 16) 4111) (t_ispeed t) (out_speed t).

(* bytes pass unchanged in both directions *)
Definition transparent (t : tty) : Prop := (forall c, 0 <= c < 256 -> arrives t c = [Read c] /\ leaves t c = [c]) /\ ~ In Signal (breaks t).
Definition eight_n_one (t : tty) : Prop := data_bits t = 8 /\ parity t = false /\ stop_bits t = 1 /\ receives t = true /\ modem_lines t = false /\ software_flow t = false.
Definition runs_at (t : tty) (b : Z) : Prop := out_speed t = b /\ in_speed t = b.
