(* Serial ports: the terminal settings the program makes. *)
From Verif Require Import Base.

(* struct termios2 of Linux, as the device holds it.  [t_cc]: control characters. *)
Record tty : Type := mkTty { t_iflag : Z; t_oflag : Z; t_cflag : Z; t_lflag : Z; t_cc : list Z; t_ispeed : Z; t_ospeed : Z }.

(* asm-generic/termbits.h *)
Definition IGNBRK := 1. Definition BRKINT := 2. Definition PARMRK := 8. Definition INPCK := 16. Definition ISTRIP := 32. Definition INLCR := 64.
Definition IGNCR := 128. Definition ICRNL := 256. Definition IUCLC := 512. Definition IXON := 1024. Definition IXANY := 2048. Definition IXOFF := 4096.
Definition IMAXBEL := 8192. Definition IUTF8 := 16384.
Definition OPOST := 1. Definition OLCUC := 2. Definition ONLCR := 4. Definition OCRNL := 8. Definition ONOCR := 16. Definition ONLRET := 32. Definition OFILL := 64. Definition OFDEL := 128.
Definition ISIG := 1. Definition ICANON := 2. Definition XCASE := 4. Definition ECHO := 8. Definition ECHOE := 16. Definition ECHOK := 32. Definition ECHONL := 64. Definition NOFLSH := 128.
Definition TOSTOP := 256. Definition ECHOCTL := 512. Definition ECHOPRT := 1024. Definition ECHOKE := 2048. Definition IEXTEN := 32768.
Definition CSIZE := 48. Definition CS8 := 48. Definition CREAD := 128. Definition PARENB := 256. Definition CLOCAL := 2048. Definition CBAUD := 4111. Definition BOTHER := 4096. Definition B1200 := 9.
Definition CRTSCTS := 2147483648.
Definition VTIME := 5%nat. Definition VMIN := 6%nat.

(* w |= m;  w &= ~m *)
Definition on (w m : Z) : Z := Z.lor w m.
Definition off (w m : Z) : Z := Z.ldiff w m.
Definition any (l : list Z) : Z := fold_right Z.lor 0 l.
Fixpoint put_cc (l : list Z) (k : nat) (c : Z) : list Z :=
  match l, k with [], _ => [] | _ :: r, O => c :: r | x :: r, Datatypes.S k => x :: put_cc r k c end.

(* A port: its settings and how many calls were made.  The result of call number k is [o k]; a call that fails changes nothing, one that
   succeeds takes the settings as they are (simplified: a driver may refuse part of them). *)
Record port : Type := mkPort { pt_tty : tty; pt_calls : nat }.
Definition call (o : nat -> Z) (p : port) : bool * port := (0 <=? o (pt_calls p), mkPort (pt_tty p) (Datatypes.S (pt_calls p))).
Definition set (o : nat -> Z) (p : port) (t : tty) : bool * port :=
  (0 <=? o (pt_calls p), mkPort (if 0 <=? o (pt_calls p) then t else pt_tty p) (Datatypes.S (pt_calls p))).

(* xtermios.cpp:33-35 *)
Definition default_cc : list Z := [3; 28; 127; 21; 4; 0; 0; 0; 17; 19; 26; 0; 18; 15; 23; 22; 0; 0; 0; 0; 0; 0; 0; 0; 0; 0; 0; 0; 0; 0; 0; 0].

(* reset_uart, xtermios.cpp:28-68.  NL0, CR0, TAB0, BS0, VT0 and FF0 are 0.  tcgetattr and tcsetattr leave the two speed fields alone: the speed
   is in c_cflag (B0, then B1200). *)
Definition sane (t : tty) : tty :=
  mkTty (off (on (t_iflag t) (any [BRKINT; ICRNL; IMAXBEL])) (any [INLCR; IGNCR; IUTF8; IXOFF; IUCLC; IXANY]))
        (off (on (t_oflag t) (any [OPOST; ONLCR])) (any [OLCUC; OCRNL; ONLRET; OFILL; OFDEL]))
        CREAD
        (off (on (t_lflag t) (any [ISIG; ICANON; IEXTEN; ECHO; ECHOE; ECHOK; ECHOCTL; ECHOKE])) (any [ECHONL; NOFLSH; XCASE; TOSTOP; ECHOPRT]))
        default_cc (t_ispeed t) (t_ospeed t).
(* cfsetspeed(&tc, B1200), glibc: the speed bits of c_cflag *)
Definition at_1200 (t : tty) : tty := mkTty (t_iflag t) (t_oflag t) (on (off (t_cflag t) CBAUD) B1200) (t_lflag t) (t_cc t) (t_ispeed t) (t_ospeed t).
Definition reset_uart (o : nat -> Z) (p : port) : bool * port :=
  let (ok, p) := call o p in                                                  (* tcgetattr *)
  if negb ok then (false, p)
  else
    let tc := sane (pt_tty p) in
    let (ok, p) := set o p tc in
    if negb ok then (false, p) else set o p (at_1200 tc).

(* UartEndpoint::open, endpoint.cpp:874-916, the settings *)
Definition raw (t : tty) : tty :=
  mkTty (off (t_iflag t) (any [IGNBRK; BRKINT; ICRNL; INLCR; PARMRK; INPCK; ISTRIP; IXON]))
        (off (t_oflag t) (any [OCRNL; ONLCR; ONLRET; ONOCR; OFILL; OPOST]))
        (on (on (off (off (t_cflag t) CRTSCTS) (any [CSIZE; PARENB])) CLOCAL) CS8)
        (off (off (t_lflag t) (any [ECHO; ECHOE; ECHOK; ECHOCTL; ECHOKE; ECHONL; ICANON; IEXTEN; ISIG])) TOSTOP)
        (put_cc (put_cc (t_cc t) VMIN 0) VTIME 0) (t_ispeed t) (t_ospeed t).
(* UartEndpoint::open, endpoint.cpp:864-952, once the device is open: TIOCGSERIAL and TIOCSSERIAL (919-940) may fail; TCFLSH must not.
   TIOCSSERIAL is only called if TIOCGSERIAL succeeded. *)
Definition uart_open (o : nat -> Z) (p : port) : bool * port :=
  let (ok, p) := reset_uart o p in
  if negb ok then (false, p)
  else
    let (ok, p) := call o p in                                                (* TCGETS2 *)
    if negb ok then (false, p)
    else
      let (ok, p) := set o p (raw (pt_tty p)) in
      if negb ok then (false, p)
      else
        let (ok, p) := call o p in                                            (* TIOCGSERIAL *)
        let (_, p) := (if ok then call o p else (true, p)) in                 (* TIOCSSERIAL *)
        call o p.                                                             (* TCFLSH *)

(* UartEndpoint::set_speed, endpoint.cpp:799-832 *)
Definition with_speed (t : tty) (b : Z) : tty := mkTty (t_iflag t) (t_oflag t) (on (off (t_cflag t) CBAUD) BOTHER) (t_lflag t) (t_cc t) b b.
Definition set_speed (o : nat -> Z) (p : port) (b : Z) : bool * port :=
  let (ok, p) := call o p in
  if negb ok then (false, p)
  else
    let (ok, p) := set o p (with_speed (pt_tty p) b) in
    if negb ok then (false, p) else call o p.

(* UartEndpoint::set_flow_control, endpoint.cpp:834-862 *)
Definition with_flow (t : tty) (enabled : bool) : tty :=
  mkTty (t_iflag t) (t_oflag t) (if enabled then on (t_cflag t) CRTSCTS else off (t_cflag t) CRTSCTS) (t_lflag t) (t_cc t) (t_ispeed t) (t_ospeed t).
Definition set_flow_control (o : nat -> Z) (p : port) (enabled : bool) : bool * port :=
  let (ok, p) := call o p in
  if negb ok then (false, p) else set o p (with_flow (pt_tty p) enabled).

(* UartEndpoint::setup, endpoint.cpp:730-760, and add_speeds, 1032-1048; [bauds]: at least one (validate_config).  The result of set_speed is
   ignored in add_speeds. *)
Definition uart_setup (o : nat -> Z) (p : port) (bauds : list Z) (flow : bool) : bool * port :=
  let (ok, p) := uart_open o p in
  if negb ok then (false, p)
  else
    let (ok, p) := set_speed o p (hd 0 bauds) in
    if (length bauds =? 1)%nat && negb ok then (false, p)
    else if flow then set_flow_control o p true else (true, p).

(* UartEndpoint::_change_baud_cb, endpoint.cpp:954-966: [idx] is _current_baud_idx *)
Definition change_baud (o : nat -> Z) (p : port) (bauds : list Z) (idx : nat) : nat * port :=
  let idx := Nat.modulo (Datatypes.S idx) (length bauds) in
  let (_, p) := set_speed o p (nth idx bauds 0) in (idx, p).
