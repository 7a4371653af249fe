(* What a history determines about one endpoint: where a UDP endpoint sends, which baud rate a UART uses, what
   the statistics count. *)
From Verif Require Import Base Mav Sys Frame Accept Router RouterSetup SpecRouter.

(* the configured address of UDP endpoint k; a server has none (port 0) *)
Definition udp_conf (c : config) (k : nat) : option (bool * addr) :=
  match nth_error (confs c) k with
  | Some e => match ec_kind e with CUdp server host port => Some (server, (host, if server then 0 else u16 port)) | _ => None end
  | None => None
  end.
Definition uart_conf (c : config) (k : nat) : option (list Z) :=
  match nth_error (confs c) k with
  | Some e => match ec_kind e with CUart bauds _ => Some bauds | _ => None end
  | None => None
  end.
Definition tcp_conf (c : config) (k : nat) : option Z :=
  match nth_error (confs c) k with
  | Some e => match ec_kind e with CTcp retry _ => Some retry | _ => None end
  | None => None
  end.

(* where UDP endpoint k sends to: the sender of the last datagram, unless the fallback timer fired since *)
Definition peer_step (conf : addr) (k : nat) (p : addr) (x : item) : addr :=
  match x with
  | IRead i (OsData _ from) => if Nat.eqb i k then from else p
  | IFire _ (CbNoMsg i) => if Nat.eqb i k then conf else p
  | _ => p
  end.
Definition peer_after (conf : addr) (h : list item) (k : nat) : addr := fold_left (peer_step conf k) h conf.

(* ticks of the timer that changes the baud rate of UART k *)
Definition is_tick (k : nat) (x : item) : bool := match x with IFire _ (CbBaud i) => Nat.eqb i k | _ => false end.
Definition ticks (h : list item) (k : nat) : nat := length (filter (is_tick k) h).

(* a packet with a known message id was received on endpoint k *)
Definition known_on (tbl : table) (k : nat) (x : item) : Prop :=
  exists bs m d ds, x = IRecv k bs m d ds /\ tbl (m_id m) <> None.

(* the write calls the system accepted, completely or in part; those it accepted only in part *)
Definition accepted (d : delivery) : bool := match dl_call d with DSent _ r => 0 <=? r | _ => false end.
Definition short (d : delivery) : bool :=
  match dl_call d with DSent _ r => (0 <=? r) && negb (r =? Z.of_nat (length (dl_bytes d))) | _ => false end.
Definition total (l : list delivery) : Z := fold_right (fun d n => Z.of_nat (length (dl_bytes d)) + n) 0 l.

(* what happened since the statistics were last reported *)
Definition report_step (acc : list item) (x : item) : list item :=
  match x with IFire _ CbAggregate => [] | _ => acc ++ [x] end.
Definition since_report (h : list item) : list item := fold_left report_step h [].
