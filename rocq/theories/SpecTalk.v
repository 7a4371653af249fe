(* The dialogue between a logger and the vehicle, as it appears in the trace of the program. *)
From Verif Require Import Base Mav SpecFrame SpecLog SpecAsk Names Sys LogFile ULog Loggers Router LogAsk.

(* logger [i] sends a start request, a stop request; a message with property [P] reaches it; its timers expire *)
Definition asks (k : protocol) (i : nat) (x : item) : Prop := exists bs m ds t, x = ICtl i bs m ds /\ start_request k t bs.
Definition stops (k : protocol) (i : nat) (x : item) : Prop := exists bs m ds t, x = ICtl i bs m ds /\ stop_request k t bs.
Definition gets (P : packet -> bool) (i : nat) (x : item) : Prop :=
  exists j p m d ds, x = IRecv j (encode p) m d ds /\ wf_packet p /\ P p = true /\ In i (map dl_to ds).
(* messages of loggers *)
Definition messages (r : list item) : Prop := forall x, In x r -> exists j bs m ds, x = ICtl j bs m ds.
(* logger [i] has something to do *)
Definition start_timer (i : nat) (x : item) : Prop := exists t, x = IFire t (CbLogStart i).
Definition alive_check (i : nat) (x : item) : Prop := exists t, x = IFire t (CbAlive i).

Definition reaches (i : nat) (x : item) : Prop := gets (fun _ => true) i x \/ start_timer i x \/ alive_check i x.

(* the protocol logger [i] uses; a logger that chooses by the autopilot has none before it chose *)
Definition talks (w : world) (i : nat) (k : protocol) : Prop :=
  exists e, lookup w i = Some e /\
  match ep_kind e with
  | KLog (LFile _ b) => proto b = k
  | KLog (LAuto a) => exists g b, a_inner a = Some (g, b) /\ proto b = k
  | _ => False
  end.

(* the dialect knows the messages, and no message is a MAVLink 1 message too short for its fields; no block carries the number that means
   "start" in a status message *)
Definition knows (v : env) (k : protocol) : Prop :=
  match k with
  | Blocks => exists e, v_tbl v 184 = Some e /\ e_max_len e = 206
  | Streaming => (exists e, v_tbl v 77 = Some e /\ 3 <= e_max_len e) /\ v_tbl v 266 <> None /\ v_tbl v 267 <> None
  | NoProtocol => True
  end.
Definition proper (k : protocol) (p : packet) : Prop :=
  match k with
  | Blocks => p_id p = 184 -> block_number p <> 2147483646 /\ (p_ver p = V1 -> (206 <= length (p_payload p))%nat)
  | Streaming => p_id p = 77 -> p_ver p = V1 -> (3 <= length (p_payload p))%nat
  | NoProtocol => True
  end.
Definition proper_trace (k : protocol) (its : list item) : Prop :=
  forall j p m d ds, In (IRecv j (encode p) m d ds) its -> wf_packet p -> proper k p.
