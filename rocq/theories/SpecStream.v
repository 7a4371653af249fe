(* Specification of what the peer of an endpoint receives. *)
From Verif Require Import Base Mav SpecFrame Frame Accept Router RouterSetup.

(* the bytes a write call put into the stream *)
Definition put_out (d : delivery) : list Z :=
  match dl_call d with DSent _ r => firstn (Z.to_nat r) (dl_bytes d) | _ => [] end.
Definition stream (l : list delivery) : list Z := flat_map put_out l.

(* the call took nothing or the whole message *)
Definition whole (d : delivery) : Prop := put_out d = [] \/ put_out d = dl_bytes d.

(* the calls that took something *)
Definition took (d : delivery) : bool := match put_out d with [] => false | _ => true end.

(* Who the loggers talk to after the history h: the configured system; without one, a system whose autopilot (component 1) sent a heartbeat, or none yet *)
Definition target_from (c : config) (h : list item) (t : Z) : Prop :=
  exists lc, cf_log c = Some lc /\
    (t = lc_fcu lc \/ lc_fcu lc = -1 /\ exists i bs m ds, In (IRecv i bs m Routed ds) h /\ m_id m = 0 /\ m_scomp m = 1 /\ m_ssys m = t).
