(* What a history of the router determines: which endpoints exist, which systems are known where, and
   which endpoints must be handed a message.  Stated on the configuration and the list of observations
   alone, independent of the router's state. *)
From Verif Require Import Base Sys Frame Accept SpecAccept AcceptProofs Router RouterSetup.

(* the configured endpoints have the numbers 0, 1, ... in this order, then come the loggers *)
Definition confs (c : config) : list epconf := cf_uarts c ++ cf_udps c ++ cf_tcps c.
Definition loggers (c : config) : nat :=
  match cf_log c with None => 0 | Some lc => if lc_tlog lc then 2 else 1 end.
Definition is_logger (c : config) (k : nat) : Prop :=
  (length (confs c) <= k < length (confs c) + loggers c)%nat.

(* accepted TCP clients have no filters and no group *)
Definition filters_of (c : config) (k : nat) : filters :=
  match nth_error (confs c) k with Some e => ec_filters e | None => no_filters end.
Definition group_of (c : config) (k : nat) : list Z :=
  match nth_error (confs c) k with Some e => ec_group e | None => [] end.
Definition same_group (c : config) (i k : nat) : Prop := group_of c i = group_of c k /\ group_of c k <> [].

(* TCP clients accepted, endpoints removed *)
Definition news (h : list item) : list nat := flat_map (fun x => match x with INew i => [i] | _ => [] end) h.
Definition gone (h : list item) : list nat := flat_map (fun x => match x with IGone i => [i] | _ => [] end) h.
Definition memb (l : list nat) (i : nat) : bool := existsb (Nat.eqb i) l.

(* the endpoints messages are offered to, in order *)
Definition open_after (c : config) (h : list item) : list nat :=
  filter (fun i => negb (memb (gone h) i)) (seq 0 (length (confs c) + loggers c) ++ news h).

(* systems known on endpoint k: senders of messages routed from it or from its group; 2/0 for a logger *)
Definition known_after (c : config) (h : list item) (k : nat) (a : address) : Prop :=
  (is_logger c k /\ a = (2, 0)) \/
  exists i bs m ds, In (IRecv i bs m Routed ds) h /\ a = (m_ssys m, m_scomp m) /\ (i = k \/ same_group c i k).

(* the routing rules (SpecAccept.v) for endpoint k *)
Definition wanted (c : config) (h : list item) (m : minfo) (k : nat) : Prop :=
  let l := letter_of m in
  ~ known_after c h k (lt_from l) /\ out_ok (filters_of c k) l /\
  (addressed_to l (known_after c h k) \/ sniffs (cf_sniffer c) (known_after c h k)).

(* the endpoints that were handed the message are those that want it, in order, once each *)
Definition delivered (c : config) (h : list item) (m : minfo) (ds : list delivery) : Prop :=
  exists ok : nat -> bool, map dl_to ds = filter ok (open_after c h) /\
    forall k, In k (open_after c h) -> (ok k = true <-> wanted c h m k).

(* a message that was routed: received, or sent by a logger *)
Definition message (x : item) (m : minfo) (ds : list delivery) : Prop :=
  (exists i bs, x = IRecv i bs m Routed ds) \/ (exists i bs, x = ICtl i bs m ds).

(* nobody accepted the message or filtered it out *)
Definition filtered_out (c : config) (h : list item) (m : minfo) (k : nat) : Prop :=
  let l := letter_of m in ~ known_after c h k (lt_from l) /\ ~ out_ok (filters_of c k) l.
Definition untaken (c : config) (h : list item) (m : minfo) : Prop :=
  forall k, In k (open_after c h) -> ~ wanted c h m k /\ ~ filtered_out c h m k.

(* n such messages since the counter was last reported (which clears it) *)
Inductive lost_since (c : config) : list item -> Z -> Prop :=
| ls_nil : lost_since c [] 0
| ls_report : forall h t, lost_since c (h ++ [IFire t CbAggregate]) 0
| ls_lost : forall h n x m ds, lost_since c h n -> message x m ds -> untaken c (h ++ [x]) m -> lost_since c (h ++ [x]) (n + 1)
| ls_other : forall h n x, lost_since c h n -> (forall m ds, message x m ds -> ~ untaken c (h ++ [x]) m) ->
    (forall t, x <> IFire t CbAggregate) -> lost_since c (h ++ [x]) n.

(* the write calls made for an item, and all those on endpoint k *)
Definition made (x : item) : list delivery := match x with IRecv _ _ _ _ ds => ds | ICtl _ _ _ ds => ds | _ => [] end.
Definition tok (k : nat) (l : list delivery) : list delivery := filter (fun d => Nat.eqb (dl_to d) k) l.
Definition sends (h : list item) (k : nat) : list delivery := tok k (flat_map made h).
