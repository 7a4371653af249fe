(* Specification: what a link delivers, in terms of the history of the program. *)
From Verif Require Import Base Mav SpecCrc SpecFrame Sys Router.

(* what happened on the link of one endpoint: data arrived, a packet was received *)
Inductive lev := LData (bs : list Z) | LPacket (bs : list Z).
Definition levs (h : list item) (k : nat) : list lev :=
  flat_map (fun x => match x with
    | IRead i (OsData bs _) => if Nat.eqb i k then [LData bs] else []
    | IRecv i bs _ _ _ => if Nat.eqb i k then [LPacket bs] else []
    | _ => [] end) h.

(* [framing tbl s l ps r]: with the bytes s not yet looked at, the events l are the following: when no whole packet is left, data is
   appended (as much as fits into 1120 bytes together with s, which are at least 840; the rest of that read is left out); a byte that is no start marker is skipped; a packet with a
   wrong checksum is skipped; any other packet is received.  ps are all packets seen, r the bytes not looked at in the end. *)
Inductive framing (tbl : table) : list Z -> list lev -> list packet -> list Z -> Prop :=
| fr_end : forall s, framing tbl s [] [] s
| fr_data : forall s bs n l ps r, (840 <= n)%nat -> (bs <> [] -> segments s [] s /\ (1120 <= length s + n)%nat) -> framing tbl (s ++ firstn n bs) l ps r -> framing tbl s (LData bs :: l) ps r
| fr_skip : forall b s l ps r, ~ marker b -> framing tbl s l ps r -> framing tbl (b :: s) l ps r
| fr_bad : forall p s l ps r, wf_packet p -> ~ acceptable tbl p -> framing tbl s l ps r -> framing tbl (encode p ++ s) l (p :: ps) r
| fr_packet : forall p s l ps r, wf_packet p -> acceptable tbl p -> framing tbl s l ps r ->
    framing tbl (encode p ++ s) (LPacket (encode p) :: l) (p :: ps) r.

(* the data that arrived, and the packets received *)
Definition datas (l : list lev) : list (list Z) := flat_map (fun x => match x with LData bs => [bs] | LPacket _ => [] end) l.
Definition packets (l : list lev) : list (list Z) := flat_map (fun x => match x with LPacket bs => [bs] | LData _ => [] end) l.
