(* What a statistics report says: its numbers, by the line they are on. *)
From Coq Require Import String.
From Verif Require Import Base Num SpecNum.
Open Scope string_scope. Open Scope list_scope. Open Scope Z_scope.

(* two tabs, a label and numbers in decimal notation with units *)
Inductive numbers : list (Z * string) -> list Z -> Prop :=
| nb_last : forall n u s, decimal s n -> numbers [(n, u)] (s ++ lit u)
| nb_more : forall n u s r t, decimal s n -> numbers r t -> numbers ((n, u) :: r) (s ++ lit u ++ lit " " ++ t).
Definition entry_line (label : string) (ns : list (Z * string)) (line : list Z) : Prop :=
  exists s, numbers ns s /\ line = [9; 9] ++ lit label ++ lit ": " ++ s.

(* the lines of a text, each ended by a newline *)
Fixpoint unlines (ls : list (list Z)) : list Z := match ls with [] => [] | l :: r => l ++ [10] ++ unlines r end.

(* the report of an endpoint: received messages with wrong checksum (number, per cent of all, kilobytes), lost (number,
   per cent of all), handled (number, kilobytes), all, and sent (number, kilobytes) *)
Record figures : Type := mkFig { f_crc : Z; f_crc_pc : Z; f_crc_kb : Z; f_lost : Z; f_lost_pc : Z; f_handled : Z; f_handled_kb : Z; f_total : Z; f_sent : Z; f_sent_kb : Z }.
Definition says (txt : list Z) (head : list Z) (f : figures) : Prop := exists l1 l2 l3 l4 l5,
  entry_line "CRC error" [(f_crc f, ""); (f_crc_pc f, "%"); (f_crc_kb f, "KB")] l1 /\
  entry_line "Sequence lost" [(f_lost f, ""); (f_lost_pc f, "%")] l2 /\
  entry_line "Handled" [(f_handled f, ""); (f_handled_kb f, "KB")] l3 /\
  entry_line "Total" [(f_total f, "")] l4 /\
  entry_line "Total" [(f_sent f, ""); (f_sent_kb f, "KB")] l5 /\
  txt = unlines [head; [9] ++ lit "Received messages {"; l1; l2; l3; l4; [9] ++ lit "}"; [9] ++ lit "Transmitted messages {"; l5; [9] ++ lit "}"; lit "}"].

(* how many per cent x of n are, rounded down; none of nothing *)
Definition percentage (x n p : Z) : Prop := if n =? 0 then p = 0 else p * n <= 100 * x < (p + 1) * n.
(* whole kilobytes *)
Definition kilobytes (b k : Z) : Prop := k * 1000 <= b < (k + 1) * 1000.
