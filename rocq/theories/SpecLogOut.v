(* What becomes of a message: a line on standard error, with or without colour, or an entry of the system log. *)
From Coq Require Import String.
From Verif Require Import Base Num LogOut.
Open Scope string_scope. Open Scope list_scope. Open Scope Z_scope.

(* terminal control sequences that change only the appearance: ESC [ parameters m *)
Definition sgr (s : list Z) : Prop := exists p, s = 27 :: 91 :: p ++ [109] /\ Forall (fun c => 48 <= c <= 57 \/ c = 59) p.
(* the text, and a newline *)
Definition a_line (text line : list Z) : Prop := line = text ++ [10].
(* the same with its appearance changed in front and restored behind *)
Definition a_coloured_line (text line : list Z) : Prop := exists c, sgr c /\ line = c ++ text ++ [27; 91; 48; 109] ++ [10].
(* RFC 5424 severities *)
Definition severity (level prio : Z) : Prop :=
  (level = 0 /\ prio = 3) \/ (level = 1 /\ prio = 4) \/ (level = 2 /\ prio = 5) \/ (level = 3 /\ prio = 6) \/ (level = 4 /\ prio = 7) \/ (level = 5 /\ prio = 7).

Definition appears (b : backend) (tty : bool) (m : Z * list Z) (o : lout) : Prop :=
  match b with
  | ToStderr => exists line, o = OFd 2 line /\ (a_line (snd m) line \/ (tty = true /\ a_coloured_line (snd m) line))
  | ToSyslog => exists p, o = OSyslog p (snd m) /\ severity (fst m) p
  end.
(* the messages up to a level *)
Definition up_to (level : Z) (ms : list (Z * list Z)) : list (Z * list Z) := filter (fun m => fst m <=? level) ms.
