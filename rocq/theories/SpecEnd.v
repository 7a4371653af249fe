(* Specification: the end of TCP connections, in terms of the history. *)
From Verif Require Import Base Sys Router SpecRouter.

(* the peer closed the connection: read returned end of file, or a write failed with EPIPE *)
Definition epipe (d : delivery) : bool := match dl_call d with DSent _ r => r =? - EPIPE | _ => false end.
Definition eofb (k : nat) (x : item) : bool := match x with IRead i (OsData [] _) => Nat.eqb i k | _ => false end.
Definition ends (k : nat) (x : item) : bool := eofb k x || existsb (fun d => Nat.eqb (dl_to d) k && epipe d) (made x).
Definition ended (h : list item) (k : nat) : bool := existsb (ends k) h.
