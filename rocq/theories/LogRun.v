(* A logger run on its own: packets offered to it and its timers, in any order. *)
From Verif Require Import Base Mav SpecFrame Frame FrameProofs Names Sys LogFile ULog Loggers.

Inductive lev : Type :=
| LMsg (p : packet) (tail : list Z)    (* write_msg with packet p; [tail] follows it in the receive buffer *)
| LStart                               (* the logging start timer fires, if there is one *)
| LAlive.                              (* the alive timer fires, if there is one *)

Definition levent (fuel : nat) (v : env) (y : sys) (g : lg) (b : backend) (e : lev) : res (sys * lg * backend * list ctl) :=
  match e with
  | LMsg p tail =>
    let* (y, g, b, _, cs) := lwrite fuel v y g b (encode p ++ tail) (info_of (v_tbl v) p) in Ok (y, g, b, cs)
  | LStart => match l_tstart g with
              | Some _ => let '(y, g, cs) := lcb_start y g b in Ok (y, g, b, cs)
              | None => Ok (y, g, b, [])
              end
  | LAlive => match l_talive g with
              | Some _ => lcb_alive fuel v y g b
              | None => Ok (y, g, b, [])
              end
  end.

Fixpoint lrun (fuel : nat) (v : env) (y : sys) (g : lg) (b : backend) (evs : list lev) : res (sys * lg * backend * list ctl) :=
  match evs with
  | [] => Ok (y, g, b, [])
  | e :: r =>
    let* (y, g, b, cs) := levent fuel v y g b e in
    let* (y, g, b, cs') := lrun fuel v y g b r in
    Ok (y, g, b, cs ++ cs')
  end.

Fixpoint offered (evs : list lev) : list packet :=
  match evs with
  | [] => []
  | LMsg p _ :: r => p :: offered r
  | _ :: r => offered r
  end.

(* the same for the automatic selection *)
Fixpoint arun (fuel : nat) (v : env) (y : sys) (a : autolog) (evs : list (packet * list Z)) : res (sys * autolog * list ctl) :=
  match evs with
  | [] => Ok (y, a, [])
  | (p, tail) :: r =>
    let* (y, a, _, cs) := auto_write fuel v y a (encode p ++ tail) (info_of (v_tbl v) p) in
    let* (y, a, cs') := arun fuel v y a r in
    Ok (y, a, cs ++ cs')
  end.
