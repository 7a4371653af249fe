(* Model of the duplicate detector, src/dedup.cpp and Mainloop::dedup_check_msg. *)
From Verif Require Import Base.

(* dedup.cpp:66-68 (the queue, the set) and dedup.h:49 (the period).  The std::unordered_set is a
   list without repetitions; only membership, insertion and erasure of one element are used. *)
Record dedup : Type := mkDedup {
  dd_period : Z;
  dd_queue : list (Z * Z);   (* front first: (timestamp, hash) *)
  dd_set : list Z }.

(* dedup.cpp:72-76; the default period is 0, dedup.h:41 *)
Definition dedup_new (period : Z) : dedup := mkDedup (u32 period) [] [].

(* dedup.cpp:83-86 *)
Definition dedup_set_period (d : dedup) (period : Z) : dedup :=
  mkDedup (u32 period) (dd_queue d) (dd_set d).

Definition set_mem (h : Z) (s : list Z) : bool := existsb (Z.eqb h) s.

(* _packet_hash_set.erase(_packet_hash_set.find(h)): erasing end() is undefined *)
Fixpoint set_erase (h : Z) (s : list Z) : res (list Z) :=
  match s with
  | [] => UB
  | x :: t => if h =? x then Ok t else let* t' := set_erase h t in Ok (x :: t')
  end.

(* dedup.cpp:40-45: drop expired entries from the front.  Both the timestamp and the sum are uint32_t. *)
Fixpoint expire (ts period : Z) (q : list (Z * Z)) (s : list Z) : res (list (Z * Z) * list Z) :=
  match q with
  | [] => Ok ([], s)
  | (t, h) :: q' =>
      if u32 (t + period) <? ts
      then let* s' := set_erase h s in expire ts period q' s'
      else Ok (q, s)
  end.

(* dedup.cpp:34-62 and 88-99.  [hash] is std::hash<std::string>; [now] is the number of milliseconds of
   the system clock since start (any integer: the system clock can be set back).
   The result is true for a new packet. *)
Definition dedup_check (hash : list Z -> Z) (d : dedup) (now : Z) (msg : list Z) : res (dedup * bool) :=
  if dd_period d =? 0 then Ok (d, true)
  else
    let ts := u32 now in
    let* (q, s) := expire ts (dd_period d) (dd_queue d) (dd_set d) in
    let h := hash msg in
    if set_mem h s then Ok (mkDedup (dd_period d) q s, false)
    else Ok (mkDedup (dd_period d) (q ++ [(ts, h)]) (h :: s), true).

(* A history: packets checked at clock values. *)
Fixpoint dedup_run (hash : list Z -> Z) (d : dedup) (evs : list (Z * list Z)) : res (dedup * list bool) :=
  match evs with
  | [] => Ok (d, [])
  | (now, msg) :: rest =>
      let* (d1, ok) := dedup_check hash d now msg in
      let* (d2, oks) := dedup_run hash d1 rest in
      Ok (d2, ok :: oks)
  end.

(* A history that also changes the period (Mainloop::add_endpoints, mainloop.cpp). *)
Inductive dedup_ev : Type :=
| DCheck (now : Z) (msg : list Z)
| DPeriod (p : Z).

Fixpoint dedup_steps (hash : list Z -> Z) (d : dedup) (evs : list dedup_ev) : res dedup :=
  match evs with
  | [] => Ok d
  | DCheck now msg :: rest => let* (d1, _) := dedup_check hash d now msg in dedup_steps hash d1 rest
  | DPeriod p :: rest => dedup_steps hash (dedup_set_period d p) rest
  end.
