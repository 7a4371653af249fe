(* Model of the timer list: src/mainloop.cpp:506-578 and src/timeout.cpp.  The list is intrusive and
   singly linked; nodes live in a heap of addresses, an address that is not allocated is None. *)
From Verif Require Import Base.

(* class Timeout, timeout.h:24-38 *)
Record tnode : Type := mkTnode { tn_next : option nat; tn_remove : bool }.

Definition theap : Type := nat -> option tnode.

Definition h_set (h : theap) (a : nat) (v : option tnode) : theap :=
  fun b => if Nat.eqb b a then v else h b.

(* Mainloop::add_timeout, mainloop.cpp:506-533, success path: a new node at the front of the list.
   [a] is the address operator new returned. *)
Definition add_timeout_h (h : theap) (head : option nat) (a : nat) : theap * option nat :=
  (h_set h a (Some (mkTnode head false)), Some a).

(* Mainloop::del_timeout, mainloop.cpp:535-538; writing through a dangling pointer is undefined *)
Definition del_timeout_h (h : theap) (a : nat) : res theap :=
  match h a with
  | Some n => Ok (h_set h a (Some (mkTnode (tn_next n) true)))
  | None => UB
  end.

(* Mainloop::_del_timeouts, first loop, mainloop.cpp:554-560.  The last result lists the nodes deleted
   (their descriptors are removed from epoll and closed in the same step). *)
Fixpoint del_front (fuel : nat) (h : theap) (head : option nat) (freed : list nat)
  : res (theap * option nat * list nat) :=
  match fuel with
  | O => Fuel
  | Datatypes.S k =>
    match head with
    | None => Ok (h, None, freed)
    | Some a =>
      match h a with
      | None => UB
      | Some n => if tn_remove n then del_front k (h_set h a None) (tn_next n) (freed ++ [a])
                  else Ok (h, Some a, freed)
      end
    end
  end.

(* second loop, mainloop.cpp:564-576 *)
Fixpoint del_rest (fuel : nat) (h : theap) (prev : nat) (current : option nat) (freed : list nat)
  : res (theap * list nat) :=
  match fuel with
  | O => Fuel
  | Datatypes.S k =>
    match current with
    | None => Ok (h, freed)
    | Some c =>
      match h c with
      | None => UB
      | Some n =>
        if tn_remove n then
          match h prev with
          | None => UB
          | Some p =>
            (* prev->next = current->next; delete current; current = prev->next *)
            del_rest k (h_set (h_set h prev (Some (mkTnode (tn_next n) (tn_remove p)))) c None)
                     prev (tn_next n) (freed ++ [c])
          end
        else del_rest k h c (tn_next n) freed
      end
    end
  end.

(* Mainloop::_del_timeouts, mainloop.cpp:552-578 *)
Definition del_timeouts_h (fuel : nat) (h : theap) (head : option nat) : res (theap * option nat * list nat) :=
  let* (h1, head1, fr1) := del_front fuel h head [] in
  match head1 with
  | None => Ok (h1, None, fr1)
  | Some a =>
    match h1 a with
    | None => UB
    | Some n => let* (h2, fr2) := del_rest fuel h1 a (tn_next n) fr1 in Ok (h2, head1, fr2)
    end
  end.

(* Mainloop::mod_timeout, mainloop.cpp:540-550: seconds and nanoseconds handed to timerfd_settime for an
   uint32_t number of milliseconds.  MSEC_PER_SEC is 1000ULL and NSEC_PER_MSEC 1000000ULL (util.h). *)
Definition mod_timeout_spec (msec : Z) : Z * Z :=
  (msec / 1000, u64 ((msec mod 1000) * 1000000)).
