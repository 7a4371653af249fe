(* Log file names: the printf format of LogEndpoint::_get_file and the scanf formats that read names
   back, src/logendpoint.cpp.  Strings are lists of character codes. *)
From Verif Require Import Base.

(* ---- printing ------------------------------------------------------------- *)

(* decimal digits of n >= 0, most significant first; [k] bounds the number of digits *)
Fixpoint dec (k : nat) (n : Z) : list Z :=
  match k with
  | O => []
  | Datatypes.S k => if n <? 10 then [48 + n] else dec k (n / 10) ++ [48 + n mod 10]
  end.

(* printf %0<w>u / %0<w>i for a value that is not negative and below 2^32 *)
Definition print_pad (w : nat) (n : Z) : list Z :=
  let d := dec 20 n in repeat 48 (w - length d) ++ d.

(* broken-down local time: year, month 1-12, day, hour, minute, second *)
Record stamp : Type := mkStamp { s_year : Z; s_mon : Z; s_day : Z; s_hour : Z; s_min : Z; s_sec : Z }.

(* logendpoint.cpp:320-331: "%05u-%i-%02i-%02i_%02i-%02i-%02i.%s" *)
Definition log_name (idx : Z) (t : stamp) (ext : list Z) : list Z :=
  print_pad 5 idx ++ [45] ++ print_pad 0 (s_year t) ++ [45] ++ print_pad 2 (s_mon t) ++ [45] ++
  print_pad 2 (s_day t) ++ [95] ++ print_pad 2 (s_hour t) ++ [45] ++ print_pad 2 (s_min t) ++ [45] ++
  print_pad 2 (s_sec t) ++ [46] ++ ext.

(* ---- scanning ------------------------------------------------------------------ *)

Definition is_digit (c : Z) : bool := (48 <=? c) && (c <=? 57).
(* isspace in the C locale *)
Definition is_space (c : Z) : bool := (c =? 32) || ((9 <=? c) && (c <=? 13)).

Fixpoint skip_space (s : list Z) : list Z :=
  match s with
  | c :: r => if is_space c then skip_space r else s
  | [] => []
  end.

(* value of the leading digits and the rest; [acc] so far *)
Fixpoint scan_digits (acc : Z) (s : list Z) : Z * list Z :=
  match s with
  | c :: r => if is_digit c then scan_digits (acc * 10 + (c - 48)) r else (acc, s)
  | [] => (acc, [])
  end.

(* scanf %u into an uint32_t (glibc): leading white space, optional sign, at least one digit; converted by
   strtoul (64 bit, saturating, negated modulo 2^64) and stored truncated to 32 bits *)
Definition scan_u (s : list Z) : option (Z * list Z) :=
  let s := skip_space s in
  let (neg, s) := match s with
                  | c :: r => if c =? 45 then (true, r) else if c =? 43 then (false, r) else (false, s)
                  | [] => (false, s)
                  end in
  match s with
  | c :: _ =>
    if is_digit c then
      let (v, r) := scan_digits 0 s in
      if 18446744073709551616 <=? v then Some (4294967295, r)
      else Some (u32 (if neg then - v else v), r)
    else None
  | [] => None
  end.

(* a literal character of a scanf format *)
Definition scan_c (ch : Z) (s : list Z) : option (list Z) :=
  match s with
  | c :: r => if c =? ch then Some r else None
  | [] => None
  end.

(* sscanf(name, "%u-", &u) == 1, logendpoint.cpp:118 and 270: the '-' after the number need not match *)
Definition scan_index (name : list Z) : option Z :=
  match scan_u name with Some (v, _) => Some v | None => None end.

(* one more "%u" followed by a literal *)
Definition scan_uc (ch : Z) (s : option (list Z)) : option (list Z) :=
  match s with
  | Some s => match scan_u s with Some (_, r) => scan_c ch r | None => None end
  | None => None
  end.

(* sscanf(name, "%u-%u-%u-%u_%u-%u-%u.", ...) == 7, logendpoint.cpp:190-199; the final '.' need not match *)
Definition scan_log (name : list Z) : option Z :=
  match scan_u name with
  | Some (idx, r) =>
    match scan_uc 45 (scan_uc 45 (scan_uc 95 (scan_uc 45 (scan_uc 45 (scan_c 45 r))))) with
    | Some r => match scan_u r with Some _ => Some idx | None => None end
    | None => None
    end
  | None => None
  end.
