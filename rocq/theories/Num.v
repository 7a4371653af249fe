(* Character classes, strings and number conversion: the parts of the C library that the configuration code uses
   (C locale), and src/common/util.cpp safe_atoi / safe_atoul / safe_atoull.  Strings are lists of character codes. *)
From Coq Require Import String Ascii.
From Verif Require Import Base Names.

(* a string literal as character codes *)
Definition lit (x : string) : list Z := map (fun c => Z.of_N (N_of_ascii c)) (list_ascii_of_string x).

Definition EINVAL : Z := 22.
Definition ERANGE : Z := 34.
Definition ENOENT : Z := 2.
Definition ULONG : Z := 18446744073709551616.      (* 2^64 *)
Definition LONG : Z := 9223372036854775808.        (* 2^63 *)
Definition INT : Z := 2147483648.                  (* 2^31 *)

(* the C string at the start of a memory area: everything before the first NUL (strndupa copies no more) *)
Fixpoint cstr (s : list Z) : list Z :=
  match s with
  | [] => []
  | c :: r => if c =? 0 then [] else c :: cstr r
  end.

(* tolower in the C locale *)
Definition lower (c : Z) : Z := if (65 <=? c) && (c <=? 90) then c + 32 else c.

(* strncasecmp(a, b, n) == 0 for areas of at least n characters *)
Fixpoint ncaseeq (n : nat) (a b : list Z) : bool :=
  match n with
  | O => true
  | Datatypes.S n =>
    match a, b with
    | x :: a, y :: b => (lower x =? lower y) && ((x =? 0) || ncaseeq n a b)
    | _, _ => false
    end
  end.

(* memcaseeq, util.h:44 *)
Definition memcaseeq (a b : list Z) : bool := (length a =? length b)%nat && ncaseeq (length a) a b.

(* strcaseeq, util.h:41, of two C strings *)
Fixpoint strcaseeq (a b : list Z) : bool :=
  match a, b with
  | [], [] => true
  | x :: a, y :: b => (lower x =? lower y) && strcaseeq a b
  | _, _ => false
  end.

(* ---- strtol, strtoul ---------------------------------------------------------------------------------- *)

(* value of a digit; letters count from ten *)
Definition digit_val (c : Z) : option Z :=
  if is_digit c then Some (c - 48)
  else if (97 <=? c) && (c <=? 122) then Some (c - 87)
  else if (65 <=? c) && (c <=? 90) then Some (c - 55)
  else None.
Definition dig (base c : Z) : option Z :=
  match digit_val c with
  | Some d => if d <? base then Some d else None
  | None => None
  end.

(* value of the leading digits and the rest *)
Fixpoint scan_num (base acc : Z) (s : list Z) : Z * list Z :=
  match s with
  | c :: r => match dig base c with
              | Some d => scan_num base (acc * base + d) r
              | None => (acc, s)
              end
  | [] => (acc, [])
  end.

Definition scan_sign (s : list Z) : bool * list Z :=
  match s with
  | c :: r => if c =? 45 then (true, r) else if c =? 43 then (false, r) else (false, s)
  | [] => (false, s)
  end.

(* base 0: 0x or 0X followed by a hexadecimal digit: 16; a leading 0: 8; otherwise 10.  (The 0b prefix of C23 is not
   modelled.) *)
Definition is_x (c : Z) : bool := (c =? 120) || (c =? 88).
Definition scan_base (s : list Z) : Z * list Z :=
  match s with
  | z :: r =>
    if z =? 48 then
      match r with
      | x :: h :: t => if is_x x && match dig 16 h with Some _ => true | None => false end then (16, h :: t) else (8, s)
      | _ => (8, s)
      end
    else (10, s)
  | [] => (10, s)
  end.

(* the common part of strtol and strtoul: sign, magnitude and rest; None: no number (endptr = start) *)
Definition strto (base : Z) (s : list Z) : option (bool * Z * list Z) :=
  let (neg, s) := scan_sign (skip_space s) in
  let (b, s) := (if base =? 0 then scan_base s else (base, s)) in
  match s with
  | c :: _ => match dig b c with
              | Some _ => let (m, r) := scan_num b 0 s in Some (neg, m, r)
              | None => None
              end
  | [] => None
  end.

(* safe_atoul, util.cpp:49-67 (safe_atoull, 69-87, is the same on LP64): return code and *ret *)
Definition safe_atoul (s : list Z) : Z * option Z :=
  match strto 0 s with
  | None => (- EINVAL, None)
  | Some (neg, m, r) =>
    if ULONG <=? m then (- ERANGE, None)
    else match r with
         | [] => (0, Some (if neg then u64 (- m) else m))
         | _ :: _ => (- EINVAL, None)
         end
  end.

(* strtol: saturates and sets ERANGE *)
Definition strtol (base : Z) (s : list Z) : option (Z * bool * list Z) :=
  match strto base s with
  | None => None
  | Some (neg, m, r) =>
    let x := if neg then - m else m in
    if x <? - LONG then Some (- LONG, true, r)
    else if LONG <=? x then Some (LONG - 1, true, r)
    else Some (x, false, r)
  end.

(* safe_atoi, util.cpp:89-110 *)
Definition safe_atoi (s : list Z) : Z * option Z :=
  match strtol 0 s with
  | None => (- EINVAL, None)
  | Some (l, err, r) =>
    if err then (- ERANGE, None)
    else match r with
         | [] => if (- INT <=? l) && (l <? INT) then (0, Some l) else (- ERANGE, None)
         | _ :: _ => (- EINVAL, None)
         end
  end.

(* atol: strtol in base 10 without checks; 0 if there is no number *)
Definition atol (s : list Z) : Z :=
  match strtol 10 s with
  | None => 0
  | Some (l, _, _) => l
  end.
(* atoi: atol converted to int *)
Definition i32 (z : Z) : Z := (z + INT) mod (2 * INT) - INT.
Definition atoi (s : list Z) : Z := i32 (atol s).
