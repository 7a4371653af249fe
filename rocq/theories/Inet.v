(* The addresses endpoints are given: inet_addr, inet_pton and inet_ntop as src/endpoint.cpp uses them, and the tests on
   the text of an IPv6 address.  The three library functions follow glibc (resolv/inet_addr.c, inet_pton.c,
   inet_ntop.c).  An IPv4 address is its four octets, an IPv6 address its eight 16-bit groups. *)
From Coq Require Import String.
From Verif Require Import Base Names Num.
Open Scope string_scope.
Open Scope list_scope.
Open Scope Z_scope.

(* ---- IPv4 --------------------------------------------------------------------------------------------- *)

(* the last [k] octets of a number, most significant first *)
Fixpoint octets (k : nat) (v : Z) : list Z :=
  match k with O => [] | Datatypes.S k => octets k (v / 256) ++ [v mod 256] end.
(* inet_aton: numbers as in C (0x: hexadecimal, 0: octal); fewer than four parts are allowed, the last one then counts
   for the rest; what follows must be nothing or white space.  [k]: how many more dots may come. *)
Fixpoint aton (k : nat) (acc : list Z) (s : list Z) : option (list Z) :=
  match s with
  | [] => None
  | c :: _ =>
    if is_digit c then
      match strto 0 s with
      | None => None
      | Some (_, v, r) =>
        if 4294967295 <? v then None
        else
          let last := match r with
                      | [] => true
                      | c :: _ => is_space c
                      end in
          match r, k with
          | 46 :: r, Datatypes.S k => if 255 <? v then None else aton k (acc ++ [v]) r
          | _, _ => if last && (v <? 256 ^ (1 + Z.of_nat k)) then Some (acc ++ octets (1 + k) v) else None
          end
      end
    else None
  end.
(* inet_addr, used at endpoint.cpp:1203 (UDP) and 1600 (TCP): INADDR_NONE is 255.255.255.255 *)
Definition inet_addr (s : list Z) : list Z :=
  match aton 3 [] s with Some a => a | None => [255; 255; 255; 255] end.

(* ---- inet_pton ---------------------------------------------------------------------------------------- *)

(* inet_pton for AF_INET, needed for an IPv4 part at the end of an IPv6 address: octets so far, the current one *)
Fixpoint pton4 (acc : list Z) (cur : option Z) (s : list Z) : option (list Z) :=
  match s with
  | [] => match cur with
          | Some v => if (length acc =? 3)%nat then Some (acc ++ [v]) else None
          | None => None
          end
  | c :: r =>
    if is_digit c then
      match cur with
      | None => pton4 acc (Some (c - 48)) r
      | Some v => if v =? 0 then None else if 255 <? v * 10 + (c - 48) then None else pton4 acc (Some (v * 10 + (c - 48))) r
      end
    else if c =? 46 then
      match cur with
      | Some v => if (length acc =? 3)%nat then None else pton4 (acc ++ [v]) None r
      | None => None
      end
    else None
  end.
(* the end of inet_pton6: the groups after "::" move to the end *)
Definition fin6 (tp : list Z) (colon : option nat) : option (list Z) :=
  match colon with
  | Some n => if (length tp =? 8)%nat then None else Some (firstn n tp ++ repeat 0 (8 - length tp) ++ skipn n tp)
  | None => if (length tp =? 8)%nat then Some tp else None
  end.
(* its loop: groups so far, where "::" was, digits of the current group, its value, the text from its start *)
Fixpoint p6 (tp : list Z) (colon : option nat) (xd : nat) (val : Z) (tok : list Z) (s : list Z) : option (list Z) :=
  match s with
  | [] => match xd with
          | O => fin6 tp colon
          | _ => if (length tp =? 8)%nat then None else fin6 (tp ++ [val]) colon
          end
  | c :: r =>
    match dig 16 c with
    | Some d => if (xd =? 4)%nat then None else p6 tp colon (Datatypes.S xd) (val * 16 + d) tok r
    | None =>
      if c =? 58 then
        match xd with
        | O => match colon with
               | Some _ => None
               | None => p6 tp (Some (length tp)) O val r r
               end
        | _ => match r with
               | [] => None
               | _ => if (length tp =? 8)%nat then None else p6 (tp ++ [val]) colon O 0 r r
               end
        end
      else if (c =? 46) && (length tp <=? 6)%nat then
        match pton4 [] None tok with
        | Some [a; b; c; d] => fin6 (tp ++ [a * 256 + b; c * 256 + d]) colon
        | _ => None
        end
      else None
    end
  end.
Definition pton6 (s : list Z) : option (list Z) :=
  match s with
  | [] => None
  | c :: r =>
    if c =? 58 then
      match r with
      | c2 :: _ => if c2 =? 58 then p6 [] None O 0 r r else None
      | [] => None
      end
    else p6 [] None O 0 s s
  end.

(* ---- inet_ntop ---------------------------------------------------------------------------------------- *)

(* %x *)
Definition hexc (d : Z) : Z := if d <? 10 then 48 + d else 87 + d.
Fixpoint phex (k : nat) (n : Z) : list Z :=
  match k with
  | O => []
  | Datatypes.S k => if n <? 16 then [hexc n] else phex k (n / 16) ++ [hexc (n mod 16)]
  end.
(* the longest run of zero groups, the first of them if there are several; a single zero does not count *)
Definition longer (cur best : option (nat * nat)) : option (nat * nat) :=
  match cur, best with
  | None, _ => best
  | Some _, None => cur
  | Some (_, n), Some (_, m) => if (m <? n)%nat then cur else best
  end.
Fixpoint runs (i : nat) (cur best : option (nat * nat)) (ws : list Z) : option (nat * nat) :=
  match ws with
  | [] => longer cur best
  | w :: r =>
    if w =? 0 then runs (1 + i) (match cur with None => Some (i, 1%nat) | Some (b, n) => Some (b, Datatypes.S n) end) best r
    else runs (1 + i) None (longer cur best) r
  end.
Definition best_run (ws : list Z) : option (nat * nat) :=
  match runs 0 None None ws with
  | Some (b, n) => if (n <? 2)%nat then None else Some (b, n)
  | None => None
  end.
Definition ntop4 (a b c d : Z) : list Z := dec 20 a ++ lit "." ++ dec 20 b ++ lit "." ++ dec 20 c ++ lit "." ++ dec 20 d.
(* IPv4-compatible and IPv4-mapped addresses end in dotted decimal *)
Definition has_v4 (best : option (nat * nat)) (ws : list Z) : bool :=
  match best with
  | Some (b, n) => (b =? 0)%nat && ((n =? 6)%nat || ((n =? 5)%nat && (nth 5 ws 0 =? 65535)))
  | None => false
  end.
Definition inside (best : option (nat * nat)) (i : nat) : bool :=
  match best with Some (b, n) => (b <=? i)%nat && (i <? b + n)%nat | None => false end.
Definition starts (best : option (nat * nat)) (i : nat) : bool := match best with Some (b, _) => (i =? b)%nat | None => false end.
Fixpoint fmt6 (v4 : bool) (best : option (nat * nat)) (i : nat) (ws : list Z) : list Z :=
  match ws with
  | [] => match best with Some (b, n) => if (b + n =? 8)%nat then lit ":" else [] | None => [] end
  | w :: r =>
    if inside best i then (if starts best i then lit ":" else []) ++ fmt6 v4 best (1 + i) r
    else (if (i =? 0)%nat then [] else lit ":") ++
         match (if ((i =? 6)%nat && v4)%bool then r else []) with
         | w2 :: _ => ntop4 (w / 256) (w mod 256) (w2 / 256) (w2 mod 256)
         | [] => phex 8 w ++ fmt6 v4 best (1 + i) r
         end
  end.
Definition ntop6 (ws : list Z) : list Z := let best := best_run ws in fmt6 (has_v4 best ws) best 0 ws.

(* ---- endpoint.cpp ------------------------------------------------------------------------------------- *)

(* strncmp (ip, p, strlen (p)) == 0 *)
Fixpoint has_prefix (p s : list Z) : bool :=
  match p, s with
  | [], _ => true
  | x :: p, y :: s => (x =? y) && has_prefix p s
  | _, [] => false
  end.
(* endpoint.cpp:129-139 *)
Definition is_linklocal (s : list Z) : bool := has_prefix (lit "fe80") s || has_prefix (lit "fc") s || has_prefix (lit "fd") s.
Definition is_multicast (s : list Z) : bool := has_prefix (lit "ff0") s.

(* endpoint.cpp:159-192, ipv6_get_scope_id: the interface addresses with the index of their interface, in the order
   getifaddrs lists them; getnameinfo with NI_NUMERICHOST gives the text of inet_ntop, with %interface cut off.
   (That getifaddrs fails, which leaves its argument uninitialised, is not modelled.) *)
Fixpoint scope_id (ifs : list (Z * list Z)) (ip : list Z) : Z :=
  match ifs with
  | [] => 0
  | (idx, g) :: r => if list_eq_dec Z.eq_dec (ntop6 g) ip then idx else scope_id r ip
  end.

(* what the socket calls are given: the group joined and the interface it is joined on, the address and the scope *)
Record sock6 : Type := mkS6 { s6_join : option (list Z * Z); s6_addr : list Z; s6_scope : Z }.
Definition zeros : list Z := repeat 0 8.
(* the address text without its first and last character *)
Definition strip (ip : list Z) : list Z := removelast (tl ip).

(* UdpEndpoint::open_ipv6, endpoint.cpp:1134-1172: [junk] is what the stack holds where ip_addr is put, used if
   inet_pton fails; [junk2] and [ifx] the same for the two fields of group, the second of which is never set.  sockaddr6 was cleared by the constructor (1064-1069). *)
Definition udp6 (ifs : list (Z * list Z)) (junk junk2 : list Z) (ifx : Z) (server : bool) (ip : list Z) : sock6 :=
  let s := strip ip in
  let a := match pton6 s with Some g => g | None => junk end in
  let t := ntop6 a in
  let s := if (length t + 1 <=? length ip)%nat then t else s in              (* ENOSPC otherwise: the text stays *)
  let mc := server && is_multicast s in
  mkS6 (if mc then Some (match pton6 s with Some g => g | None => junk2 end, ifx) else None)
       (if mc then zeros else match pton6 s with Some g => g | None => zeros end)
       (if is_linklocal s then scope_id ifs s else 0).
(* TcpEndpoint::open_ipv6, endpoint.cpp:1554-1590: None: refused.  sockaddr6 was cleared by the constructor. *)
Definition tcp6 (ifs : list (Z * list Z)) (ip : list Z) : option sock6 :=
  let s := strip ip in
  if is_multicast s then None
  else Some (mkS6 None (match pton6 s with Some g => g | None => zeros end) (if is_linklocal s then scope_id ifs s else 0)).
