(* What the text of an address means, stated apart from the model. *)
From Coq Require Import String.
From Verif Require Import Base Num SpecNum.
Open Scope string_scope.
Open Scope list_scope.
Open Scope Z_scope.

(* dotted decimal: four numbers from 0 to 255 in the usual notation *)
Definition octet_text (s : list Z) (n : Z) : Prop := decimal s n /\ n <= 255.
Definition written4 (s : list Z) (a : list Z) : Prop :=
  exists s1 n1 s2 n2 s3 n3 s4 n4, octet_text s1 n1 /\ octet_text s2 n2 /\ octet_text s3 n3 /\ octet_text s4 n4 /\
    s = s1 ++ lit "." ++ s2 ++ lit "." ++ s3 ++ lit "." ++ s4 /\ a = [n1; n2; n3; n4].

(* IPv6 (RFC 4291, 2.2): groups of one to four hexadecimal digits with colons in between, all eight of them, or fewer
   with "::" in place of the groups that are zero *)
Definition group_text (t : list Z) (v : Z) : Prop := (1 <= length t <= 4)%nat /\ numeral 16 t v.
Fixpoint join (ts : list (list Z)) : list Z := match ts with [] => [] | [t] => t | t :: r => t ++ lit ":" ++ join r end.
Definition written6 (s : list Z) (g : list Z) : Prop :=
  (exists ts, Forall2 group_text ts g /\ length g = 8%nat /\ s = join ts) \/
  (exists ta a tb b, Forall2 group_text ta a /\ Forall2 group_text tb b /\ (length a + length b < 8)%nat /\
     s = join ta ++ lit "::" ++ join tb /\ g = a ++ repeat 0 (8 - length a - length b) ++ b).

(* multicast: ff00::/8; link-local: fe80::/10 (RFC 4291, 2.4) *)
Definition multicast6 (g : list Z) : Prop := exists w r, g = w :: r /\ 65280 <= w <= 65535.
Definition linklocal6 (g : list Z) : Prop := exists w r, g = w :: r /\ 65152 <= w <= 65215.
