(* What a number looks like in a configuration, stated apart from the model: the syntax of C integer constants. *)
From Verif Require Import Base.

(* the character of a digit: 0-9, then letters of either case *)
Definition digit_char (c d : Z) : Prop :=
  (0 <= d < 10 /\ c = 48 + d) \/ (10 <= d < 36 /\ (c = 97 + (d - 10) \/ c = 65 + (d - 10))).
(* digits of a base and the number they denote, most significant first *)
Inductive numeral (base : Z) : list Z -> Z -> Prop :=
| n_nil : numeral base [] 0
| n_snoc : forall s n c d, numeral base s n -> digit_char c d -> d < base -> numeral base (s ++ [c]) (n * base + d).

(* an unsigned constant: decimal without leading zero, octal after 0, hexadecimal after 0x *)
Inductive constant : list Z -> Z -> Prop :=
| k_dec : forall c s n, numeral 10 (c :: s) n -> c <> 48 -> constant (c :: s) n
| k_oct : forall s n, numeral 8 s n -> constant (48 :: s) n
| k_hex : forall x s n, x = 120 \/ x = 88 -> s <> [] -> numeral 16 s n -> constant (48 :: x :: s) n.

(* white space, optional sign, constant *)
Definition blank (c : Z) : Prop := c = 32 \/ 9 <= c <= 13.
Inductive integer : list Z -> Z -> Prop :=
| i_none : forall sp s n, Forall blank sp -> constant s n -> integer (sp ++ s) n
| i_plus : forall sp s n, Forall blank sp -> constant s n -> integer (sp ++ 43 :: s) n
| i_minus : forall sp s n, Forall blank sp -> constant s n -> integer (sp ++ 45 :: s) (- n).

(* the usual decimal notation *)
Inductive decimal : list Z -> Z -> Prop :=
| d_one : forall n, 0 <= n < 10 -> decimal [48 + n] n
| d_more : forall s n d, decimal s n -> 0 < n -> 0 <= d < 10 -> decimal (s ++ [48 + d]) (10 * n + d).
