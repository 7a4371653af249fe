(* C68-C71, C79: options of a section, numbers, lists, booleans and enumerations. *)
From Coq Require Import String.
From Verif Require Import Base Names NamesProofs Num SpecNum NumProofs Conf SpecConf ConfProofs ConfLook LogFile RouterSetup Opts SpecSection.
Local Open Scope string_scope.
Local Open Scope list_scope.
Local Open Scope Z_scope.

(* ==== C69: numbers ==== *)

Lemma plain_cstr : forall v, plain v -> cstr v = v.
Proof. intros. apply cstr_id. exact H. Qed.

Lemma parse_num_ok : forall D f (set : D -> Z -> D) v d n, v <> [] -> plain v -> f v = (0, Some n) -> parse_num f set v d = Ok (0, set d n).
Proof. intros D f set v d n NE P E. unfold parse_num, asserted. destruct v; [congruence|]. rewrite (plain_cstr _ P), E. reflexivity. Qed.
Lemma parse_num_bad : forall D f (set : D -> Z -> D) v d e, v <> [] -> plain v -> f v = (e, None) -> parse_num f set v d = Ok (e, d).
Proof. intros D f set v d e NE P E. unfold parse_num, asserted. destruct v; [congruence|]. rewrite (plain_cstr _ P), E. reflexivity. Qed.

Lemma safe_atoi_spec : forall s,
  (forall n, integer s n -> - 2147483648 <= n < 2147483648 -> safe_atoi s = (0, Some n)) /\
  ((forall n, integer s n -> ~ - 2147483648 <= n < 2147483648) -> exists e, safe_atoi s = (e, None) /\ e < 0).
Proof.
  intros s. split.
  - intros n I R. apply strto_integer in I. destruct I as (neg & m & E & ->). unfold safe_atoi, strtol. rewrite E.
    unfold LONG, INT. set (x := if neg then - m else m) in *. clearbody x.
    destruct (Z.ltb_spec x (Z.opp 9223372036854775808)); [lia|]. destruct (Z.leb_spec 9223372036854775808 x); [lia|].
    destruct (Z.leb_spec (Z.opp 2147483648) x); [|lia]. destruct (Z.ltb_spec x 2147483648); [|lia]. reflexivity.
  - intros N. unfold safe_atoi, strtol. destruct (strto 0 s) as [[[neg m] r]|] eqn:E; [|exists (- EINVAL); split; [reflexivity|unfold EINVAL; lia]].
    set (x := if neg then - m else m) in *.
    destruct (x <? - LONG); [exists (- ERANGE); split; [reflexivity|unfold ERANGE; lia]|].
    destruct (LONG <=? x); [exists (- ERANGE); split; [reflexivity|unfold ERANGE; lia]|].
    destruct r; [|exists (- EINVAL); split; [reflexivity|unfold EINVAL; lia]].
    assert (I : integer s x) by (apply strto_integer; eauto). specialize (N x I). unfold INT.
    destruct (Z.leb_spec (Z.opp 2147483648) x), (Z.ltb_spec x 2147483648); cbn [andb]; try (exists (- ERANGE); split; [reflexivity|unfold ERANGE; lia]). lia.
Qed.
Lemma safe_atoul_spec : forall s,
  (forall n, integer s n -> - ULONG < n < ULONG -> safe_atoul s = (0, Some (n mod ULONG))) /\
  ((forall n, integer s n -> ~ - ULONG < n < ULONG) -> exists e, safe_atoul s = (e, None) /\ e < 0).
Proof.
  intros s. split.
  - intros n I R. apply strto_integer in I. destruct I as (neg & m & E & ->). unfold safe_atoul. rewrite E.
    pose proof (strto_nonneg 0 s neg m [] ltac:(lia) E). destruct (Z.leb_spec ULONG m); [unfold ULONG in *; destruct neg; lia|].
    destruct neg; [reflexivity|]. rewrite Z.mod_small; [reflexivity|unfold ULONG in *; lia].
  - intros N. unfold safe_atoul. destruct (strto 0 s) as [[[neg m] r]|] eqn:E; [|exists (- EINVAL); split; [reflexivity|unfold EINVAL; lia]].
    destruct (Z.leb_spec ULONG m); [exists (- ERANGE); split; [reflexivity|unfold ERANGE; lia]|].
    destruct r; [|exists (- EINVAL); split; [reflexivity|unfold EINVAL; lia]].
    exfalso. apply (N (if neg then - m else m)); [apply strto_integer; eauto|].
    pose proof (strto_nonneg 0 s neg m [] ltac:(lia) E). destruct neg; lia.
Qed.

(* A signed option accepts exactly the C integers in the range of int and takes their value. *)
Theorem C69_signed : forall D (set : D -> Z -> D) v d, v <> [] -> plain v ->
  (forall n, integer v n -> - 2147483648 <= n < 2147483648 -> parse_i set v d = Ok (0, set d n)) /\
  ((forall n, integer v n -> ~ - 2147483648 <= n < 2147483648) -> exists e, parse_i set v d = Ok (e, d) /\ e < 0).
Proof.
  intros D set v d NE P. destruct (safe_atoi_spec v) as [A B]. split.
  - intros n I R. apply parse_num_ok; auto.
  - intros N. destruct (B N) as (e & E & L). exists e. split; auto. apply parse_num_bad; auto.
Qed.
Print Assumptions C69_signed.

(* An unsigned option accepts exactly the C integers whose magnitude is below 2^64; a negative one is taken modulo
   2^64. *)
Theorem C69_unsigned_partial : forall D (set : D -> Z -> D) v d, v <> [] -> plain v ->
  (forall n, integer v n -> - 18446744073709551616 < n < 18446744073709551616 -> parse_ul set v d = Ok (0, set d (n mod 18446744073709551616))) /\
  ((forall n, integer v n -> ~ - 18446744073709551616 < n < 18446744073709551616) -> exists e, parse_ul set v d = Ok (e, d) /\ e < 0).
Proof.
  intros D set v d NE P. destruct (safe_atoul_spec v) as [A B]. split.
  - intros n I R. apply parse_num_ok; auto.
  - intros N. destruct (B N) as (e & E & L). exists e. split; auto. apply parse_num_bad; auto.
Qed.
Print Assumptions C69_unsigned_partial.

(* Decimal notation is read exactly, by both. *)
Lemma decimal_plain : forall v n, decimal v n -> v <> [] /\ plain v.
Proof.
  intros v n D. destruct (decimal_spec v n D) as (_ & _ & c & r & E & C & _ & F). split; [subst; discriminate|].
  intros I. rewrite Forall_forall in F. apply F in I. lia.
Qed.
Theorem C69_decimal : forall D (set : D -> Z -> D) v d n, decimal v n ->
  (n < 2147483648 -> parse_i set v d = Ok (0, set d n)) /\ (n < 18446744073709551616 -> parse_ul set v d = Ok (0, set d n)).
Proof.
  intros D set v d n DE. destruct (decimal_plain v n DE) as [NE P]. destruct (decimal_spec v n DE) as (_ & NN & _).
  apply decimal_integer in DE. split; intros L.
  - apply C69_signed; auto. lia.
  - destruct (C69_unsigned_partial D set v d NE P) as [A _]. rewrite (A n DE) by lia. rewrite Z.mod_small by lia. reflexivity.
Qed.
Print Assumptions C69_decimal.

(* A negative number is out of the range of an unsigned option but accepted. *)
Theorem C69_negative_refuted : forall D (set : D -> Z -> D) d, integer (lit "-1") (-1) /\
  parse_ul set (lit "-1") d = Ok (0, set d 18446744073709551615).
Proof.
  intros. split.
  - change (lit "-1") with ([] ++ 45 :: [49]). apply (i_minus [] [49] 1); [constructor|]. apply decimal_constant. apply (d_one 1). lia.
  - reflexivity.
Qed.
Print Assumptions C69_negative_refuted.
Example C69_nonvacuous : integer (lit " 0x1F") 31 /\ integer (lit "-017") (-15) /\ decimal (lit "57600") 57600.
Proof.
  repeat split.
  - change (lit " 0x1F") with ([32] ++ [48; 120; 49; 70]). apply i_none; [constructor; [left; lia|constructor]|].
    apply k_hex; [auto|discriminate|]. change 31 with ((0 * 16 + 1) * 16 + 15). change [49; 70] with (([] ++ [49]) ++ [70]).
    repeat constructor; try lia; unfold digit_char; lia.
  - change (lit "-017") with ([] ++ 45 :: [48; 49; 55]). apply (i_minus [] [48; 49; 55] 15); [constructor|]. apply k_oct.
    change 15 with ((0 * 8 + 1) * 8 + 7). change [49; 55] with (([] ++ [49]) ++ [55]). repeat constructor; try lia; unfold digit_char; lia.
  - change (lit "57600") with (((([48 + 5] ++ [48 + 7]) ++ [48 + 6]) ++ [48 + 0]) ++ [48 + 0]).
    change 57600 with (10 * (10 * (10 * (10 * 5 + 7) + 6) + 0) + 0). repeat constructor; lia.
Qed.

(* ==== C70: lists ==== *)

(* entries separated by commas, blanks allowed around each number *)
Fixpoint join (es : list (list Z)) : list Z :=
  match es with
  | [] => []
  | [e] => e
  | e :: r => e ++ 44 :: join r
  end.
Definition entry (e : list Z) (n : Z) : Prop :=
  exists a s b, e = a ++ s ++ b /\ Forall blank a /\ decimal s n /\ Forall blank b.

Lemma toks_entry : forall e acc r, ~ In 44 e -> toks acc (e ++ r) = toks (rev e ++ acc) r.
Proof.
  induction e as [|c e IH]; intros acc r N; cbn [app rev toks]; auto.
  destruct (Z.eqb_spec c 44); [exfalso; apply N; left; auto|]. rewrite IH by (intros I; apply N; right; auto).
  rewrite <- app_assoc. reflexivity.
Qed.
Lemma toks_join : forall es, Forall (fun e => e <> [] /\ ~ In 44 e) es -> toks [] (join es) = es.
Proof.
  induction es as [|e es IH]; intros F; [reflexivity|]. inversion F as [|? ? [NE NC] F2]; subst.
  assert (RV : match rev e with [] => False | _ => True end).
  { destruct (rev e) eqn:E; auto. apply NE. rewrite <- (rev_involutive e), E. reflexivity. }
  destruct es as [|e2 es].
  - cbn [join]. rewrite <- (app_nil_r e) at 1. rewrite toks_entry by auto. cbn [toks]. rewrite app_nil_r.
    destruct (rev e) eqn:E; [destruct RV|]. rewrite <- E, rev_involutive. reflexivity.
  - change (join (e :: e2 :: es)) with (e ++ 44 :: join (e2 :: es)). rewrite toks_entry by auto. cbn [toks].
    change (44 =? 44) with true. cbv iota. rewrite app_nil_r. destruct (rev e) eqn:E; [destruct RV|].
    rewrite <- E, rev_involutive, IH by auto. reflexivity.
Qed.

Lemma blank_nodig : forall b, Forall blank b -> no_dig 10 b.
Proof.
  intros [|c b] F; [exact Logic.I|]. inversion F; subst. cbn. destruct (dig 10 c) eqn:E; auto.
  apply dig_char in E. unfold digit_char, blank in *. lia.
Qed.
Lemma entry_atol : forall e n, entry e n -> n < 4294967296 -> atol e = n.
Proof.
  intros e n (a & s & b & -> & A & D & B) L. destruct (decimal_spec s n D) as (_ & P & _). unfold atol, strtol.
  rewrite (strto10_decimal a s n b A D (blank_nodig b B)). unfold LONG.
  destruct (Z.ltb_spec n (Z.opp 9223372036854775808)); [lia|]. destruct (Z.leb_spec 9223372036854775808 n); [lia|]. reflexivity.
Qed.
Lemma entry_chars : forall e n, entry e n -> e <> [] /\ ~ In 44 e /\ ~ In 0 e.
Proof.
  intros e n (a & s & b & -> & A & D & B). destruct (decimal_spec s n D) as (_ & P & c & r & -> & C & _ & F).
  rewrite Forall_forall in A, B, F. unfold blank in *. repeat split.
  - destruct a; discriminate.
  - intros I. apply in_app_or in I. destruct I as [I|I]; [apply A in I; lia|]. apply in_app_or in I.
    destruct I as [I|I]; [apply F in I|apply B in I]; lia.
  - intros I. apply in_app_or in I. destruct I as [I|I]; [apply A in I; lia|]. apply in_app_or in I.
    destruct I as [I|I]; [apply F in I|apply B in I]; lia.
Qed.
Lemma join_chars : forall es ns, Forall2 entry es ns -> es <> [] -> join es <> [] /\ plain (join es).
Proof.
  induction 1 as [|e n es ns E F IH]; intros NE; [congruence|]. destruct (entry_chars e n E) as (A & B & C).
  destruct es as [|e2 es]; [auto|]. destruct IH as [I1 I2]; [discriminate|].
  change (join (e :: e2 :: es)) with (e ++ 44 :: join (e2 :: es)). split; [destruct e; [congruence|discriminate]|].
  intros I. apply in_app_or in I. destruct I as [I|[I|I]]; [auto|discriminate|auto].
Qed.

Lemma words_join : forall es ns, Forall2 entry es ns -> es <> [] -> Forall (fun n => n < 4294967296) ns -> words (join es) = ns.
Proof.
  intros es ns F NE R. unfold words. rewrite plain_cstr by (eapply join_chars; eauto).
  rewrite toks_join.
  - clear NE. induction F as [|e n es ns E F IH]; cbn [map]; auto. inversion R; subst. f_equal; [|auto].
    rewrite (entry_atol e n E) by auto. unfold u32. apply Z.mod_small. destruct E as (a & s & b & _ & _ & D & _). destruct (decimal_spec s n D) as (_ & P & _). lia.
  - clear NE R. induction F as [|e n es ns E F IH]; constructor; auto. destruct (entry_chars e n E) as (A & B & C). auto.
Qed.
Lemma bytes_join : forall es ns, Forall2 entry es ns -> es <> [] -> Forall (fun n => n < 256) ns -> octets (join es) = ns.
Proof.
  intros es ns F NE R. unfold octets. rewrite plain_cstr by (eapply join_chars; eauto).
  rewrite toks_join.
  - clear NE. induction F as [|e n es ns E F IH]; cbn [map]; auto. inversion R; subst. f_equal; [|auto].
    destruct E as (a & s & b & EQ & X & D & Y). destruct (decimal_spec s n D) as (_ & P & _).
    unfold atoi. rewrite (entry_atol e n) by (try lia; exists a, s, b; auto). unfold i32, INT.
    rewrite Z.mod_small by lia. unfold u8. rewrite Z.mod_small; lia.
  - clear NE R. induction F as [|e n es ns E F IH]; constructor; auto. destruct (entry_chars e n E) as (A & B & C). auto.
Qed.

(* A list of numbers in range is appended to the option's field exactly as written. *)
Theorem C70_words : forall D (get : D -> list Z) set es ns d, es <> [] -> Forall2 entry es ns ->
  Forall (fun n => n < 4294967296) ns -> parse_u32s get set (join es) d = Ok (0, set d (get d ++ ns)).
Proof.
  intros D get set es ns d NE F R. pose proof (words_join es ns F NE R) as W. destruct (join_chars es ns F NE) as [J _].
  unfold parse_u32s, asserted. fold (words (join es)). rewrite W. destruct (join es); [congruence|reflexivity].
Qed.
Print Assumptions C70_words.
Theorem C70_bytes : forall D (get : D -> list Z) set es ns d, es <> [] -> Forall2 entry es ns ->
  Forall (fun n => n < 256) ns -> parse_u8s get set (join es) d = Ok (0, set d (get d ++ ns)).
Proof.
  intros D get set es ns d NE F R. pose proof (bytes_join es ns F NE R) as W. destruct (join_chars es ns F NE) as [J _].
  unfold parse_u8s, asserted. fold (octets (join es)). rewrite W. destruct (join es); [congruence|reflexivity].
Qed.
Print Assumptions C70_bytes.
Example C70_nonvacuous : exists es, join es = lit "0, 33 ,255" /\ Forall2 entry es [0; 33; 255].
Proof.
  exists [lit "0"; lit " 33 "; lit "255"]. split; [reflexivity|]. repeat constructor.
  - exists [], [48], []. repeat split; auto. apply (d_one 0). lia.
  - exists [32], [51; 51], [32]. repeat split; try (constructor; [left; lia|constructor]).
    change [51; 51] with ([48 + 3] ++ [48 + 3]). change 33 with (10 * 3 + 3). repeat constructor; lia.
  - exists [], [50; 53; 53], []. repeat split; auto.
    change [50; 53; 53] with (([48 + 2] ++ [48 + 5]) ++ [48 + 5]). change 255 with (10 * (10 * 2 + 5) + 5). repeat constructor; lia.
Qed.

(* ==== C79: bad list entries ==== *)

(* Entries that are out of range or no numbers are not rejected but replaced by other identifiers. *)
Theorem C79_bad_entry_refuted : forall D (get : D -> list Z) set d,
  parse_u8s get set (lit "300") d = Ok (0, set d (get d ++ [44])) /\
  parse_u8s get set (lit "all") d = Ok (0, set d (get d ++ [0])) /\
  parse_u32s get set (lit "4294967329") d = Ok (0, set d (get d ++ [33])) /\
  parse_u32s get set (lit "HEARTBEAT") d = Ok (0, set d (get d ++ [0])) /\
  parse_u32s get set (lit "0x21") d = Ok (0, set d (get d ++ [0])).
Proof. intros. repeat split; vm_compute; reflexivity. Qed.
Print Assumptions C79_bad_entry_refuted.
(* What holds: a bad entry changes nothing about the others.  Every entry contributes one identifier, in order, and the entries that are numbers in
   range contribute these numbers. *)
Definition plain_entry (e : list Z) : Prop := e <> [] /\ ~ In 44 e /\ ~ In 0 e.
Lemma plain_joined : forall es, Forall plain_entry es -> es <> [] -> join es <> [] /\ plain (join es).
Proof.
  induction es as [|e es IH]; intros F NE; [congruence|]. inversion F as [|? ? (A & B & C) F2]; subst. destruct es as [|e2 es]; [auto|]. destruct IH as [I1 I2]; auto; [discriminate|].
  change (join (e :: e2 :: es)) with (e ++ 44 :: join (e2 :: es)). split; [destruct e; [congruence|discriminate]|].
  intros I. apply in_app_or in I. destruct I as [I|[I|I]]; [auto|discriminate|auto].
Qed.
Theorem C79_others_partial : forall D (get : D -> list Z) set es d, es <> [] -> Forall plain_entry es ->
  (exists xs, parse_u8s get set (join es) d = Ok (0, set d (get d ++ xs)) /\ length xs = length es /\
    forall i e n, nth_error es i = Some e -> entry e n -> n < 256 -> nth_error xs i = Some n) /\
  (exists xs, parse_u32s get set (join es) d = Ok (0, set d (get d ++ xs)) /\ length xs = length es /\
    forall i e n, nth_error es i = Some e -> entry e n -> n < 4294967296 -> nth_error xs i = Some n).
Proof.
  intros D get set es d NE F. destruct (plain_joined es F NE) as [J P].
  assert (TK : toks [] (cstr (join es)) = es). { rewrite plain_cstr by auto. apply toks_join. eapply Forall_impl; [|exact F]. intros e (A & B & _). auto. }
  split.
  - exists (map (fun t => u8 (atoi t)) es). unfold parse_u8s, asserted. rewrite TK. split; [destruct (join es); [congruence|reflexivity]|]. rewrite map_length. split; auto.
    intros i e n N E L. rewrite nth_error_map, N. cbn [option_map]. f_equal. pose proof E as (a & s & b & EQ & X & DD & Y). destruct (decimal_spec s n DD) as (_ & Q & _).
    unfold atoi. rewrite (entry_atol e n E) by lia. unfold i32, INT. rewrite Z.mod_small by lia. unfold u8. rewrite Z.mod_small; lia.
  - exists (map (fun t => u32 (atol t)) es). unfold parse_u32s, asserted. rewrite TK. split; [destruct (join es); [congruence|reflexivity]|]. rewrite map_length. split; auto.
    intros i e n N E L. rewrite nth_error_map, N. cbn [option_map]. f_equal. pose proof E as (a & s & b & EQ & X & DD & Y). destruct (decimal_spec s n DD) as (_ & Q & _).
    rewrite (entry_atol e n E) by auto. unfold u32. apply Z.mod_small. lia.
Qed.
Print Assumptions C79_others_partial.
Example C79_nonvacuous : join [lit "33"; lit "all"; lit " 0"] = lit "33,all, 0" /\ Forall plain_entry [lit "33"; lit "all"; lit " 0"] /\ entry (lit " 0") 0.
Proof.
  split; [reflexivity|]. split.
  - repeat constructor; try discriminate; intros I; vm_compute in I; intuition discriminate.
  - exists [32], [48], []. repeat split; auto. { constructor; [left; lia|constructor]. } apply (d_one 0). lia.
Qed.

(* ==== C71: booleans and enumerations ==== *)

(* [p] accepts exactly the spellings of a table, up to case, and otherwise leaves the option alone *)
Definition spelled {D A} (p : parser D) (set : D -> A -> D) (table : list (string * A)) : Prop :=
  forall v d, v <> [] -> plain v ->
    (forall w a, In (w, a) table -> same v (lit w) -> p v d = Ok (0, set d a)) /\
    ((forall w a, In (w, a) table -> ~ same v (lit w)) -> exists e, p v d = Ok (e, d) /\ e < 0).

Lemma same_memcase : forall v w, plain v -> plain w -> (memcaseeq v w = true <-> same v w).
Proof. intros. rewrite memcaseeq_key. apply nkey_same; auto. Qed.
Lemma same_strcase : forall v w, strcaseeq v w = true <-> same v w.
Proof.
  induction v as [|x v IH]; intros [|y w]; cbn [strcaseeq]; unfold same; cbn [map]; split; intros H; try discriminate; auto.
  - apply andb_prop in H. destruct H as [A B]. apply Z.eqb_eq in A. apply IH in B. unfold same in B. f_equal; auto.
  - inversion H. apply andb_true_intro. split; [apply Z.eqb_eq; auto|]. apply IH. auto.
Qed.
Lemma same_length : forall v w, same v w -> length v = length w.
Proof. intros v w H. unfold same in H. rewrite <- (map_length fold_case v), H. apply map_length. Qed.
Ltac lit_plain := let I := fresh in vm_compute; intros I; repeat (destruct I as [I|I]; [discriminate|]); exact I.

Ltac by_case P :=
  match goal with
  | |- context [memcaseeq ?v ?w] =>
    let M := fresh "M" in
    destruct (memcaseeq v w) eqn:M;
    [apply (same_memcase v w P ltac:(lit_plain)) in M
    |assert (~ same v w) by (intros S0; apply (same_memcase v w P ltac:(lit_plain)) in S0; congruence); clear M]
  end.
Ltac clash := exfalso; match goal with A : same ?v ?w, B : same ?v ?u |- _ =>
  let X := fresh in assert (X : same w u) by (unfold same in *; congruence); vm_compute in X; discriminate X end.
Ltac spelled_left := 
  let I := fresh "I" in let S := fresh "S" in intros w a I S; cbn [In] in I;
  repeat (destruct I as [I|I]; [inversion I; subst; clear I; first [reflexivity | contradiction | clash]|]); destruct I.

Theorem C71_udp_mode : forall D (set : D -> udpmode -> D),
  spelled (parse_udp_mode set) set [("normal", UClient); ("server", UServer); ("eavesdropping", UServer)].
Proof.
  intros D set v d NE P. unfold parse_udp_mode, asserted. destruct v as [|c v]; [congruence|].
  repeat by_case P; (split; [spelled_left|intros N]);
    try (exfalso; first [eapply N; [left; reflexivity|eassumption] | eapply N; [right; left; reflexivity|eassumption] | eapply N; [right; right; left; reflexivity|eassumption]]).
  exists (- EINVAL). split; [reflexivity|unfold EINVAL; lia].
Qed.
Print Assumptions C71_udp_mode.

Theorem C71_dialect : forall D (set : D -> dialect -> D),
  spelled (parse_dialect set) set [("auto", DAuto); ("common", DCommon); ("ardupilotmega", DArdupilot)].
Proof.
  intros D set v d NE P. unfold parse_dialect, asserted. destruct v as [|c v]; [congruence|].
  repeat by_case P; (split; [spelled_left|intros N]);
    try (exfalso; first [eapply N; [left; reflexivity|eassumption] | eapply N; [right; left; reflexivity|eassumption] | eapply N; [right; right; left; reflexivity|eassumption]]).
  exists (- EINVAL). split; [reflexivity|unfold EINVAL; lia].
Qed.
Print Assumptions C71_dialect.

Ltac by_strcase :=
  match goal with
  | |- context [strcaseeq ?v ?w] =>
    let M := fresh "M" in
    destruct (strcaseeq v w) eqn:M;
    [apply (same_strcase v w) in M
    |assert (~ same v w) by (intros S0; apply (same_strcase v w) in S0; congruence); clear M]
  end.
Ltac none_of N := exfalso; first [eapply N; [left; reflexivity|eassumption] | eapply N; [right; left; reflexivity|eassumption]
  | eapply N; [right; right; left; reflexivity|eassumption] | eapply N; [right; right; right; left; reflexivity|eassumption]
  | eapply N; [right; right; right; right; left; reflexivity|eassumption]].
Ltac too_long L := exfalso; match goal with S : same ?v ?w |- _ => apply same_length in S; rewrite S in L; vm_compute in L; discriminate L end.
Ltac long_left L := intros w a I S; cbn [In] in I; repeat (destruct I as [I|I]; [inversion I; subst; too_long L|]); destruct I.

Theorem C71_log_mode : forall D (set : D -> lmode -> D),
  spelled (parse_log_mode set) set [("always", MAlways); ("while-armed", MWhileArmed)].
Proof.
  intros D set v d NE P. unfold parse_log_mode, asserted. destruct v as [|c v]; [congruence|].
  rewrite (plain_cstr _ P). destruct (20 <? length (c :: v))%nat eqn:L.
  - split; [long_left L|]. intros _. exists (- EINVAL). split; [reflexivity|unfold EINVAL; lia].
  - repeat by_strcase; (split; [spelled_left|intros N]); try none_of N.
    exists (- EINVAL). split; [reflexivity|unfold EINVAL; lia].
Qed.
Print Assumptions C71_log_mode.

Theorem C71_log_level : forall D (set : D -> level -> D),
  spelled (parse_log_level set) set [("error", LError); ("warning", LWarning); ("info", LInfo); ("debug", LDebug); ("trace", LTrace)].
Proof.
  intros D set v d NE P. unfold parse_log_level, asserted. destruct v as [|c v]; [congruence|].
  rewrite (plain_cstr _ P). destruct (10 <? length (c :: v))%nat eqn:L.
  - split; [long_left L|]. intros _. exists (- EINVAL). split; [reflexivity|unfold EINVAL; lia].
  - unfold log_level_from_str. repeat by_strcase; (split; [spelled_left|intros N]); try none_of N.
    exists (- EINVAL). split; [reflexivity|unfold EINVAL; lia].
Qed.
Print Assumptions C71_log_level.

(* Booleans: true, false, and every C integer, which counts as true unless it is zero. *)
Theorem C71_bool_partial : forall D (set : D -> bool -> D) v d, v <> [] -> plain v ->
  (same v (lit "true") -> parse_bool set v d = Ok (0, set d true)) /\
  (same v (lit "false") -> parse_bool set v d = Ok (0, set d false)) /\
  (forall n, integer v n -> - 2147483648 <= n < 2147483648 -> parse_bool set v d = Ok (0, set d (negb (n =? 0)))) /\
  (~ same v (lit "true") -> ~ same v (lit "false") -> (forall n, integer v n -> ~ - 2147483648 <= n < 2147483648) ->
   exists e, parse_bool set v d = Ok (e, d) /\ e < 0).
Proof.
  intros D set v d NE P.
  assert (H1 : memcaseeq (lit "true") v = true <-> same v (lit "true")).
  { rewrite same_memcase by (auto; lit_plain). unfold same. split; intros; congruence. }
  assert (H2 : memcaseeq (lit "false") v = true <-> same v (lit "false")).
  { rewrite same_memcase by (auto; lit_plain). unfold same. split; intros; congruence. }
  assert (HI : forall w n, integer w n -> forall c r, w = c :: r -> c <> 116 /\ c <> 84 /\ c <> 102 /\ c <> 70).
  { clear. intros w n I c r E. assert (B : forall sp s, Forall blank sp -> (exists c r, s = c :: r /\ (c = 43 \/ c = 45 \/ 48 <= c <= 57)) -> sp ++ s = c :: r ->
      c <> 116 /\ c <> 84 /\ c <> 102 /\ c <> 70).
    { intros [|x sp] s F (y & t & -> & R) E2; cbn [app] in E2; inversion E2; subst; [lia|]. inversion F; subst. unfold blank in *. lia. }
    destruct I as [sp s m F K|sp s m F K|sp s m F K].
    - eapply B; [exact F| |exact E]. destruct (constant_head _ _ K) as (x & t & -> & R). exists x, t. auto.
    - eapply B; [exact F| |exact E]. exists 43, s. auto.
    - eapply B; [exact F| |exact E]. exists 45, s. auto. }
  unfold parse_bool. unfold asserted at 1 2 3 4. destruct v as [|c v]; [congruence|].
  split; [|split; [|split]].
  - intros S. apply H1 in S. rewrite S. reflexivity.
  - intros S. destruct (memcaseeq (lit "true") (c :: v)) eqn:M.
    + pose proof (proj1 H1 eq_refl). clash.
    + apply H2 in S. rewrite S. reflexivity.
  - intros n I R. pose proof (HI _ _ I c v eq_refl) as (N1 & N2 & N3 & N4).
    destruct (memcaseeq (lit "true") (c :: v)) eqn:M1.
    { pose proof (proj1 H1 eq_refl) as M3. unfold same in M3. change (map fold_case (lit "true")) with [116; 114; 117; 101] in M3. cbn [map] in M3. injection M3 as X _.
      unfold fold_case in X. destruct ((65 <=? c) && (c <=? 90)); lia. }
    destruct (memcaseeq (lit "false") (c :: v)) eqn:M2.
    { pose proof (proj1 H2 eq_refl) as M3. unfold same in M3. change (map fold_case (lit "false")) with [102; 97; 108; 115; 101] in M3. cbn [map] in M3. injection M3 as X _.
      unfold fold_case in X. destruct ((65 <=? c) && (c <=? 90)); lia. }
    destruct (C69_signed D (fun d x => set d (negb (x =? 0))) (c :: v) d NE P) as [A _]. apply A; auto.
  - intros S1 S2 N.
    destruct (memcaseeq (lit "true") (c :: v)) eqn:M1; [pose proof (proj1 H1 eq_refl); contradiction|].
    destruct (memcaseeq (lit "false") (c :: v)) eqn:M2; [pose proof (proj1 H2 eq_refl); contradiction|].
    destruct (C69_signed D (fun d x => set d (negb (x =? 0))) (c :: v) d NE P) as [_ B]. auto.
Qed.
Print Assumptions C71_bool_partial.
(* So more than the documented spellings (true, false, 1, 0) are accepted. *)
Theorem C71_bool_refuted : forall D (set : D -> bool -> D) d, parse_bool set (lit "-0x2A") d = Ok (0, set d true).
Proof. intros. reflexivity. Qed.
Print Assumptions C71_bool_refuted.
Example C71_nonvacuous : same (lit "While-ARMED") (lit "while-armed") /\ plain (lit "While-ARMED").
Proof. split; [reflexivity|lit_plain]. Qed.
