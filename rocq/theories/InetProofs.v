(* inet_addr, inet_pton and inet_ntop against the meaning of the text. *)
From Coq Require Import String.
From Verif Require Import Base Names NamesProofs Num SpecNum NumProofs SpecInet Inet.
Open Scope string_scope.
Open Scope list_scope.
Open Scope Z_scope.

(* ---- groups of inet_pton ------------------------------------------------------------------------------ *)

Lemma Forall2_length : forall (A B : Type) (R : A -> B -> Prop) l k, Forall2 R l k -> length l = length k.
Proof. induction 1; cbn [length]; auto. Qed.
Arguments Forall2_length {A B R l k} _.
Lemma dig_some : forall b c d, digit_char c d -> d < b -> dig b c = Some d.
Proof. intros. apply dig_char. auto. Qed.
Lemma p6_digits : forall t a v, nums 16 a t v -> forall tp col xd tok s, (xd + length t <= 4)%nat ->
  p6 tp col xd a tok (t ++ s) = p6 tp col (xd + length t) v tok s.
Proof.
  induction 1 as [a|a c d s0 n D L N IH]; intros tp col xd tok s H; cbn [length app] in *.
  - rewrite Nat.add_0_r. reflexivity.
  - cbn [p6]. rewrite (dig_some 16 c d) by auto. replace (xd =? 4)%nat with false by (symmetry; apply Nat.eqb_neq; lia).
    rewrite IH by lia. f_equal. lia.
Qed.
Lemma p6_group : forall t v tp col tok s, group_text t v -> p6 tp col O 0 tok (t ++ s) = p6 tp col (length t) v tok s.
Proof. intros t v tp col tok s [L N]. apply nums_numeral in N. rewrite (p6_digits t 0 v) by (auto; lia). reflexivity. Qed.
(* groups with a colon after each *)
Fixpoint semis (ts : list (list Z)) : list Z := match ts with [] => [] | t :: r => t ++ lit ":" ++ semis r end.
Lemma join_snoc : forall ts t, join (ts ++ [t]) = semis ts ++ t.
Proof.
  induction ts as [|x ts IH]; intros t; [reflexivity|]. cbn [app semis]. rewrite <- !app_assoc, <- IH. destruct (ts ++ [t]) eqn:E; [destruct ts; discriminate|]. reflexivity.
Qed.
Lemma join_semis : forall ts, ts <> [] -> join ts ++ lit ":" = semis ts.
Proof.
  intros ts N. destruct (exists_last N) as (i & l & ->). rewrite join_snoc. clear. induction i; cbn [app semis]; [rewrite app_nil_r; reflexivity|]. rewrite <- !app_assoc, <- IHi, <- !app_assoc. reflexivity.
Qed.
Lemma lit_colon : forall s, lit ":" ++ s = 58 :: s. Proof. reflexivity. Qed.
Lemma dig_colon : dig 16 58 = None. Proof. reflexivity. Qed.
Lemma p6_semis : forall ts vs, Forall2 group_text ts vs -> forall tp col tok s, s <> [] -> (length tp + length ts <= 8)%nat ->
  p6 tp col O 0 tok (semis ts ++ s) = p6 (tp ++ vs) col O 0 (match ts with [] => tok | _ => s end) s.
Proof.
  induction 1 as [|t v ts vs G F IH]; intros tp col tok s N L; cbn [semis app length] in *.
  - rewrite app_nil_r. reflexivity.
  - rewrite <- !app_assoc, (p6_group t v) by auto. rewrite lit_colon. cbn [p6]. rewrite dig_colon. change (58 =? 58) with true. cbv iota.
    destruct G as [G1 G2]. destruct (length t) as [|lt] eqn:E; [lia|]. destruct (semis ts ++ s) as [|c r] eqn:ES. { apply app_eq_nil in ES. tauto. }
    replace (length tp =? 8)%nat with false by (symmetry; apply Nat.eqb_neq; lia). rewrite <- ES. rewrite IH by (auto; rewrite app_length; cbn [length]; lia).
    rewrite <- app_assoc. cbn [app]. f_equal. destruct ts; auto.
Qed.
Lemma group_ne : forall t v, group_text t v -> t <> [].
Proof. intros t v [L _] E. subst. cbn in L. lia. Qed.
(* groups at the end of the text *)
Lemma p6_join : forall ts vs, Forall2 group_text ts vs -> forall tp col tok, (length tp + length ts <= 8)%nat -> p6 tp col O 0 tok (join ts) = fin6 (tp ++ vs) col.
Proof.
  intros ts vs F tp col tok L. destruct ts as [|t0 ts0] eqn:E. { inversion F. rewrite app_nil_r. reflexivity. } rewrite <- E in *.
  assert (N : ts <> []) by (subst; discriminate). clear E t0 ts0. destruct (exists_last N) as (i & t & ->).
  apply Forall2_app_inv_l in F. destruct F as (vi & vt & FI & FT & ->). inversion FT as [|? v ? ? G FN]; subst. inversion FN; subst.
  rewrite join_snoc, app_length in *. cbn [length] in L. rewrite (p6_semis i vi) by first [assumption | eapply group_ne; eassumption | lia].
  match goal with |- p6 _ _ _ _ ?k _ = _ => pose proof (p6_group t v (tp ++ vi) col k [] G) as PG end. rewrite app_nil_r in PG. rewrite PG. clear PG. cbn [p6]. destruct G as [G1 G2]. destruct (length t) eqn:E2; [lia|].
  replace (length (tp ++ vi) =? 8)%nat with false.
  2:{ symmetry. apply Nat.eqb_neq. rewrite app_length, <- (Forall2_length FI). lia. }
  rewrite <- app_assoc. reflexivity.
Qed.
Lemma group_head : forall t v, group_text t v -> exists c r, t = c :: r /\ c <> 58 /\ c <> 46.
Proof.
  intros t v [L N]. apply nums_numeral in N. destruct t as [|c r]; [cbn in L; lia|]. inversion N as [|? ? d ? ? D LD M]; subst.
  exists c, r. split; auto. unfold digit_char in D. lia.
Qed.
Lemma join_head : forall ts vs, Forall2 group_text ts vs -> ts <> [] -> exists c r, join ts = c :: r /\ c <> 58.
Proof.
  intros ts vs F N. destruct F as [|t v ts vs G F]; [congruence|]. destruct (group_head t v G) as (c & r & -> & C & _). destruct ts; cbn [join app]; eauto.
Qed.
Lemma pton6_other : forall c r, c <> 58 -> pton6 (c :: r) = p6 [] None O 0 (c :: r) (c :: r).
Proof. intros c r N. unfold pton6. destruct (Z.eqb_spec c 58); [congruence|]. reflexivity. Qed.
(* the text up to and with "::" *)
Lemma pton6_gap : forall ta a s, Forall2 group_text ta a -> (length a < 8)%nat -> pton6 (join ta ++ lit "::" ++ s) = p6 a (Some (length a)) O 0 s s.
Proof.
  intros ta a s F L. change (lit "::") with (lit ":" ++ lit ":"). rewrite <- app_assoc. destruct ta as [|t0 ts0] eqn:E.
  - inversion F; subst. cbn [join app]. rewrite !lit_colon. cbn [pton6]. change (58 =? 58) with true. cbv iota. cbn [p6]. rewrite dig_colon. reflexivity.
  - rewrite <- E in *. assert (N : ta <> []) by (subst; discriminate). rewrite app_assoc, join_semis by auto.
    assert (P : pton6 (semis ta ++ lit ":" ++ s) = p6 [] None O 0 (semis ta ++ lit ":" ++ s) (semis ta ++ lit ":" ++ s)).
    { rewrite <- join_semis by auto. destruct (join_head ta a F N) as (c & r & EJ & C). rewrite EJ. cbn [app]. apply pton6_other. auto. }
    rewrite P. rewrite (p6_semis ta a) by first [assumption | discriminate | rewrite (Forall2_length F); cbn; lia]. cbn [app]. rewrite lit_colon. cbn [p6]. rewrite dig_colon. reflexivity.
Qed.
Lemma firstn_app_l : forall (a b : list Z), firstn (length a) (a ++ b) = a.
Proof. intros. rewrite firstn_app, Nat.sub_diag, firstn_all, firstn_O, app_nil_r. reflexivity. Qed.
Lemma skipn_app_l : forall (a b : list Z), skipn (length a) (a ++ b) = b.
Proof. intros. rewrite skipn_app, Nat.sub_diag, skipn_all. reflexivity. Qed.
Lemma fin6_gap : forall a b, (length a + length b < 8)%nat -> fin6 (a ++ b) (Some (length a)) = Some (a ++ repeat 0 (8 - length a - length b) ++ b).
Proof.
  intros a b L. unfold fin6. rewrite app_length. replace (length a + length b =? 8)%nat with false by (symmetry; apply Nat.eqb_neq; lia).
  rewrite firstn_app_l, skipn_app_l, Nat.sub_add_distr. reflexivity.
Qed.
(* inet_pton reads every IPv6 text as it is meant *)
Theorem pton6_written : forall s g, written6 s g -> pton6 s = Some g.
Proof.
  intros s g [(ts & F & L & ->)|(ta & a & tb & b & FA & FB & L & -> & ->)].
  - assert (N : ts <> []) by (intros ->; inversion F; subst; discriminate). destruct (join_head ts g F N) as (c & r & E & C). rewrite E, pton6_other, <- E by auto.
    rewrite (p6_join ts g) by (auto; rewrite (Forall2_length F), L; cbn; lia). cbn [app]. unfold fin6. rewrite L. reflexivity.
  - rewrite (pton6_gap ta a) by (auto; lia). rewrite (p6_join tb b) by (auto; rewrite (Forall2_length FB); lia). apply fin6_gap. auto.
Qed.

(* ---- inet_ntop ---------------------------------------------------------------------------------------- *)

Definition word16 (w : Z) : Prop := 0 <= w <= 65535.
Lemma hexc_char : forall d, 0 <= d < 16 -> digit_char (hexc d) d.
Proof. intros d D. unfold hexc, digit_char. destruct (Z.ltb_spec d 10); [left|right]; lia. Qed.
Lemma hex_numeral : forall k n, 0 <= n -> n < 16 ^ Z.of_nat k -> (0 < k)%nat -> numeral 16 (phex k n) n.
Proof.
  induction k as [|k IH]; intros n N B K; [lia|]. cbn [phex]. destruct (Z.ltb_spec n 16).
  - change [hexc n] with ([] ++ [hexc n]). replace n with (0 * 16 + n) at 2 by lia. constructor; [constructor|apply hexc_char; lia|lia].
  - assert (0 < k)%nat. { destruct k; [cbn in B; lia|lia]. }
    replace n with (n / 16 * 16 + n mod 16) at 3 by (pose proof (Z.div_mod n 16); lia). pose proof (Z.mod_pos_bound n 16).
    constructor; [|apply hexc_char; lia|lia]. apply IH; auto; [apply Z.div_pos; lia|]. apply Z.div_lt_upper_bound; [lia|].
    rewrite Nat2Z.inj_succ, Z.pow_succ_r in B by lia. lia.
Qed.
Lemma hex_len : forall k n, 0 <= n -> (0 < k)%nat -> (1 <= length (phex k n))%nat.
Proof. intros k n N K. destruct k; [lia|]. cbn [phex]. destruct (n <? 16); [cbn; lia|]. rewrite app_length. cbn [length]. lia. Qed.
Lemma hex_len4 : forall w, word16 w -> (length (phex 8 w) <= 4)%nat.
Proof.
  intros w [A B]. cbn [phex]. destruct (Z.ltb_spec w 16); [cbn; lia|]. destruct (Z.ltb_spec (w / 16) 16); [cbn; lia|]. destruct (Z.ltb_spec (w / 16 / 16) 16); [cbn; lia|].
  destruct (Z.ltb_spec (w / 16 / 16 / 16) 16); [cbn; lia|]. exfalso.
  rewrite !Z.div_div in H2 by lia. assert (w / (16 * (16 * 16)) < 16) by (apply Z.div_lt_upper_bound; lia). lia.
Qed.
Lemma hex_group : forall w, word16 w -> group_text (phex 8 w) w.
Proof.
  intros w W. split; [split; [apply hex_len; unfold word16 in W; lia|apply hex_len4; auto]|]. apply hex_numeral; unfold word16 in W; try lia.
Qed.

(* the run inet_ntop leaves out consists of zeros *)
Definition run_in (p : list Z) (r : option (nat * nat)) : Prop :=
  match r with None => True | Some (b, n) => exists x y, p = x ++ repeat 0 n ++ y /\ length x = b end.
Definition run_end (p : list Z) (r : option (nat * nat)) : Prop :=
  match r with None => True | Some (b, n) => exists x, p = x ++ repeat 0 n /\ length x = b end.
Lemma run_end_in : forall p r, run_end p r -> run_in p r.
Proof. intros p [[b n]|] H; [|exact I]. destruct H as (x & -> & L). exists x, []. rewrite app_nil_r. auto. Qed.
Lemma longer_in : forall p c b, run_end p c -> run_in p b -> run_in p (longer c b).
Proof. intros p c b C B. apply run_end_in in C. destruct c as [[x n]|], b as [[y m]|]; cbn [longer]; auto. destruct (m <? n)%nat; auto. Qed.
Lemma run_in_more : forall p q r, run_in p r -> run_in (p ++ q) r.
Proof. intros p q [[b n]|] H; [|exact I]. destruct H as (x & y & -> & L). exists x, (y ++ q). rewrite <- !app_assoc. auto. Qed.
Lemma repeat_snoc : forall n (x : Z), repeat x n ++ [x] = repeat x (S n).
Proof. induction n; intros; [reflexivity|]. cbn [repeat app] in *. rewrite IHn. reflexivity. Qed.
Lemma runs_spec : forall ws p cur best, run_end p cur -> run_in p best -> run_in (p ++ ws) (runs (length p) cur best ws).
Proof.
  induction ws as [|w r IH]; intros p cur best C B.
  - cbn [runs]. rewrite app_nil_r. apply longer_in; auto.
  - cbn [runs]. replace (p ++ w :: r) with ((p ++ [w]) ++ r) by (rewrite <- app_assoc; reflexivity).
    replace (1 + length p)%nat with (length (p ++ [w])) by (rewrite app_length; cbn; lia). destruct (Z.eqb_spec w 0) as [->|N].
    + apply IH; [|apply run_in_more; auto]. destruct cur as [[b n]|]; cbn [run_end] in *.
      * destruct C as (x & -> & L). exists x. rewrite <- app_assoc, repeat_snoc. auto.
      * exists p. auto.
    + apply IH; [exact I|]. apply run_in_more, longer_in; auto.
Qed.
Lemma best_run_spec : forall ws b n, best_run ws = Some (b, n) -> (2 <= n)%nat /\ exists x y, ws = x ++ repeat 0 n ++ y /\ length x = b.
Proof.
  intros ws b n E. unfold best_run in E. pose proof (runs_spec ws [] None None I I) as H. cbn [length app] in H.
  destruct (runs 0 None None ws) as [[b' n']|]; [|discriminate]. destruct (Nat.ltb_spec n' 2); [discriminate|]. inversion E; subst. split; auto.
Qed.

(* what the loop writes: without a run, before it, in it and after it *)
Lemma fmt_none : forall ws i, (0 < i)%nat -> fmt6 false None i ws = concat (map (fun w => lit ":" ++ phex 8 w) ws).
Proof.
  induction ws as [|w r IH]; intros i H; [reflexivity|]. cbn [fmt6 inside]. replace (i =? 0)%nat with false by (symmetry; apply Nat.eqb_neq; lia).
  rewrite andb_false_r, IH by lia. cbn [map concat]. rewrite app_assoc. reflexivity.
Qed.
Lemma join_map : forall w ws, join (map (phex 8) (w :: ws)) = phex 8 w ++ concat (map (fun w => lit ":" ++ phex 8 w) ws).
Proof.
  intros w ws. revert w. induction ws as [|x ws IH]; intros w; [cbn [map join concat]; rewrite app_nil_r; reflexivity|].
  change (join (map (phex 8) (w :: x :: ws))) with (phex 8 w ++ lit ":" ++ join (map (phex 8) (x :: ws))). rewrite IH. cbn [map concat]. rewrite <- !app_assoc. reflexivity.
Qed.
Lemma fmt_before : forall v4 x r i b n, (i + length x = b)%nat -> (v4 = false \/ b = 0%nat) -> (0 < i)%nat ->
  fmt6 v4 (Some (b, n)) i (x ++ r) = concat (map (fun w => lit ":" ++ phex 8 w) x) ++ fmt6 v4 (Some (b, n)) b r.
Proof.
  intros v4 x. induction x as [|w x IH]; intros r i b n E V H; cbn [length app map concat] in *; [replace i with b by lia; reflexivity|].
  cbn [fmt6 inside]. replace (b <=? i)%nat with false by (symmetry; apply Nat.leb_gt; lia). cbn [andb]. replace (i =? 0)%nat with false by (symmetry; apply Nat.eqb_neq; lia).
  destruct V as [->|V]; [|lia]. rewrite andb_false_r, IH by (auto; lia). rewrite <- !app_assoc. reflexivity.
Qed.
Lemma fmt_rest_in : forall v4 n r i b m, (b < i)%nat -> (i + n = b + m)%nat -> fmt6 v4 (Some (b, m)) i (repeat 0 n ++ r) = fmt6 v4 (Some (b, m)) (b + m) r.
Proof.
  intros v4. induction n as [|n IH]; intros r i b m B E; cbn [repeat app]; [replace i with (b + m)%nat by lia; reflexivity|].
  cbn [fmt6 inside starts]. replace (b <=? i)%nat with true by (symmetry; apply Nat.leb_le; lia). replace (i <? b + m)%nat with true by (symmetry; apply Nat.ltb_lt; lia).
  replace (i =? b)%nat with false by (symmetry; apply Nat.eqb_neq; lia). cbn [andb app]. apply IH; lia.
Qed.
Lemma fmt_run : forall v4 n r b, (0 < n)%nat -> fmt6 v4 (Some (b, n)) b (repeat 0 n ++ r) = lit ":" ++ fmt6 v4 (Some (b, n)) (b + n) r.
Proof.
  intros v4 n r b H. destruct n as [|n]; [lia|]. cbn [repeat app]. cbn [fmt6 inside starts]. rewrite Nat.leb_refl, Nat.eqb_refl. replace (b <? b + S n)%nat with true by (symmetry; apply Nat.ltb_lt; lia).
  cbn [andb]. f_equal. apply fmt_rest_in; lia.
Qed.
Lemma fmt_after : forall y i b n, (b + n <= i)%nat -> (0 < i)%nat ->
  fmt6 false (Some (b, n)) i y = concat (map (fun w => lit ":" ++ phex 8 w) y) ++ (if (b + n =? 8)%nat then lit ":" else []).
Proof.
  induction y as [|w y IH]; intros i b n H P; [reflexivity|]. cbn [fmt6 inside]. replace (i <? b + n)%nat with false by (symmetry; apply Nat.ltb_ge; lia). rewrite andb_false_r, andb_false_r.
  replace (i =? 0)%nat with false by (symmetry; apply Nat.eqb_neq; lia). rewrite IH by lia. cbn [map concat]. rewrite <- !app_assoc. reflexivity.
Qed.
Lemma fmt_gap : forall x n y, (0 < n)%nat -> length (x ++ repeat 0 n ++ y) = 8%nat ->
  fmt6 false (Some (length x, n)) 0 (x ++ repeat 0 n ++ y) = join (map (phex 8) x) ++ lit "::" ++ join (map (phex 8) y).
Proof.
  intros x n y P L. rewrite !app_length, repeat_length in L. assert (T : fmt6 false (Some (length x, n)) (length x) (repeat 0 n ++ y) = lit "::" ++ join (map (phex 8) y)).
  { rewrite fmt_run by auto. change (lit "::") with (lit ":" ++ lit ":"). rewrite <- app_assoc. f_equal. rewrite fmt_after by lia. destruct y as [|w y].
    - cbn [length] in L. replace (length x + n =? 8)%nat with true by (symmetry; apply Nat.eqb_eq; lia). reflexivity.
    - cbn [length] in L. replace (length x + n =? 8)%nat with false by (symmetry; apply Nat.eqb_neq; lia). rewrite join_map, app_nil_r. cbn [map concat]. rewrite <- app_assoc. reflexivity. }
  destruct x as [|w x]; [cbn [app length map join] in *; exact T|].
  cbn [app]. cbn [fmt6 inside]. replace (length (w :: x) <=? 0)%nat with false by reflexivity. cbn [andb Nat.eqb app].
  rewrite (fmt_before false x) by (auto; cbn [length]; lia). cbn [length] in T |- *. rewrite T, join_map, <- !app_assoc. reflexivity.
Qed.

(* dotted decimal at the end *)
Lemma dec_cases : forall a, 0 <= a <= 255 -> dec 20 a =
  if a <? 10 then [48 + a] else if a <? 100 then [48 + a / 10; 48 + a mod 10] else [48 + a / 100; 48 + a / 10 mod 10; 48 + a mod 10].
Proof.
  intros a A. cbn [dec]. destruct (Z.ltb_spec a 10); auto. destruct (Z.ltb_spec (a / 10) 10), (Z.ltb_spec a 100); try (exfalso; pose proof (Z.div_mod a 10); pose proof (Z.mod_pos_bound a 10); lia); auto.
  replace (a / 10 / 10) with (a / 100) by (rewrite Z.div_div by lia; reflexivity). destruct (Z.ltb_spec (a / 100) 10); [reflexivity|]. exfalso. assert (a / 100 < 10) by (apply Z.div_lt_upper_bound; lia). lia.
Qed.
Lemma is_digit_of : forall d, 0 <= d < 10 -> is_digit (48 + d) = true.
Proof. intros. unfold is_digit. apply andb_true_intro. split; apply Z.leb_le; lia. Qed.
Lemma pton4_dec : forall a acc s, 0 <= a <= 255 -> pton4 acc None (dec 20 a ++ s) = pton4 acc (Some a) s.
Proof.
  intros a acc s A. rewrite dec_cases by auto. pose proof (Z.div_mod a 10). pose proof (Z.mod_pos_bound a 10). pose proof (Z.div_mod (a / 10) 10). pose proof (Z.mod_pos_bound (a / 10) 10).
  assert (D100 : a / 100 = a / 10 / 10) by (rewrite Z.div_div by lia; reflexivity).
  destruct (Z.ltb_spec a 10); [|destruct (Z.ltb_spec a 100)]; cbn [app pton4].
  - rewrite is_digit_of by lia. do 2 f_equal. lia.
  - rewrite !is_digit_of by lia. destruct (Z.eqb_spec (48 + a / 10 - 48) 0); [lia|]. match goal with |- context [255 <? ?e] => replace e with a by lia end.
    destruct (Z.ltb_spec 255 a); [lia|]. reflexivity.
  - rewrite !is_digit_of by lia. destruct (Z.eqb_spec (48 + a / 100 - 48) 0); [lia|]. match goal with |- context [255 <? ?e] => replace e with (a / 10) by lia end.
    destruct (Z.ltb_spec 255 (a / 10)); [lia|]. destruct (Z.eqb_spec (a / 10) 0); [lia|]. match goal with |- context [255 <? ?e] => replace e with a by lia end.
    destruct (Z.ltb_spec 255 a); [lia|]. reflexivity.
Qed.
Lemma dot_step : forall acc v s, length acc <> 3%nat -> pton4 acc (Some v) (lit "." ++ s) = pton4 (acc ++ [v]) None s.
Proof. intros acc v s L. change (lit "." ++ s) with (46 :: s). cbn [pton4]. change (is_digit 46) with false. change (46 =? 46) with true. cbv iota. destruct (Nat.eqb_spec (length acc) 3); [congruence|]. reflexivity. Qed.
Lemma pton4_ntop4 : forall a b c d, 0 <= a <= 255 -> 0 <= b <= 255 -> 0 <= c <= 255 -> 0 <= d <= 255 -> pton4 [] None (ntop4 a b c d) = Some [a; b; c; d].
Proof.
  intros a b c d A B C D. unfold ntop4. rewrite pton4_dec, dot_step by (auto; cbn; lia). cbn [app]. rewrite pton4_dec, dot_step by (auto; cbn; lia). cbn [app].
  rewrite pton4_dec, dot_step by (auto; cbn; lia). cbn [app]. rewrite <- (app_nil_r (dec 20 d)), pton4_dec by auto. reflexivity.
Qed.
Lemma dec_nums16 : forall a, 0 <= a <= 255 -> exists v, nums 16 0 (dec 20 a) v.
Proof.
  intros a A. rewrite dec_cases by auto. pose proof (Z.div_mod a 10). pose proof (Z.mod_pos_bound a 10). pose proof (Z.div_mod (a / 10) 10). pose proof (Z.mod_pos_bound (a / 10) 10).
  assert (D100 : a / 100 = a / 10 / 10) by (rewrite Z.div_div by lia; reflexivity). assert (C : forall d, 0 <= d < 10 -> digit_char (48 + d) d) by (intros; left; lia).
  destruct (Z.ltb_spec a 10); [|destruct (Z.ltb_spec a 100)]; eexists; repeat (eapply m_cons; [apply C; lia|lia|]); constructor.
Qed.
Lemma dec_len3 : forall a, 0 <= a <= 255 -> (1 <= length (dec 20 a) <= 3)%nat.
Proof. intros a A. rewrite dec_cases by auto. destruct (a <? 10); [|destruct (a <? 100)]; cbn; lia. Qed.
Lemma p6_v4 : forall tp n a b c d, 0 <= a <= 255 -> 0 <= b <= 255 -> 0 <= c <= 255 -> 0 <= d <= 255 -> (length tp <= 6)%nat ->
  p6 tp (Some n) O 0 (ntop4 a b c d) (ntop4 a b c d) = fin6 (tp ++ [a * 256 + b; c * 256 + d]) (Some n).
Proof.
  intros tp n a b c d A B C D L. destruct (dec_nums16 a A) as (v & N). pose proof (dec_len3 a A). unfold ntop4 at 2. rewrite (p6_digits _ 0 v N) by lia. cbn [Nat.add].
  match goal with |- p6 _ _ _ _ _ (lit "." ++ ?s) = _ => change (lit "." ++ s) with (46 :: s) end. cbn [p6]. change (dig 16 46) with (@None Z). change (46 =? 58) with false. change (46 =? 46) with true. cbv iota.
  replace (length tp <=? 6)%nat with true by (symmetry; apply Nat.leb_le; lia). cbn [andb]. rewrite pton4_ntop4 by auto. reflexivity.
Qed.

Lemma ntop4_ne : forall a b c d, 0 <= a <= 255 -> ntop4 a b c d <> [].
Proof. intros a b c d A E. pose proof (dec_len3 a A). unfold ntop4 in E. apply app_eq_nil in E. destruct E as [E _]. rewrite E in H. cbn [length] in H. lia. Qed.
Lemma gap0 : forall s, pton6 (lit ":" ++ lit ":" ++ s) = p6 [] (Some 0%nat) O 0 s s.
Proof. reflexivity. Qed.
Lemma words_group : forall x, Forall word16 x -> Forall2 group_text (map (phex 8) x) x.
Proof. induction 1; cbn [map]; constructor; auto. apply hex_group; auto. Qed.
Lemma eight : forall (x : list Z), length x = 8%nat -> exists a b c d e f g h, x = [a;b;c;d;e;f;g;h].
Proof. intros x L. do 9 (destruct x as [|? x]; try discriminate). do 8 eexists. reflexivity. Qed.
(* reading what was written gives the same address, whatever it is *)
Theorem pton6_ntop6 : forall g, length g = 8%nat -> Forall word16 g -> pton6 (ntop6 g) = Some g.
Proof.
  intros g L F. unfold ntop6. destruct (best_run g) as [[b n]|] eqn:E.
  - destruct (best_run_spec g b n E) as (N & x & y & G & LX). destruct (has_v4 (Some (b, n)) g) eqn:V.
    + cbn [has_v4] in V. apply andb_prop in V. destruct V as [B0 V]. apply Nat.eqb_eq in B0. subst b. destruct x; [|discriminate]. clear E.
      destruct (eight g L) as (w0 & w1 & w2 & w3 & w4 & w5 & w6 & w7 & EG). rewrite EG in F, G, V.
      apply orb_prop in V. assert (W : exists p, (p = [] \/ p = [65535]) /\ g = repeat 0 n ++ p ++ [w6; w7] /\ fmt6 true (Some (0%nat, n)) 0 g = lit ":" ++ concat (map (fun w => lit ":" ++ phex 8 w) p) ++ lit ":" ++ ntop4 (w6 / 256) (w6 mod 256) (w7 / 256) (w7 mod 256) /\ (n + length p = 6)%nat).
      { destruct V as [V|V].
        - apply Nat.eqb_eq in V. subst n. cbn [repeat app] in G. inversion G; subst. exists []. cbn [length]. split; [auto|]. split; [reflexivity|]. split; [reflexivity|lia].
        - apply andb_prop in V. destruct V as [V1 V2]. apply Nat.eqb_eq in V1. subst n. cbn [nth] in V2. apply Z.eqb_eq in V2. cbn [repeat app] in G. inversion G; subst. exists [65535]. cbn [length]. split; [auto|].
          split; [reflexivity|]. split; [|lia]. cbn [fmt6 inside starts map concat app]. reflexivity. }
      destruct W as (p & P & EG2 & T & LP). cbn [length]. rewrite T.
      assert (W6 : word16 w6 /\ word16 w7). { do 6 (apply Forall_inv_tail in F). split; [apply Forall_inv in F; auto|apply Forall_inv_tail, Forall_inv in F; auto]. }
      assert (SP : forall w, word16 w -> 0 <= w / 256 <= 255 /\ 0 <= w mod 256 <= 255 /\ w / 256 * 256 + w mod 256 = w).
      { intros w [W1 W2]. pose proof (Z.mod_pos_bound w 256). pose proof (Z.div_mod w 256). split; [split; [apply Z.div_pos; lia|]|lia]. assert (w / 256 < 256) by (apply Z.div_lt_upper_bound; lia). lia. }
      destruct W6 as [W6 W7]. destruct (SP w6 W6) as (A1 & A2 & A3). destruct (SP w7 W7) as (B1 & B2 & B3).
      assert (K : pton6 (lit ":" ++ concat (map (fun w => lit ":" ++ phex 8 w) p) ++ lit ":" ++ ntop4 (w6 / 256) (w6 mod 256) (w7 / 256) (w7 mod 256)) =
                  p6 p (Some 0%nat) O 0 (ntop4 (w6 / 256) (w6 mod 256) (w7 / 256) (w7 mod 256)) (ntop4 (w6 / 256) (w6 mod 256) (w7 / 256) (w7 mod 256))).
      { destruct P as [-> | ->]; cbn [map concat app].
        - apply gap0.
        - rewrite app_nil_r, <- !app_assoc. rewrite gap0.
          assert (LF : group_text (phex 8 65535) 65535) by (apply hex_group; unfold word16; lia).
          assert (NE : ntop4 (w6 / 256) (w6 mod 256) (w7 / 256) (w7 mod 256) <> []).
          { apply ntop4_ne; auto. }
          match goal with |- p6 _ _ _ _ ?k _ = p6 _ _ _ _ ?q _ => pose proof (p6_semis [phex 8 65535] [65535] ltac:(constructor; [exact LF|constructor]) [] (Some 0%nat) k q NE ltac:(cbn; lia)) as PS end.
          cbn [semis] in PS. rewrite app_nil_r in PS. rewrite <- app_assoc in PS. exact PS. }
      rewrite K, p6_v4 by (auto; lia). rewrite A3, B3. change (p ++ [w6; w7]) with ([] ++ (p ++ [w6; w7])). change 0%nat with (length (@nil Z)) at 1. rewrite fin6_gap.
      * cbn [app length]. rewrite EG2. f_equal. f_equal. f_equal. rewrite app_length. cbn [length]. lia.
      * rewrite app_length. cbn [length]. lia.
    + subst b. rewrite G in L |- *. rewrite fmt_gap by (auto; lia). apply pton6_written. right. rewrite !app_length, repeat_length in L.
      rewrite G in F. apply Forall_app in F. destruct F as [FX F]. apply Forall_app in F. destruct F as [_ FY]. exists (map (phex 8) x), x, (map (phex 8) y), y.
      split; [apply words_group; auto|]. split; [apply words_group; auto|]. split; [lia|]. split; [reflexivity|]. do 3 f_equal. lia.
  - cbn [has_v4]. destruct g as [|w g]; [discriminate|]. cbn [fmt6 inside Nat.eqb andb app]. rewrite fmt_none by lia. rewrite <- join_map.
    apply pton6_written. left. exists (map (phex 8) (w :: g)). split; [apply words_group; auto|]. auto.
Qed.

(* ---- IPv4 --------------------------------------------------------------------------------------------- *)

Definition digs (s : list Z) : Prop := s <> [] /\ Forall (fun c => 48 <= c <= 57) s.
(* the end of the text or a dot *)
Definition end_or_dot (r : list Z) : Prop := match r with [] => True | c :: _ => c = 46 end.
Lemma end_no_dig : forall b r, end_or_dot r -> no_dig b r.
Proof. intros b [|c r] H; cbn [end_or_dot no_dig] in *; auto. subst. reflexivity. Qed.
Lemma digit_dig : forall c b, 48 <= c <= 57 -> dig b c = if c - 48 <? b then Some (c - 48) else None.
Proof. intros c b H. unfold dig, digit_val, is_digit. replace ((48 <=? c) && (c <=? 57)) with true by lia. reflexivity. Qed.
Lemma scan_stop : forall b s, Forall (fun c => 48 <= c <= 57) s -> forall a r, end_or_dot r ->
  (exists n, scan_num b a (s ++ r) = (n, r) /\ nums b a s n) \/
  (exists n c t, scan_num b a (s ++ r) = (n, c :: t) /\ 48 <= c <= 57 /\ b <= c - 48 /\ In c s).
Proof.
  induction 1 as [|c s C F IH]; intros a r E; cbn [app].
  - left. exists a. split; [|constructor]. destruct r as [|c r]; [reflexivity|]. cbn [scan_num]. pose proof (end_no_dig b _ E) as N. cbn [no_dig] in N. rewrite N. reflexivity.
  - cbn [scan_num]. rewrite digit_dig by auto. destruct (Z.ltb_spec (c - 48) b) as [L|L].
    + destruct (IH (a * b + (c - 48)) r E) as [(n & S & N)|(n & x & t & S & X & B & I)].
      * left. exists n. split; auto. apply (m_cons b a c (c - 48)); auto. left. lia.
      * right. exists n, x, t. cbn [In]. auto.
    + right. exists a, c, (s ++ r). cbn [In]. split; auto.
Qed.
Lemma nums_in : forall b a s n c, nums b a s n -> In c s -> exists d, digit_char c d /\ d < b.
Proof. induction 1 as [|a c0 d s n D L N IH]; intros I; [contradiction|]. destruct I as [->|I]; eauto. Qed.
(* a group of digits is read as a C constant, or reading stops at an 8 or a 9 *)
Lemma strto_group : forall s r, digs s -> end_or_dot r ->
  (exists m, constant s m /\ strto 0 (s ++ r) = Some (false, m, r)) \/
  ((forall m, ~ constant s m) /\ exists m c t, strto 0 (s ++ r) = Some (false, m, c :: t) /\ 48 <= c <= 57).
Proof.
  intros s r [NE F] E. destruct s as [|c s]; [congruence|]. pose proof (Forall_inv F) as C. cbv beta in C.
  assert (U : strto 0 ((c :: s) ++ r) = match unsigned ((c :: s) ++ r) with Some (m, q) => Some (false, m, q) | None => None end).
  { rewrite strto_unsigned. cbn [app skip_space]. replace (is_space c) with false by (symmetry; unfold is_space; lia). cbn [scan_sign]. destruct (Z.eqb_spec c 45); [lia|]. destruct (Z.eqb_spec c 43); [lia|]. reflexivity. }
  rewrite U. clear U. unfold unsigned. destruct (Z.eq_dec c 48) as [->|N].
  - assert (B : scan_base ((48 :: s) ++ r) = (8, (48 :: s) ++ r)).
    { cbn [app scan_base]. change (48 =? 48) with true. cbv iota. destruct (s ++ r) as [|x [|h t]] eqn:ES; auto. assert (is_x x = false) as ->; [|reflexivity].
      destruct s as [|y s]; cbn [app] in ES. { subst r. cbn [end_or_dot] in E. subst x. reflexivity. } inversion ES; subst. apply Forall_inv_tail, Forall_inv in F. unfold is_x. lia. }
    rewrite B. cbn [app]. rewrite (dig_zero 8) by lia. change (48 :: s ++ r) with ((48 :: s) ++ r). destruct (scan_stop 8 (48 :: s) F 0 r E) as [(n & S & M)|(n & x & t & S & X & B8 & I)].
    + left. exists n. rewrite S. split; auto. inversion M as [|? ? d ? ? D L M2]; subst. assert (d = 0) by (clear - D; unfold digit_char in D; lia). subst d. apply k_oct, nums_numeral. exact M2.
    + right. rewrite S. split; [|exists n, x, t; auto]. intros m K. destruct I as [<-|I]; [lia|].
      inversion K as [? ? ? N NZ|? ? N|y ? ? Y YE N]; subst.
      * congruence.
      * apply nums_numeral in N. destruct (nums_in _ _ _ _ _ N I) as (d & D & L). unfold digit_char in D. lia.
      * apply Forall_inv_tail, Forall_inv in F. lia.
  - assert (B : scan_base ((c :: s) ++ r) = (10, (c :: s) ++ r)) by (cbn [app scan_base]; destruct (Z.eqb_spec c 48); [congruence|reflexivity]).
    rewrite B. cbn [app]. rewrite digit_dig by auto. replace (c - 48 <? 10) with true by lia. change (c :: s ++ r) with ((c :: s) ++ r).
    destruct (scan_stop 10 (c :: s) F 0 r E) as [(n & S & M)|(n & x & t & S & X & B8 & I)]; [|lia]. left. exists n. rewrite S. split; auto. apply k_dec; auto. apply nums_numeral. exact M.
Qed.
(* the meaning of a group for inet_aton *)
Definition part (s : list Z) (m : Z) : Prop := constant s m /\ m <= 255.
Lemma constant_fun : forall s m n, Forall (fun c => 48 <= c <= 57) s -> constant s m -> constant s n -> m = n.
Proof. intros s m n F A B. apply unsigned_spec in A. apply unsigned_spec in B. congruence. Qed.
Lemma aton_group : forall k acc s t, digs s ->
  (exists m, part s m /\ aton (Datatypes.S k) acc (s ++ lit "." ++ t) = aton k (acc ++ [m]) t) \/
  ((forall m, ~ part s m) /\ aton (Datatypes.S k) acc (s ++ lit "." ++ t) = None).
Proof.
  intros k acc s t D. change (lit "." ++ t) with (46 :: t). assert (X : exists c r, s = c :: r /\ is_digit c = true).
  { destruct D as [NE F]. destruct s as [|c s]; [congruence|]. exists c, s. split; auto. apply Forall_inv in F. unfold is_digit. lia. }
  destruct X as (c & r & -> & DC). cbn [app aton]. rewrite DC. change (c :: r ++ 46 :: t) with ((c :: r) ++ 46 :: t).
  destruct (strto_group (c :: r) (46 :: t) D eq_refl) as [(m & K & S)|(NK & m & x & q & S & X)]; rewrite S.
  - destruct (Z.ltb_spec 255 m) as [L|L].
    + right. split. { intros n [K2 LN]. rewrite (constant_fun _ m n (proj2 D) K K2) in L. lia. } destruct (4294967295 <? m); reflexivity.
    + left. exists m. split; [split; auto|]. destruct (Z.ltb_spec 4294967295 m); [lia|]. reflexivity.
  - right. split. { intros n [K2 _]. apply (NK n). auto. } destruct (4294967295 <? m); [reflexivity|].
    assert (x <> 46) by lia. replace (is_space x) with false by (symmetry; unfold is_space; lia). cbn [andb].
    destruct x as [|p|p]; try reflexivity. do 6 (destruct p as [p|p|]; try reflexivity); try lia.
Qed.
Lemma aton_last : forall acc s, digs s ->
  (exists m, part s m /\ aton 0 acc s = Some (acc ++ [m])) \/ ((forall m, ~ part s m) /\ aton 0 acc s = None).
Proof.
  intros acc s D. assert (X : exists c r, s = c :: r /\ is_digit c = true).
  { destruct D as [NE F]. destruct s as [|c s]; [congruence|]. exists c, s. split; auto. apply Forall_inv in F. unfold is_digit. lia. }
  destruct X as (c & r & -> & DC). cbn [aton]. rewrite DC. pose proof (strto_group (c :: r) [] D I) as G. rewrite app_nil_r in G.
  destruct G as [(m & K & S)|(NK & m & x & q & S & X)]; rewrite S.
  - pose proof (constant_nonneg _ _ K) as NN. change (256 ^ (1 + Z.of_nat 0)) with 256. cbn [andb octets Nat.add app]. destruct (Z.ltb_spec m 256).
    + left. exists m. split; [split; [auto|lia]|]. destruct (Z.ltb_spec 4294967295 m); [lia|]. rewrite Z.mod_small by lia. reflexivity.
    + right. split. { intros n [K2 LN]. rewrite (constant_fun _ m n (proj2 D) K K2) in *. lia. } destruct (4294967295 <? m); reflexivity.
  - right. split. { intros n [K2 _]. apply (NK n). auto. } destruct (4294967295 <? m); [reflexivity|].
    replace (is_space x) with false by (symmetry; unfold is_space; lia). cbn [andb].
    destruct x as [|p|p]; try reflexivity. do 6 (destruct p as [p|p|]; try reflexivity).
Qed.
(* inet_addr on four groups of digits: each is a C constant up to 255, or the result is 255.255.255.255 *)
Theorem inet_addr_groups : forall a b c d, digs a -> digs b -> digs c -> digs d -> let s := a ++ lit "." ++ b ++ lit "." ++ c ++ lit "." ++ d in
  (exists n1 n2 n3 n4, part a n1 /\ part b n2 /\ part c n3 /\ part d n4 /\ inet_addr s = [n1; n2; n3; n4]) \/
  (~ (exists n1 n2 n3 n4, part a n1 /\ part b n2 /\ part c n3 /\ part d n4) /\ inet_addr s = [255; 255; 255; 255]).
Proof.
  intros a b c d A B C D s. unfold inet_addr, s.
  destruct (aton_group 2 [] a (b ++ lit "." ++ c ++ lit "." ++ d) A) as [(n1 & P1 & E1)|(N1 & E1)]; [|right; split; [intros (n1 & n2 & n3 & n4 & P & _); apply (N1 n1 P)|rewrite E1; reflexivity]].
  destruct (aton_group 1 ([] ++ [n1]) b (c ++ lit "." ++ d) B) as [(n2 & P2 & E2)|(N2 & E2)]; [|right; split; [intros (? & n2 & n3 & n4 & _ & P & _); apply (N2 n2 P)|rewrite E1, E2; reflexivity]].
  destruct (aton_group 0 (([] ++ [n1]) ++ [n2]) c d C) as [(n3 & P3 & E3)|(N3 & E3)]; [|right; split; [intros (? & ? & n3 & n4 & _ & _ & P & _); apply (N3 n3 P)|rewrite E1, E2, E3; reflexivity]].
  destruct (aton_last ((([] ++ [n1]) ++ [n2]) ++ [n3]) d D) as [(n4 & P4 & E4)|(N4 & E4)]; [|right; split; [intros (? & ? & ? & n4 & _ & _ & _ & P); apply (N4 n4 P)|rewrite E1, E2, E3, E4; reflexivity]].
  left. exists n1, n2, n3, n4. rewrite E1, E2, E3, E4. auto 6.
Qed.
