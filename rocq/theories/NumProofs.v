(* Number conversion against the specification. *)
From Verif Require Import Base Names NamesProofs Num SpecNum.

Lemma digit_val_char : forall c d, digit_val c = Some d <-> digit_char c d.
Proof.
  intros c d. unfold digit_val, digit_char, is_digit.
  destruct ((48 <=? c) && (c <=? 57)) eqn:A; [|destruct ((97 <=? c) && (c <=? 122)) eqn:B; [|destruct ((65 <=? c) && (c <=? 90)) eqn:C]];
    split; intros H; try (inversion H; subst); try lia; try (f_equal; lia); discriminate.
Qed.
Lemma dig_char : forall b c d, dig b c = Some d <-> digit_char c d /\ d < b.
Proof.
  intros b c d. unfold dig. destruct (digit_val c) as [e|] eqn:E.
  - apply digit_val_char in E. destruct (Z.ltb_spec e b); split.
    + intros H0; inversion H0; subst; auto.
    + intros [X _]. f_equal. unfold digit_char in *. lia.
    + discriminate.
    + intros [X Y]. unfold digit_char in *. lia.
  - split; [discriminate|]. intros [X _]. apply digit_val_char in X. congruence.
Qed.

(* numerals from the left *)
Inductive nums (b : Z) : Z -> list Z -> Z -> Prop :=
| m_nil : forall a, nums b a [] a
| m_cons : forall a c d s n, digit_char c d -> d < b -> nums b (a * b + d) s n -> nums b a (c :: s) n.
Lemma nums_snoc : forall b s a n c d, nums b a s n -> digit_char c d -> d < b -> nums b a (s ++ [c]) (n * b + d).
Proof.
  intros b s a n c d H D L. induction H; cbn [app].
  - econstructor; eauto. constructor.
  - econstructor; eauto.
Qed.
Lemma nums_numeral : forall b s n, numeral b s n <-> nums b 0 s n.
Proof.
  intros b s n. split.
  - induction 1; [constructor|]. apply nums_snoc; auto.
  - revert n. induction s as [|c s IH] using rev_ind; intros n H.
    + inversion H; subst. constructor.
    + assert (K : forall a s n c, nums b a (s ++ [c]) n -> exists m d, nums b a s m /\ digit_char c d /\ d < b /\ n = m * b + d).
      { clear. intros a s. revert a. induction s as [|x s IH]; intros a n c H; cbn [app] in H.
        - inversion H as [|? ? d ? ? D L M]; subst. inversion M; subst. exists a, d. repeat split; auto. constructor.
        - inversion H as [|? ? d ? ? D L M]; subst. destruct (IH _ _ _ M) as (m & e & N & E & L2 & ->).
          exists m, e. repeat split; auto. econstructor; eauto. }
      apply K in H. destruct H as (m & d & N & D & L & ->). constructor; auto.
Qed.

Definition no_dig (b : Z) (r : list Z) : Prop := match r with [] => True | c :: _ => dig b c = None end.
Lemma scan_num_spec : forall b s a v r, scan_num b a s = (v, r) <-> exists ds, s = ds ++ r /\ nums b a ds v /\ no_dig b r.
Proof.
  intros b s. induction s as [|c s IH]; intros a v r; cbn [scan_num].
  - split.
    + intros H. inversion H; subst. exists []. repeat split. constructor.
    + intros (ds & E & N & _). symmetry in E. apply app_eq_nil in E. destruct E; subst. inversion N; subst. reflexivity.
  - destruct (dig b c) as [d|] eqn:D.
    + rewrite IH. split.
      * intros (ds & -> & N & R). exists (c :: ds). apply dig_char in D. repeat split; auto. econstructor; try apply D; auto.
      * intros (ds & E & N & R). destruct ds as [|x ds]; cbn [app] in E.
        -- subst r. cbn in R. congruence.
        -- inversion E; subst. inversion N as [|? ? e ? ? X L M]; subst. exists ds. repeat split; auto.
           assert (d = e) by (assert (dig b x = Some e) by (apply dig_char; auto); congruence). subst; auto.
    + split.
      * intros H. inversion H; subst. exists []. repeat split; auto. constructor.
      * intros (ds & E & N & R). destruct ds as [|x ds]; cbn [app] in E.
        -- subst r. inversion N; subst. reflexivity.
        -- inversion E; subst. inversion N as [|? ? e ? ? X L M]; subst. assert (dig b x = Some e) by (apply dig_char; auto). congruence.
Qed.

Lemma space_blank : forall c, is_space c = true <-> blank c.
Proof. intros. unfold is_space, blank. lia. Qed.
Lemma skip_spec : forall s, exists sp, s = sp ++ skip_space s /\ Forall blank sp /\ match skip_space s with [] => True | c :: _ => is_space c = false end.
Proof.
  induction s as [|c s (sp & E & F & H)]; cbn [skip_space].
  - exists []. repeat split; auto.
  - destruct (is_space c) eqn:S.
    + exists (c :: sp). cbn [app]. rewrite <- E. repeat split; auto. constructor; auto. apply space_blank; auto.
    + exists []. repeat split; auto.
Qed.
Lemma skip_app : forall sp s, Forall blank sp -> match s with [] => True | c :: _ => is_space c = false end -> skip_space (sp ++ s) = s.
Proof.
  induction sp as [|c sp IH]; intros s F H; cbn [app].
  - destruct s; cbn [skip_space]; auto. rewrite H. reflexivity.
  - inversion F; subst. cbn [skip_space]. apply space_blank in H2. rewrite H2. auto.
Qed.

Lemma no_dig_le : forall b c d, digit_char c d -> b <= d -> dig b c = None.
Proof.
  intros. destruct (dig b c) as [e|] eqn:E; auto. apply dig_char in E. destruct E as [E L]. unfold digit_char in *. lia.
Qed.

(* the unsigned part *)
Definition unsigned (s : list Z) : option (Z * list Z) :=
  let (b, s) := scan_base s in
  match s with
  | c :: _ => match dig b c with Some _ => Some (scan_num b 0 s) | None => None end
  | [] => None
  end.
Lemma nums_head : forall b a c s n, nums b a (c :: s) n -> exists d, dig b c = Some d.
Proof. intros b a c s n H. inversion H as [|? ? d ? ? D L M]; subst. exists d. apply dig_char; auto. Qed.
Lemma dig_zero : forall b, 0 < b -> dig b 48 = Some 0.
Proof. intros. apply dig_char. split; auto. left. lia. Qed.
Lemma some_inj : forall A (a b : A), Some a = Some b -> a = b.
Proof. congruence. Qed.
Lemma unsigned_spec : forall s m, unsigned s = Some (m, []) <-> constant s m.
Proof.
  intros s m. unfold unsigned. split.
  - destruct s as [|z s]; cbn [scan_base]; [discriminate|].
    destruct (Z.eqb_spec z 48) as [->|NZ].
    + assert (O : (match dig 8 48 with Some _ => Some (scan_num 8 0 (48 :: s)) | None => None end) = Some (m, []) -> constant (48 :: s) m).
      { rewrite (dig_zero 8) by lia. intros H. apply some_inj in H. apply scan_num_spec in H. destruct H as (ds & E & N & _). rewrite app_nil_r in E. subst ds.
        inversion N as [|? ? d ? ? D L M]; subst. assert (d = 0) by (clear - D; unfold digit_char in D; lia). subst d.
        apply k_oct. apply nums_numeral. exact M. }
      destruct s as [|x [|h t]]; try exact O. destruct (is_x x && match dig 16 h with Some _ => true | None => false end) eqn:X; [|exact O].
      apply andb_prop in X. destruct X as [X1 X2]. destruct (dig 16 h); [|discriminate]. intros H. apply some_inj in H.
      apply scan_num_spec in H. destruct H as (ds & E & N & _). rewrite app_nil_r in E. subst ds.
      apply k_hex; [unfold is_x in X1; lia|discriminate|apply nums_numeral; auto].
    + destruct (dig 10 z) eqn:D; [|discriminate]. intros H. apply some_inj in H. apply scan_num_spec in H.
      destruct H as (ds & E & N & _). rewrite app_nil_r in E. subst ds. apply k_dec; auto. apply nums_numeral; auto.
  - intros K. destruct K as [c s n N NZ|s n N|x s n X NE N]; apply nums_numeral in N.
    + cbn [scan_base]. destruct (Z.eqb_spec c 48); [contradiction|]. destruct (nums_head _ _ _ _ _ N) as [d ->].
      f_equal. apply scan_num_spec. exists (c :: s). rewrite app_nil_r. repeat split; auto.
    + assert (B : scan_base (48 :: s) = (8, 48 :: s)).
      { cbn [scan_base]. change (48 =? 48) with true. cbv iota. destruct s as [|x [|h t]]; auto.
        destruct (nums_head _ _ _ _ _ N) as [d D]. apply dig_char in D. destruct D as [D L].
        unfold is_x. destruct ((x =? 120) || (x =? 88)) eqn:X; auto. unfold digit_char in D. lia. }
      rewrite B. rewrite (dig_zero 8) by lia. f_equal. apply scan_num_spec. exists (48 :: s). rewrite app_nil_r. repeat split; auto.
      apply (m_cons 8 0 48 0); [left; lia|lia|exact N].
    + destruct s as [|h t]; [congruence|]. destruct (nums_head _ _ _ _ _ N) as [d D].
      assert (B : scan_base (48 :: x :: h :: t) = (16, h :: t)).
      { cbn [scan_base]. change (48 =? 48) with true. cbv iota. rewrite D. unfold is_x. destruct X; subst; reflexivity. }
      rewrite B, D. f_equal. apply scan_num_spec. exists (h :: t). rewrite app_nil_r. repeat split; auto.
Qed.

Lemma strto_unsigned : forall s, strto 0 s = let (neg, t) := scan_sign (skip_space s) in
  match unsigned t with Some (m, r) => Some (neg, m, r) | None => None end.
Proof.
  intros s. unfold strto, unsigned. destruct (scan_sign (skip_space s)) as [neg t]. change (0 =? 0) with true. cbv iota.
  destruct (scan_base t) as [b [|c u]]; auto. destruct (dig b c); auto.
Qed.

Lemma constant_head : forall s m, constant s m -> exists c r, s = c :: r /\ 48 <= c <= 57.
Proof.
  intros s m K. destruct K as [c s n N NZ|s n N|x s n X NE N]; [|exists 48, s; split; auto; lia|exists 48, (x :: s); split; auto; lia].
  exists c, s. split; auto. apply nums_numeral in N. inversion N as [|? ? d ? ? D L M]; subst. unfold digit_char in D. lia.
Qed.
Lemma nums_nonneg : forall b a s n, 0 < b -> nums b a s n -> 0 <= a -> 0 <= n.
Proof. intros b a s n B H. induction H; auto. intros. apply IHnums. unfold digit_char in H. assert (0 <= a * b) by (apply Z.mul_nonneg_nonneg; lia). lia. Qed.
Lemma constant_nonneg : forall s m, constant s m -> 0 <= m.
Proof. intros s m K. destruct K as [c s n N NZ|s n N|x s n X NE N]; apply nums_numeral in N; eapply nums_nonneg; try exact N; lia. Qed.

Lemma strto_integer : forall s x, (exists neg m, strto 0 s = Some (neg, m, []) /\ x = if neg : bool then - m else m) <-> integer s x.
Proof.
  intros s x. split.
  - intros (neg & m & H & ->). rewrite strto_unsigned in H. destruct (skip_spec s) as (sp & E & F & HD). rewrite E.
    destruct (skip_space s) as [|c r]; cbn [scan_sign] in H; [discriminate|].
    destruct (Z.eqb_spec c 45) as [->|N1]; [|destruct (Z.eqb_spec c 43) as [->|N2]];
      (match type of H with context [unsigned ?t] => destruct (unsigned t) as [[m' r']|] eqn:U end; [|discriminate]);
      inversion H; subst; apply unsigned_spec in U; first [apply i_minus; auto; fail | apply i_plus; auto; fail | apply i_none; auto].
  - intros H. assert (SP : forall c, 48 <= c <= 57 -> is_space c = false) by (intros; unfold is_space; lia).
    destruct H as [sp s n F K|sp s n F K|sp s n F K]; destruct (constant_head _ _ K) as (c & r & E & R); apply unsigned_spec in K.
    + exists false, n. split; auto. rewrite strto_unsigned, skip_app; [|auto|subst s; cbn; auto]. subst s. cbn [scan_sign].
      destruct (Z.eqb_spec c 45); [lia|]. destruct (Z.eqb_spec c 43); [lia|]. rewrite K. reflexivity.
    + exists false, n. split; auto. rewrite strto_unsigned, skip_app; [|auto|reflexivity]. cbn [scan_sign].
      change (43 =? 45) with false. change (43 =? 43) with true. cbv iota. rewrite K. reflexivity.
    + exists true, n. split; auto. rewrite strto_unsigned, skip_app; [|auto|reflexivity]. cbn [scan_sign].
      change (45 =? 45) with true. cbv iota. rewrite K. reflexivity.
Qed.
Lemma strto_nonneg : forall b s neg m r, 0 <= b -> strto b s = Some (neg, m, r) -> 0 <= m.
Proof.
  intros b s neg m r B. unfold strto. destruct (scan_sign (skip_space s)) as [sg t].
  assert (P : forall c u, scan_base t = (c, u) -> 0 < c).
  { intros c u. unfold scan_base. destruct t as [|z [|x [|h t]]]; repeat match goal with |- context [if ?q then _ else _] => destruct q end; intros H; inversion H; lia. }
  destruct (if b =? 0 then scan_base t else (b, t)) as [c u] eqn:E.
  assert (0 < c). { destruct (Z.eqb_spec b 0); [eapply (P c u); auto|inversion E; subst; lia]. }
  destruct u as [|x u]; [discriminate|]. destruct (dig c x); [|discriminate]. destruct (scan_num c 0 (x :: u)) as [v w] eqn:S.
  intros H0; inversion H0; subst. apply scan_num_spec in S. destruct S as (ds & _ & N & _). eapply nums_nonneg; eauto. lia.
Qed.

(* ---- decimal notation ---- *)
Lemma decimal_spec : forall s n, decimal s n ->
  numeral 10 s n /\ 0 <= n /\ exists c r, s = c :: r /\ 48 <= c <= 57 /\ (c = 48 -> r = [] /\ n = 0) /\ Forall (fun c => 48 <= c <= 57) s.
Proof.
  induction 1 as [n R|s n d D (N & P & c & r & E & C & Z0 & F) L R].
  - repeat split; [|lia|].
    + replace n with (0 * 10 + n) at 2 by lia. apply (n_snoc 10 [] 0 (48 + n) n); [constructor|left; lia|lia].
    + exists (48 + n), []. repeat split; try lia. constructor; [lia|constructor].
  - repeat split; [|lia|].
    + replace (10 * n + d) with (n * 10 + d) by lia. constructor; auto; [left; lia|lia].
    + exists c, (r ++ [48 + d]). subst s. repeat split; auto; try lia.
      apply Forall_app. split; auto. constructor; [lia|constructor].
Qed.
Lemma decimal_constant : forall s n, decimal s n -> constant s n.
Proof.
  intros s n D. destruct (decimal_spec s n D) as (N & P & c & r & E & C & Z0 & F). subst s.
  destruct (Z.eq_dec c 48) as [->|NE].
  - destruct (Z0 eq_refl) as [-> ->]. apply k_oct. constructor.
  - apply k_dec; auto.
Qed.
Lemma decimal_integer : forall s n, decimal s n -> integer s n.
Proof. intros. change s with ([] ++ s). apply i_none; [constructor|]. apply decimal_constant; auto. Qed.

(* every number has a decimal notation *)
Lemma decimal_ex : forall n, 0 <= n -> exists s, decimal s n.
Proof.
  intros n H. pattern n. apply Zlt_0_ind; [|exact H]. clear n H. intros n IH P. destruct (Z_lt_dec n 10).
  - exists [48 + n]. constructor. lia.
  - destruct (IH (n / 10)) as [s D].
    { split; [apply Z.div_pos; lia|apply Z.div_lt; lia]. }
    exists (s ++ [48 + n mod 10]). rewrite (Z.div_mod n 10) at 2 by lia. constructor; auto.
    + apply Z.div_str_pos. lia.
    + apply Z.mod_pos_bound. lia.
Qed.

(* base 10 with anything behind *)
Lemma strto10_decimal : forall sp s n r, Forall blank sp -> decimal s n -> no_dig 10 r -> strto 10 (sp ++ s ++ r) = Some (false, n, r).
Proof.
  intros sp s n r F D R. destruct (decimal_spec s n D) as (N & P & c & t & E & C & _ & _).
  unfold strto. rewrite skip_app; auto; [|subst s; cbn; unfold is_space; lia].
  assert (SG : scan_sign (s ++ r) = (false, s ++ r)).
  { subst s. cbn [app scan_sign]. destruct (Z.eqb_spec c 45); [lia|]. destruct (Z.eqb_spec c 43); [lia|]. reflexivity. }
  rewrite SG. change (10 =? 0) with false. cbv iota. apply nums_numeral in N. subst s. cbn [app].
  destruct (nums_head _ _ _ _ _ N) as [d ->].
  assert (S : scan_num 10 0 ((c :: t) ++ r) = (n, r)) by (apply scan_num_spec; exists (c :: t); repeat split; auto).
  cbn [app] in S. rewrite S. reflexivity.
Qed.
