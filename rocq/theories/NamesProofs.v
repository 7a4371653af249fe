From Verif Require Import Base Names.

Definition digit_str (s : list Z) : Prop := Forall (fun c => is_digit c = true) s.
Fixpoint dec_val (acc : Z) (s : list Z) : Z :=
  match s with [] => acc | c :: r => dec_val (acc * 10 + (c - 48)) r end.

Lemma dec_val_app : forall s t acc, dec_val acc (s ++ t) = dec_val (dec_val acc s) t.
Proof. induction s; intros; cbn; auto. Qed.

Lemma is_digit_of : forall n, 0 <= n < 10 -> is_digit (48 + n) = true.
Proof. intros. unfold is_digit. lia. Qed.

Lemma dec_digits : forall k n, 0 <= n -> digit_str (dec k n).
Proof.
  induction k; intros n H; cbn [dec]. { constructor. }
  destruct (Z.ltb_spec n 10).
  - constructor; [apply is_digit_of; lia|constructor].
  - apply Forall_app. split. { apply IHk. apply Z.div_pos; lia. }
    constructor; [|constructor]. apply is_digit_of. apply Z.mod_pos_bound. lia.
Qed.

Lemma dec_nonempty : forall k n, dec (Datatypes.S k) n <> [].
Proof. intros. cbn [dec]. destruct (n <? 10); [discriminate|]. destruct (dec k (n / 10)); discriminate. Qed.

Lemma dec_value : forall k n, 0 <= n < 10 ^ Z.of_nat k -> dec_val 0 (dec k n) = n.
Proof.
  induction k; intros n H. { cbn in *. lia. }
  cbn [dec]. destruct (Z.ltb_spec n 10). { cbn [dec_val]. lia. }
  rewrite dec_val_app. rewrite IHk. { cbn [dec_val]. Z.div_mod_to_equations; lia. }
  rewrite Nat2Z.inj_succ, Z.pow_succ_r in H by lia. split. { apply Z.div_pos; lia. }
  apply Z.div_lt_upper_bound; lia.
Qed.

Lemma dec_val_zeros : forall n s, dec_val 0 (repeat 48 n ++ s) = dec_val 0 s.
Proof. induction n; intros; cbn; auto. Qed.

Lemma print_pad_digits : forall w n, 0 <= n -> digit_str (print_pad w n).
Proof.
  intros. unfold print_pad. apply Forall_app. split; [|apply dec_digits; auto].
  apply Forall_forall. intros x Hx. apply repeat_spec in Hx. subst. reflexivity.
Qed.

Lemma print_pad_value : forall w n, 0 <= n < 4294967296 -> dec_val 0 (print_pad w n) = n.
Proof. intros. unfold print_pad. rewrite dec_val_zeros. apply dec_value. split; [lia|]. change (10 ^ Z.of_nat 20) with 100000000000000000000. lia. Qed.

Lemma print_pad_nonempty : forall w n, print_pad w n <> [].
Proof. intros w n H. unfold print_pad in H. apply app_eq_nil in H. destruct H as [_ H]. eapply dec_nonempty; eauto. Qed.

Definition no_digit_head (r : list Z) : Prop := match r with [] => True | c :: _ => is_digit c = false end.

Lemma scan_digits_app : forall s acc r, digit_str s -> no_digit_head r ->
  scan_digits acc (s ++ r) = (dec_val acc s, r).
Proof.
  induction s as [|c s IH]; intros acc r D N; cbn.
  - destruct r as [|c r]; cbn in *; auto. rewrite N. auto.
  - inversion D; subst. rewrite H1. apply IH; auto.
Qed.

Lemma digit_not_space : forall c, is_digit c = true -> is_space c = false /\ c =? 45 = false /\ c =? 43 = false.
Proof. intros c H. unfold is_digit, is_space in *. lia. Qed.

Lemma scan_u_digits : forall s r, digit_str s -> s <> [] -> no_digit_head r -> 0 <= dec_val 0 s < 4294967296 ->
  scan_u (s ++ r) = Some (dec_val 0 s, r).
Proof.
  intros s r D NE N V. destruct s as [|c s]; [congruence|]. pose proof D as D2. inversion D2; subst.
  destruct (digit_not_space c H1) as (S1 & S2 & S3).
  unfold scan_u. cbn [app skip_space]. rewrite S1, S2, S3, H1.
  change (c :: s ++ r) with ((c :: s) ++ r). rewrite scan_digits_app by auto.
  destruct (Z.leb_spec 18446744073709551616 (dec_val 0 (c :: s))); [lia|]. rewrite u32_small by lia. reflexivity.
Qed.

Lemma scan_u_print : forall w n r, 0 <= n < 4294967296 -> no_digit_head r ->
  scan_u (print_pad w n ++ r) = Some (n, r).
Proof.
  intros w n r H N. rewrite scan_u_digits; auto.
  - rewrite print_pad_value by auto. auto.
  - apply print_pad_digits. lia.
  - apply print_pad_nonempty.
  - rewrite print_pad_value; auto.
Qed.

Definition stamp_ok (t : stamp) : Prop :=
  0 <= s_year t <= 9999 /\ 0 <= s_mon t <= 99 /\ 0 <= s_day t <= 99 /\
  0 <= s_hour t <= 99 /\ 0 <= s_min t <= 99 /\ 0 <= s_sec t <= 99.

Lemma scan_log_name : forall idx t ext, 0 <= idx < 4294967296 -> stamp_ok t ->
  scan_log (log_name idx t ext) = Some idx.
Proof.
  intros idx t ext I (Y & M & D & H & MI & S). unfold scan_log, log_name.
  rewrite scan_u_print by (auto; reflexivity). cbn [app]. unfold scan_c at 1. rewrite Z.eqb_refl.
  assert (U : forall w n c r, 0 <= n < 4294967296 -> is_digit c = false ->
              scan_uc c (Some (print_pad w n ++ c :: r)) = Some r).
  { intros w n c r Hn Hc. unfold scan_uc. rewrite scan_u_print by (auto; exact Hc). unfold scan_c. rewrite Z.eqb_refl. reflexivity. }
  rewrite !U by (try lia; reflexivity). rewrite scan_u_print by (try lia; reflexivity). reflexivity.
Qed.

Lemma scan_index_name : forall idx t ext, 0 <= idx < 4294967296 -> scan_index (log_name idx t ext) = Some idx.
Proof.
  intros. unfold scan_index, log_name. rewrite scan_u_print by (auto; reflexivity). reflexivity.
Qed.

(* a name that matches the long format also has an index, the same one *)
Lemma scan_log_index : forall n i, scan_log n = Some i -> scan_index n = Some i.
Proof.
  intros n i H. unfold scan_log, scan_index in *. destruct (scan_u n) as [[v r]|]; [|discriminate].
  destruct (scan_uc 45 _); [|discriminate]. destruct (scan_u l); [|discriminate]. inversion H; auto.
Qed.

Lemma scan_u_range : forall s v r, scan_u s = Some (v, r) -> 0 <= v < 4294967296.
Proof.
  intros s v r H. unfold scan_u in H.
  destruct (match skip_space s with [] => _ | _ => _ end) as [neg s'].
  destruct s' as [|c s']; [discriminate|]. destruct (is_digit c); [|discriminate].
  destruct (scan_digits 0 (c :: s')) as [w q]. destruct (18446744073709551616 <=? w); inversion H; subst.
  - lia.
  - apply u32_range.
Qed.

Lemma scan_index_range : forall s v, scan_index s = Some v -> 0 <= v < 4294967296.
Proof. intros s v H. unfold scan_index in H. destruct (scan_u s) as [[w r]|] eqn:E; [|discriminate]. inversion H; subst. eapply scan_u_range; eauto. Qed.

(* the name fits in the 64 byte buffer for the extensions in use *)
Lemma dec_length : forall k n m, 0 <= n < 10 ^ Z.of_nat m -> (0 < m)%nat -> (length (dec k n) <= m)%nat.
Proof.
  induction k; intros n m H M; cbn [dec]. { cbn; lia. }
  destruct (Z.ltb_spec n 10). { cbn; lia. }
  rewrite app_length. cbn [length].
  destruct m as [|m]; [lia|]. destruct m as [|m].
  { change (10 ^ Z.of_nat 1) with 10 in H. lia. }
  specialize (IHk (n / 10) (Datatypes.S m)).
  assert (0 <= n / 10 < 10 ^ Z.of_nat (Datatypes.S m)).
  { rewrite (Nat2Z.inj_succ (Datatypes.S m)), Z.pow_succ_r in H by lia.
    split. { apply Z.div_pos; lia. } apply Z.div_lt_upper_bound; lia. }
  specialize (IHk H1). lia.
Qed.

Lemma print_pad_length : forall w n m, 0 <= n < 10 ^ Z.of_nat m -> (0 < m)%nat ->
  (length (print_pad w n) <= max w m)%nat.
Proof.
  intros. unfold print_pad. rewrite app_length, repeat_length.
  pose proof (dec_length 20 n m H H0). lia.
Qed.

Lemma log_name_length : forall idx t ext, 0 <= idx < 4294967296 -> stamp_ok t ->
  (length (log_name idx t ext) <= 31 + length ext)%nat.
Proof.
  intros idx t ext I (Y & M & D & H & MI & S). unfold log_name.
  repeat rewrite app_length. cbn [length].
  pose proof (print_pad_length 5 idx 10). change (10 ^ Z.of_nat 10) with 10000000000 in *.
  pose proof (print_pad_length 0 (s_year t) 4). change (10 ^ Z.of_nat 4) with 10000 in *.
  pose proof (print_pad_length 2 (s_mon t) 2). pose proof (print_pad_length 2 (s_day t) 2).
  pose proof (print_pad_length 2 (s_hour t) 2). pose proof (print_pad_length 2 (s_min t) 2).
  pose proof (print_pad_length 2 (s_sec t) 2). change (10 ^ Z.of_nat 2) with 100 in *.
  lia.
Qed.
