(* Checksum: the library's byte-wise routine equals the bit-serial register, and
   the register detects every error burst of at most 16 bits. *)
From Verif Require Import Base Mav SpecCrc.

Lemma shiftr_lxor_1 : forall a b, Z.shiftr (Z.lxor a b) 1 = Z.lxor (Z.shiftr a 1) (Z.shiftr b 1).
Proof. intros. apply Z.shiftr_lxor. Qed.

(* crc_bit is linear. *)
Lemma crc_bit_lxor : forall s t b c,
  crc_bit (Z.lxor s t) (xorb b c) = Z.lxor (crc_bit s b) (crc_bit t c).
Proof.
  intros. unfold crc_bit. rewrite Z.shiftr_lxor, Z.lxor_spec.
  set (a := Z.shiftr s 1). set (d := Z.shiftr t 1).
  destruct (Z.testbit s 0), (Z.testbit t 0), b, c; simpl xorb; cbv iota;
  rewrite ?Z.lxor_0_r; try reflexivity;
  apply Z.bits_inj; intro i; rewrite !Z.lxor_spec;
  destruct (Z.testbit a i), (Z.testbit d i), (Z.testbit 33800 i); reflexivity.
Qed.

Lemma xorb_false_eq : forall a b, xorb a b = false -> a = b.
Proof. intros [] []; simpl; intros; congruence. Qed.

Definition run (s : Z) (l : list bool) : Z := fold_left crc_bit l s.

Lemma run_app : forall l1 l2 s, run s (l1 ++ l2) = run (run s l1) l2.
Proof. intros. unfold run. apply fold_left_app. Qed.

Fixpoint xorl (l1 l2 : list bool) : list bool :=
  match l1, l2 with
  | a :: t1, b :: t2 => xorb a b :: xorl t1 t2
  | _, _ => []
  end.

Lemma run_lxor : forall l1 l2 s t, length l1 = length l2 ->
  run (Z.lxor s t) (xorl l1 l2) = Z.lxor (run s l1) (run t l2).
Proof.
  induction l1; destruct l2; simpl; intros; try discriminate; auto.
  unfold run in *. simpl. rewrite crc_bit_lxor. apply IHl1. lia.
Qed.

Lemma lxor_range16 : forall a b, 0 <= a < 65536 -> 0 <= b < 65536 -> 0 <= Z.lxor a b < 65536.
Proof.
  intros a b Ha Hb. split. { apply Z.lxor_nonneg; lia. }
  destruct (Z.eq_dec (Z.lxor a b) 0) as [E|E]; [lia|].
  assert (0 <= Z.lxor a b) by (apply Z.lxor_nonneg; lia).
  apply Z.log2_lt_pow2 with (b := 16); try lia.
  eapply Z.le_lt_trans. { apply Z.log2_lxor; lia. }
  apply Z.max_lub_lt.
  - destruct (Z.eq_dec a 0). { subst; simpl; lia. } apply Z.log2_lt_pow2; lia.
  - destruct (Z.eq_dec b 0). { subst; simpl; lia. } apply Z.log2_lt_pow2; lia.
Qed.

Lemma crc_bit_range : forall s b, 0 <= s < 65536 -> 0 <= crc_bit s b < 65536.
Proof.
  intros. unfold crc_bit. apply lxor_range16.
  - rewrite Z.shiftr_div_pow2 by lia. change (2^1) with 2.
    split; [apply Z.div_pos; lia | apply Z.div_lt_upper_bound; lia].
  - destruct (xorb _ _); lia.
Qed.

Lemma run_range : forall l s, 0 <= s < 65536 -> 0 <= run s l < 65536.
Proof.
  induction l; simpl; intros; auto. apply IHl. apply crc_bit_range; auto.
Qed.

(* Exhaustive statements over bytes are checked by computation. *)
Definition all_bytes : list Z := map Z.of_nat (seq 0 256).

Lemma all_bytes_in : forall b, is_byte b -> In b all_bytes.
Proof.
  intros b Hb. unfold all_bytes, is_byte in *. apply in_map_iff. exists (Z.to_nat b).
  split; [lia|]. apply in_seq. lia.
Qed.

Lemma forall_bytes : forall (P : Z -> bool),
  forallb P all_bytes = true -> forall b, is_byte b -> P b = true.
Proof. intros. rewrite forallb_forall in H. apply H. apply all_bytes_in; auto. Qed.

Lemma lxor_range8 : forall a b, is_byte a -> is_byte b -> is_byte (Z.lxor a b).
Proof.
  unfold is_byte. intros a b Ha Hb. split. { apply Z.lxor_nonneg; lia. }
  destruct (Z.eq_dec (Z.lxor a b) 0) as [E|E]; [lia|].
  assert (0 <= Z.lxor a b) by (apply Z.lxor_nonneg; lia).
  apply Z.log2_lt_pow2 with (b := 8); try lia.
  eapply Z.le_lt_trans. { apply Z.log2_lxor; lia. }
  apply Z.max_lub_lt.
  - destruct (Z.eq_dec a 0). { subst; simpl; lia. } apply Z.log2_lt_pow2; lia.
  - destruct (Z.eq_dec b 0). { subst; simpl; lia. } apply Z.log2_lt_pow2; lia.
Qed.

(* byte part: register holding only a byte, no input *)
Lemma tbl_step : forall x, is_byte x -> crc_accumulate x 0 = run x (repeat false 8).
Proof.
  intros x Hx. apply Z.eqb_eq. revert x Hx. apply forall_bytes. vm_compute. reflexivity.
Qed.

Lemma crc_accumulate_split : forall d c, is_byte d -> 0 <= c < 65536 ->
  crc_accumulate d c = Z.lxor (Z.shiftr c 8) (crc_accumulate (Z.lxor d (Z.land c 255)) 0).
Proof.
  intros d c Hd Hc. unfold crc_accumulate. rewrite Z.land_0_l, Z.lxor_0_r.
  set (x := Z.lxor d (Z.land c 255)).
  set (t := Z.land (Z.lxor x (Z.shiftl x 4)) 255).
  rewrite Z.shiftr_0_l, Z.lxor_0_l.
  rewrite !(Z.land_comm _ 65535).
  replace (Z.shiftr c 8) with (Z.land 65535 (Z.shiftr c 8)) at 2.
  2:{ rewrite Z.land_comm. change 65535 with (Z.ones 16). rewrite Z.land_ones by lia.
      apply Z.mod_small. rewrite Z.shiftr_div_pow2 by lia.
      split; [apply Z.div_pos; lia | apply Z.div_lt_upper_bound; lia]. }
  apply Z.bits_inj. intro i. repeat (rewrite ?Z.land_spec, ?Z.lxor_spec).
  destruct (Z.testbit 65535 i), (Z.testbit (Z.shiftr c 8) i), (Z.testbit (Z.shiftl t 8) i),
    (Z.testbit (Z.shiftl t 3) i), (Z.testbit (Z.shiftr t 4) i); reflexivity.
Qed.

Lemma run8_false_high : forall h, is_byte h -> run (Z.shiftl h 8) (repeat false 8) = h.
Proof.
  intros x Hx. apply Z.eqb_eq. revert x Hx. apply forall_bytes. vm_compute. reflexivity.
Qed.

Lemma byte_bits_xor_run : forall x, is_byte x -> run 0 (byte_bits x) = run x (repeat false 8).
Proof.
  intros x Hx. apply Z.eqb_eq. revert x Hx. apply forall_bytes. vm_compute. reflexivity.
Qed.

Lemma xorl_false_l : forall l, xorl (repeat false (length l)) l = l.
Proof. induction l; simpl; auto. rewrite IHl. destruct a; reflexivity. Qed.
Lemma xorl_false_r : forall l, xorl l (repeat false (length l)) = l.
Proof. induction l; simpl; auto. rewrite IHl. destruct a; reflexivity. Qed.

Lemma byte_bits_length : forall b, length (byte_bits b) = 8%nat.
Proof. reflexivity. Qed.

Lemma lxor_assoc3 : forall a b c, Z.lxor (Z.lxor a b) c = Z.lxor a (Z.lxor b c).
Proof. intros. apply Z.lxor_assoc. Qed.

(* One byte: the library routine is eight steps of the register. *)
Lemma crc_accumulate_bits : forall d c, is_byte d -> 0 <= c < 65536 ->
  crc_accumulate d c = run c (byte_bits d).
Proof.
  intros d c Hd Hc.
  assert (Hl : is_byte (Z.land c 255)).
  { unfold is_byte. change 255 with (Z.ones 8). rewrite Z.land_ones by lia.
    apply Z.mod_pos_bound; lia. }
  assert (Hh : is_byte (Z.shiftr c 8)).
  { unfold is_byte. rewrite Z.shiftr_div_pow2 by lia. change (2^8) with 256.
    split; [apply Z.div_pos; lia | apply Z.div_lt_upper_bound; lia]. }
  rewrite crc_accumulate_split by auto.
  rewrite tbl_step by (apply lxor_range8; auto).
  assert (E : c = Z.lxor (Z.shiftl (Z.shiftr c 8) 8) (Z.land c 255)).
  { rewrite <- Z.ldiff_ones_r by lia. change (Z.ones 8) with 255.
    apply Z.bits_inj. intro i. rewrite Z.lxor_spec, Z.ldiff_spec, Z.land_spec.
    destruct (Z.testbit c i), (Z.testbit 255 i); reflexivity. }
  rewrite E at 3.
  rewrite <- (xorl_false_l (byte_bits d)). rewrite byte_bits_length.
  rewrite run_lxor by reflexivity.
  rewrite run8_false_high by auto. f_equal.
  rewrite <- (Z.lxor_0_r (Z.land c 255)) at 2.
  rewrite <- (xorl_false_l (byte_bits d)). rewrite byte_bits_length.
  rewrite run_lxor by reflexivity.
  rewrite byte_bits_xor_run by auto.
  rewrite <- run_lxor by reflexivity. rewrite Z.lxor_comm. reflexivity.
Qed.

Lemma crc_accumulate_range : forall d c, is_byte d -> 0 <= c < 65536 ->
  0 <= crc_accumulate d c < 65536.
Proof. intros. rewrite crc_accumulate_bits by auto. apply run_range; auto. Qed.

Lemma crc_run_bits : forall l c, bytes l -> 0 <= c < 65536 -> crc_run c l = run c (bits l).
Proof.
  induction l; intros; auto. inversion H; subst.
  cbn [crc_run]. change (bits (a :: l)) with (byte_bits a ++ bits l).
  rewrite run_app. rewrite <- crc_accumulate_bits by auto.
  apply IHl; auto. apply crc_accumulate_range; auto.
Qed.

Lemma crc_calculate_spec : forall l, bytes l -> crc_calculate l = crc_spec l.
Proof. intros. unfold crc_calculate, crc_spec. rewrite crc_run_bits; auto; lia. Qed.

(* --- error detection ---------------------------------------------------- *)

(* Shifting with equal input preserves difference. *)
Lemma crc_bit_inj : forall s t b, 0 <= s < 65536 -> 0 <= t < 65536 ->
  crc_bit s b = crc_bit t b -> s = t.
Proof.
  intros s t b Hs Ht E.
  assert (Z0 : crc_bit (Z.lxor s t) false = 0).
  { rewrite <- (xorb_nilpotent b) at 1. rewrite crc_bit_lxor, E. apply Z.lxor_nilpotent. }
  apply Z.lxor_eq. 
  assert (R : 0 <= Z.lxor s t < 65536) by (apply lxor_range16; auto).
  set (x := Z.lxor s t) in *. clearbody x. unfold crc_bit in Z0. rewrite xorb_false_r in Z0.
  assert (Hh : 0 <= Z.shiftr x 1 < 32768).
  { rewrite Z.shiftr_div_pow2 by lia. change (2^1) with 2.
    split; [apply Z.div_pos; lia | apply Z.div_lt_upper_bound; lia]. }
  assert (D : x = 2 * Z.shiftr x 1 + Z.b2z (Z.testbit x 0)).
  { rewrite <- Z.div2_spec. rewrite Z.bit0_odd. apply Z.div2_odd. }
  destruct (Z.testbit x 0); cbn [Z.b2z] in D.
  - apply Z.lxor_eq in Z0. lia.
  - rewrite Z.lxor_0_r in Z0. lia.
Qed.

Lemma run_inj : forall l s t, 0 <= s < 65536 -> 0 <= t < 65536 -> run s l = run t l -> s = t.
Proof.
  induction l; simpl; intros; auto. unfold run in *. simpl in *.
  apply crc_bit_inj with (b := a); auto. apply IHl; auto; apply crc_bit_range; auto.
Qed.

Fixpoint bval (l : list bool) : Z :=
  match l with
  | [] => 0
  | b :: t => 2 * bval t + Z.b2z b
  end.

(* From the zero register, at most 16 input bits leave the register zero only
   when all of them are zero. *)
Lemma run0_no_collapse : forall l, (length l <= 16)%nat -> run 0 l = 0 -> l = repeat false (length l).
Proof.
  (* run backwards: the register after n bits determines the bits *)
  assert (G : forall l s, (length l <= 16)%nat -> 0 <= s < 65536 ->
     run s l = 0 -> (* then s is determined by l; s = 0 needs l all zero *)
     s mod 2 ^ (Z.of_nat (length l)) =
       bval l mod 2 ^ (Z.of_nat (length l))
     /\ s < 2 ^ (Z.of_nat (length l))).
  { induction l as [|b l IH]; intros s HL Hs E.
    - unfold run in E. simpl in E. subst. simpl. split; [reflexivity|lia].
    - unfold run in E. simpl in E. fold (run (crc_bit s b) l) in E.
      assert (HL' : (length l <= 15)%nat) by (simpl in HL; lia).
      destruct (IH (crc_bit s b)) as [IHa IHb]; [lia| apply crc_bit_range; auto | exact E |].
      clear IH.
      set (n := length l) in *.
      assert (P15 : 2 ^ Z.of_nat n <= 32768).
      { change 32768 with (2^15). apply Z.pow_le_mono_r; lia. }
      unfold crc_bit in IHa, IHb.
      assert (Hh : 0 <= Z.shiftr s 1 < 32768).
      { rewrite Z.shiftr_div_pow2 by lia. change (2^1) with 2.
        split; [apply Z.div_pos; lia | apply Z.div_lt_upper_bound; lia]. }
      assert (D : s = 2 * Z.shiftr s 1 + Z.b2z (Z.testbit s 0)).
      { rewrite <- Z.div2_spec. rewrite Z.bit0_odd. apply Z.div2_odd. }
      destruct (xorb (Z.testbit s 0) b) eqn:X.
      + (* feedback sets bit 15: too large *)
        exfalso. 
        assert (B15 : Z.testbit (Z.lxor (Z.shiftr s 1) 33800) 15 = true).
        { rewrite Z.lxor_spec. change (Z.testbit 33800 15) with true.
          replace (Z.testbit (Z.shiftr s 1) 15) with false; auto.
          symmetry. destruct (Z.eq_dec (Z.shiftr s 1) 0) as [Z0|Z0].
          - rewrite Z0. apply Z.testbit_0_l.
          - apply Z.bits_above_log2; [lia|]. apply Z.log2_lt_pow2; lia. }
        assert (NN : 0 <= Z.lxor (Z.shiftr s 1) 33800) by (apply Z.lxor_nonneg; lia).
        set (y := Z.lxor (Z.shiftr s 1) 33800) in *.
        assert (y < 32768) by lia.
        assert (Z.testbit y 15 = false).
        { destruct (Z.eq_dec y 0) as [Z0|Z0]. { rewrite Z0. apply Z.testbit_0_l. }
          apply Z.bits_above_log2; [lia|]. apply Z.log2_lt_pow2; lia. }
        congruence.
      + rewrite Z.lxor_0_r in IHa, IHb.
        apply xorb_false_eq in X.
        simpl length. fold n. replace (Z.of_nat (S n)) with (1 + Z.of_nat n) by lia.
        rewrite Z.pow_add_r by lia. change (2^1) with 2.
        assert (Hpos : 0 < 2 ^ Z.of_nat n) by (apply Z.pow_pos_nonneg; lia).
        split; [| destruct (Z.testbit s 0); cbn [Z.b2z] in D; lia].
        cbn [bval]. rewrite D. rewrite X.
        set (a := bval l) in *.
        assert (Hb : 0 <= Z.b2z b < 2) by (destruct b; simpl; lia).
        rewrite Z.mod_small in IHa by lia.
        rewrite !Z.rem_mul_r by lia.
        replace (2 * Z.shiftr s 1 + Z.b2z b) with (Z.b2z b + Z.shiftr s 1 * 2) by lia.
        replace (2 * a + Z.b2z b) with (Z.b2z b + a * 2) by lia.
        rewrite !Z.mod_add by lia. rewrite !Z.div_add by lia.
        rewrite (Z.div_small (Z.b2z b)) by lia. rewrite !Z.add_0_l.
        rewrite (Z.mod_small (Z.shiftr s 1)) by lia. rewrite IHa. reflexivity. }
  intros l HL E. specialize (G l 0 HL ltac:(lia) E). destruct G as [G _].
  rewrite Z.mod_0_l in G by (apply Z.pow_nonzero; lia).
  assert (R : forall l, 0 <= bval l < 2 ^ Z.of_nat (length l)).
  { clear. induction l as [|b l IH]; simpl length. { simpl. lia. }
    cbn [bval]. replace (Z.of_nat (S (length l))) with (1 + Z.of_nat (length l)) by lia.
    rewrite Z.pow_add_r by lia. destruct b; cbn [Z.b2z]; lia. }
  rewrite Z.mod_small in G by apply R. symmetry in G.
  clear E HL. induction l as [|b l IH]; auto. cbn [bval] in G. simpl length.
  pose proof (R l). destruct b; cbn [Z.b2z] in G; [lia|].
  simpl. f_equal. apply IH. lia.
Qed.

Lemma xorl_self : forall l, xorl l l = repeat false (length l).
Proof. induction l; simpl; auto. rewrite IHl, xorb_nilpotent. reflexivity. Qed.

Lemma xorl_false_eq : forall l1 l2, length l1 = length l2 ->
  xorl l1 l2 = repeat false (length l1) -> l1 = l2.
Proof.
  induction l1; destruct l2; simpl; intros; try discriminate; auto.
  injection H0; intros. f_equal; [apply xorb_false_eq; auto | apply IHl1; auto].
Qed.

Lemma xorl_length : forall l1 l2, length l1 = length l2 -> length (xorl l1 l2) = length l1.
Proof. induction l1; destruct l2; simpl; intros; try discriminate; auto. Qed.

Lemma burst_detected : forall l1 l2 s, 0 <= s < 65536 -> burst16 l1 l2 -> run s l1 <> run s l2.
Proof.
  intros l1 l2 s Hs (NE & pre & w1 & w2 & post & E1 & E2 & HL & HB) E.
  subst. rewrite !run_app in E.
  apply run_inj in E; try (apply run_range; apply run_range; auto).
  set (t := run s pre) in *.
  assert (Z0 : run 0 (xorl w1 w2) = 0).
  { rewrite <- (Z.lxor_nilpotent t) at 1. rewrite run_lxor by auto. rewrite E. apply Z.lxor_nilpotent. }
  apply run0_no_collapse in Z0; [| rewrite xorl_length; auto].
  rewrite xorl_length in Z0 by auto.
  apply xorl_false_eq in Z0; auto. subst. apply NE. reflexivity.
Qed.

Lemma crc_burst_detected : forall l1 l2 x, bytes l1 -> bytes l2 -> is_byte x ->
  burst16 (bits l1) (bits l2) ->
  crc_accumulate x (crc_calculate l1) <> crc_accumulate x (crc_calculate l2).
Proof.
  intros l1 l2 x H1 H2 Hx HB E.
  assert (R1 : 0 <= crc_calculate l1 < 65536).
  { rewrite crc_calculate_spec by auto. apply run_range. lia. }
  assert (R2 : 0 <= crc_calculate l2 < 65536).
  { rewrite crc_calculate_spec by auto. apply run_range. lia. }
  rewrite !crc_accumulate_bits in E by auto.
  apply run_inj in E; auto.
  rewrite !crc_calculate_spec in E by auto. unfold crc_spec in E.
  exact (burst_detected _ _ 65535 ltac:(lia) HB E).
Qed.
