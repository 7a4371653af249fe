(* Framing: the concrete receive buffer refines the stream segmentation. *)
From Verif Require Import Base Mav SpecCrc SpecFrame CrcProofs Frame.

(* The routing information expected for a packet. *)
Definition hlen (p : packet) : nat := match p_ver p with V1 => 6%nat | V2 _ _ _ => 10%nat end.

Definition info_of (tbl : table) (p : packet) : minfo :=
  mkInfo (p_id p)
         (target_spec p (option_map e_tsys (tbl (p_id p))))
         (target_spec p (option_map e_tcomp (tbl (p_id p))))
         (p_sys p) (p_comp p) (plen p) (hlen p) (length (encode p)).

(* --- packets -------------------------------------------------------------- *)

Lemma encode_length : forall p, length (encode p) =
  (hlen p + length (p_payload p) + 2 +
   match p_ver p with V1 => 0 | V2 _ _ sig => length sig end)%nat.
Proof.
  intros. unfold encode, body, hlen. destruct (p_ver p); simpl;
  repeat (rewrite ?app_length; simpl); lia.
Qed.

Lemma encode_length_bounds : forall p, wf_packet p -> (8 <= length (encode p) <= 280)%nat.
Proof.
  intros p (H1&H2&H3&H4&H5&H6&H7&H8). rewrite encode_length. unfold hlen.
  destruct (p_ver p); [lia|]. destruct H8 as (_&_&_&_&H8). destruct (Z.odd incompat); lia.
Qed.

Lemma encode_nonempty : forall p, encode p <> [].
Proof. intros. unfold encode. destruct (p_ver p); discriminate. Qed.

Lemma encode_head : forall p, exists b t, encode p = b :: t /\ marker b.
Proof.
  intros. unfold encode, marker. destruct (p_ver p); eauto.
Qed.

(* size announced by the header at the front of a stream *)
Definition size_of (s : list Z) : option nat :=
  match s with
  | 253 :: pl :: fl :: _ :: _ :: _ :: _ :: _ :: _ :: _ :: _ =>
      Some (12 + Z.to_nat pl + if Z.odd fl then 13 else 0)%nat
  | 254 :: pl :: _ :: _ :: _ :: _ :: _ => Some (8 + Z.to_nat pl)%nat
  | _ => None
  end.

Lemma size_of_encode : forall p s, wf_packet p -> size_of (encode p ++ s) = Some (length (encode p)).
Proof.
  intros p s (H1&H2&H3&H4&H5&H6&H7&H8). rewrite encode_length.
  unfold encode, body, hlen, plen. destruct (p_ver p); simpl; f_equal.
  - rewrite Nat2Z.id. lia.
  - rewrite Nat2Z.id. destruct H8 as (_&_&_&_&H8). simpl in H8. rewrite H8. destruct (Z.odd incompat); lia.
Qed.

Lemma size_of_app : forall s t n, size_of s = Some n -> size_of (s ++ t) = Some n.
Proof.
  intros s t n H.
  destruct s as [|b s]; try discriminate.
  destruct (Z.eq_dec b 253) as [->|N1].
  - do 9 (destruct s as [|? s]; try discriminate). simpl in *. assumption.
  - destruct (Z.eq_dec b 254) as [->|N2].
    + do 5 (destruct s as [|? s]; try discriminate). simpl in *. assumption.
    + exfalso. simpl in H. repeat (match type of H with match ?x with _ => _ end = _ => destruct x end; try discriminate; try lia).
Qed.

Lemma list_split_at : forall (s : list Z) n, (n <= length s)%nat ->
  exists a b, s = a ++ b /\ length a = n.
Proof. intros. exists (firstn n s), (skipn n s). rewrite firstn_skipn, firstn_length. split; auto. lia. Qed.

Lemma bytes_app : forall a b, bytes (a ++ b) <-> bytes a /\ bytes b.
Proof. intros. unfold bytes. apply Forall_app. Qed.

Lemma bytes_cons : forall a b, bytes (a :: b) <-> is_byte a /\ bytes b.
Proof. intros. unfold bytes. split; [intros H; inversion H; auto | intros [? ?]; constructor; auto]. Qed.

(* A marker-led stream with enough bytes starts with a packet. *)
Lemma size_of_complete : forall s n, bytes s -> size_of s = Some n -> (n <= length s)%nat ->
  exists p t, wf_packet p /\ s = encode p ++ t /\ length (encode p) = n.
Proof.
  intros s n HB HS HL.
  destruct s as [|b s]; try discriminate.
  destruct (Z.eq_dec b 253) as [->|N1].
  - do 9 (destruct s as [|? s]; try discriminate). cbn [size_of] in HS. injection HS; clear HS; intros HS.
    rename z into pl, z0 into fl, z1 into cf, z2 into sq, z3 into sy, z4 into co, z5 into i0, z6 into i1, z7 into i2.
    repeat (apply bytes_cons in HB; destruct HB as [? HB]).
    cbn [length] in HL.
    destruct (list_split_at s (Z.to_nat pl)) as (pay & s1 & -> & Lp); [destruct (Z.odd fl); lia|].
    rewrite app_length in HL.
    destruct s1 as [|c0 s1]; [cbn [length] in HL; destruct (Z.odd fl); lia|].
    destruct s1 as [|c1 s1]; [cbn [length] in HL; destruct (Z.odd fl); lia|].
    cbn [length] in HL.
    destruct (list_split_at s1 (if Z.odd fl then 13 else 0)%nat) as (sg & t & -> & Ls).
    1:{ destruct (Z.odd fl); lia. }
    apply bytes_app in HB. destruct HB as [Hpay HB].
    apply bytes_cons in HB. destruct HB as [Hc0 HB].
    apply bytes_cons in HB. destruct HB as [Hc1 HB].
    apply bytes_app in HB. destruct HB as [Hsg HB].
    unfold is_byte in *.
    exists (mkPacket (V2 fl cf sg) sq sy co (i0 + 256 * i1 + 65536 * i2) pay c0 c1), t.
    split; [|split].
    + unfold wf_packet; cbn [p_ver p_seq p_sys p_comp p_id p_payload p_crc0 p_crc1]; unfold is_byte.
      repeat split; auto; try lia.
    + unfold encode, body, plen; cbn [p_ver p_seq p_sys p_comp p_id p_payload p_crc0 p_crc1].
      rewrite Lp. rewrite Z2Nat.id by lia.
      replace ((i0 + 256 * i1 + 65536 * i2) mod 256) with i0 by (Z.div_mod_to_equations; lia).
      replace (((i0 + 256 * i1 + 65536 * i2) / 256) mod 256) with i1 by (Z.div_mod_to_equations; lia).
      replace ((i0 + 256 * i1 + 65536 * i2) / 65536) with i2 by (Z.div_mod_to_equations; lia).
      cbn. rewrite <- !app_assoc. reflexivity.
    + rewrite encode_length. unfold hlen; cbn [p_ver p_payload]. lia.
  - destruct (Z.eq_dec b 254) as [->|N2].
    + do 5 (destruct s as [|? s]; try discriminate). cbn [size_of] in HS. injection HS; clear HS; intros HS.
      rename z into pl, z0 into sq, z1 into sy, z2 into co, z3 into i0.
      repeat (apply bytes_cons in HB; destruct HB as [? HB]).
      cbn [length] in HL.
      destruct (list_split_at s (Z.to_nat pl)) as (pay & s1 & -> & Lp); [lia|].
      rewrite app_length in HL.
      destruct s1 as [|c0 s1]; [cbn [length] in HL; lia|].
      destruct s1 as [|c1 s1]; [cbn [length] in HL; lia|].
      apply bytes_app in HB. destruct HB as [Hpay HB].
      apply bytes_cons in HB. destruct HB as [Hc0 HB].
      apply bytes_cons in HB. destruct HB as [Hc1 HB].
      unfold is_byte in *.
      exists (mkPacket V1 sq sy co i0 pay c0 c1), s1.
      split; [|split].
      * unfold wf_packet; cbn [p_ver p_seq p_sys p_comp p_id p_payload p_crc0 p_crc1]; unfold is_byte.
        repeat split; auto; try lia.
      * unfold encode, body, plen; cbn [p_ver p_seq p_sys p_comp p_id p_payload p_crc0 p_crc1].
        rewrite Lp. rewrite Z2Nat.id by lia. cbn. rewrite <- !app_assoc. reflexivity.
      * rewrite encode_length. unfold hlen; cbn [p_ver p_payload]. lia.
    + exfalso. simpl in HS. repeat (match type of HS with match ?x with _ => _ end = _ => destruct x end; try discriminate; try lia).
Qed.

(* A non-empty, marker-led, incomplete stream. *)
Definition incomplete (s : list Z) : Prop :=
  (exists b t, s = b :: t /\ marker b) /\
  match size_of s with Some n => (length s < n)%nat | None => True end.

Lemma size_of_None_short : forall b t, marker b -> size_of (b :: t) = None -> (length (b :: t) < 10)%nat.
Proof.
  intros b t [-> | ->] H; simpl in *.
  - do 9 (destruct t as [|? t]; simpl in *; try lia; try discriminate).
  - do 5 (destruct t as [|? t]; simpl in *; try lia; try discriminate).
Qed.

Lemma size_of_le : forall s n, bytes s -> size_of s = Some n -> (n <= 280)%nat.
Proof.
  intros s n HB H.
  destruct s as [|b s]; try discriminate.
  destruct (Z.eq_dec b 253) as [->|N1].
  - do 9 (destruct s as [|? s]; try discriminate). cbn [size_of] in H. injection H; clear H; intros H.
    repeat (apply bytes_cons in HB; destruct HB as [? HB]). unfold is_byte in *. destruct (Z.odd _); lia.
  - destruct (Z.eq_dec b 254) as [->|N2].
    + do 5 (destruct s as [|? s]; try discriminate). cbn [size_of] in H. injection H; clear H; intros H.
      repeat (apply bytes_cons in HB; destruct HB as [? HB]). unfold is_byte in *. lia.
    + exfalso. simpl in H. repeat (match type of H with match ?x with _ => _ end = _ => destruct x end; try discriminate; try lia).
Qed.

Lemma incomplete_short : forall s, bytes s -> incomplete s -> (length s < 280)%nat.
Proof.
  intros s HB ((b & t & -> & Hm) & H).
  destruct (size_of (b :: t)) eqn:E.
  - apply size_of_le in E; auto. lia.
  - apply size_of_None_short in E; auto. lia.
Qed.

(* any incomplete stream can be completed to a packet *)
Lemma incomplete_extends : forall s, bytes s -> incomplete s ->
  exists p missing, wf_packet p /\ encode p = s ++ missing /\ missing <> [].
Proof.
  intros s HB HI.
  assert (exists k, (k <= 300)%nat /\ exists n, size_of (s ++ repeat 0%Z k) = Some n /\ (length s < n)%nat
            /\ (n <= length (s ++ repeat 0%Z k))%nat) as (k & _ & n & E & L1 & L2).
  { destruct HI as ((b & t & -> & Hm) & H). destruct (size_of (b :: t)) eqn:E.
    - exists 300%nat. split; [lia|]. exists n. split; [apply size_of_app; auto|]. split; auto.
      apply size_of_le in E; auto. rewrite app_length, repeat_length. lia.
    - pose proof (size_of_None_short _ _ Hm E) as Sh.
      exists 300%nat. split; [lia|].
      assert (exists n, size_of ((b :: t) ++ repeat 0%Z 300) = Some n) as [n En].
      { destruct Hm as [-> | ->]; cbn [app] in *.
        - do 9 (destruct t as [|? t]; [eexists; reflexivity|]). cbn [length] in Sh; lia.
        - do 5 (destruct t as [|? t]; [eexists; reflexivity|]). cbn [size_of] in E; discriminate. }
      exists n. split; auto.
      assert (bytes ((b :: t) ++ repeat 0%Z 300)).
      { apply bytes_app. split; auto. apply Forall_forall. intros y Hy. apply repeat_spec in Hy. subst.
        unfold is_byte; lia. }
      pose proof (size_of_le _ _ H0 En). rewrite app_length, repeat_length. cbn [length] in *.
      split; [|lia].
      destruct Hm as [-> | ->].
      + destruct t as [|z t]; cbn [app] in En; simpl in Sh.
        * simpl in En. injection En; intros; subst n. simpl. lia.
        * do 8 (destruct t as [|? t]; [simpl in En; injection En; intros; subst n; simpl; lia|]).
          simpl in Sh; lia.
      + destruct t as [|z t]; cbn [app] in En; simpl in Sh.
        * simpl in En. injection En; intros; subst n. simpl. lia.
        * do 4 (destruct t as [|? t]; [simpl in En; injection En; intros; subst n; simpl; lia|]).
          simpl in E; discriminate. }
  assert (HB2 : bytes (s ++ repeat 0%Z k)).
  { apply bytes_app. split; auto. apply Forall_forall. intros y Hy. apply repeat_spec in Hy. subst.
    unfold is_byte; lia. }
  destruct (size_of_complete _ _ HB2 E L2) as (p & t & Hp & Ep & Lp).
  exists p, (skipn (length s) (encode p)). split; auto.
  assert (F : firstn (length s) (encode p) = s).
  { assert (firstn (length s) (s ++ repeat 0%Z k) = firstn (length s) (encode p ++ t)) by (rewrite Ep; auto).
    rewrite firstn_app, Nat.sub_diag, firstn_O, app_nil_r, firstn_all in H.
    rewrite firstn_app in H. replace (length s - length (encode p))%nat with 0%nat in H by lia.
    rewrite firstn_O, app_nil_r in H. auto. }
  split.
  - rewrite <- F at 1. rewrite firstn_skipn. reflexivity.
  - intro Z0. apply (f_equal (@length Z)) in Z0. rewrite skipn_length in Z0. simpl in Z0. lia.
Qed.

Lemma classify : forall b t, bytes (b :: t) -> marker b ->
  incomplete (b :: t) \/ exists p s, wf_packet p /\ b :: t = encode p ++ s.
Proof.
  intros b t HB Hm. destruct (size_of (b :: t)) as [n|] eqn:E.
  - destruct (le_lt_dec n (length (b :: t))) as [L|L].
    + right. destruct (size_of_complete _ _ HB E L) as (p & s & Hp & Ep & _). eauto.
    + left. split; [eauto|]. rewrite E. auto.
  - left. split; [eauto|]. rewrite E. auto.
Qed.

(* --- uniqueness of the segmentation ------------------------------------------- *)

Lemma encode_inj : forall p q, wf_packet p -> wf_packet q -> encode p = encode q -> p = q.
Proof.
  intros [vp a1 a2 a3 a4 a5 a6 a7] [vq b1 b2 b3 b4 b5 b6 b7] Hp Hq E.
  unfold wf_packet in *; cbn [p_ver p_seq p_sys p_comp p_id p_payload p_crc0 p_crc1] in *.
  destruct Hp as (P1&P2&P3&P4&P5&P6&P7&P8). destruct Hq as (Q1&Q2&Q3&Q4&Q5&Q6&Q7&Q8).
  unfold encode, body, plen in E; cbn [p_ver p_seq p_sys p_comp p_id p_payload p_crc0 p_crc1] in E.
  destruct vp, vq; cbn [app] in E; try discriminate.
  - injection E; intros E6 E5 E4 E3 E2 E1. subst.
    assert (length a5 = length b5) by lia.
    assert (a5 = b5 /\ [a6; a7] = [b6; b7]) as [-> E7].
    { clear - E6 H. revert b5 H E6. induction a5; destruct b5; simpl; intros; try discriminate.
      - auto.
      - injection E6; intros. destruct (IHa5 b5); auto; try lia. subst. auto. }
    injection E7; intros; subst; reflexivity.
  - injection E; intros E10 Ei2 Ei1 Ei0 E4 E3 E2 Ecf Efl E1. subst.
    assert (length a5 = length b5) by lia.
    assert (a5 = b5 /\ a6 :: a7 :: signature = b6 :: b7 :: signature0) as [-> E7].
    { cbn [app] in E10.
      clear - E10 H. revert b5 H E10. induction a5; destruct b5; simpl; intros; try discriminate.
      - auto.
      - injection E10; intros. destruct (IHa5 b5); auto; try lia. subst. auto. }
    injection E7; intros; subst.
    assert (a4 = b4).
    { destruct P8 as (P8&_). destruct Q8 as (Q8&_). clear - P8 Q8 Ei0 Ei1 Ei2.
      Z.div_mod_to_equations. lia. }
    subst. reflexivity.
Qed.

Lemma encode_prefix : forall p q s t, wf_packet p -> wf_packet q ->
  encode p ++ s = encode q ++ t -> p = q /\ s = t.
Proof.
  intros p q s t Hp Hq E.
  assert (L : length (encode p) = length (encode q)).
  { pose proof (size_of_encode p s Hp). pose proof (size_of_encode q t Hq). rewrite E in H. congruence. }
  assert (encode p = encode q /\ s = t) as [E1 E2].
  { clear Hp Hq. revert E L. generalize (encode q) as l2. generalize (encode p) as l1.
    induction l1; destruct l2; simpl; intros; try discriminate; auto.
    injection E; intros. destruct (IHl1 l2); auto; try lia. subst; auto. }
  split; auto. apply encode_inj; auto.
Qed.

Lemma partial_not_packet : forall p q r missing s, wf_packet p -> wf_packet q ->
  encode p = r ++ missing -> missing <> [] -> r = encode q ++ s -> False.
Proof.
  intros p q r missing s Hp Hq E NE R. subst r.
  assert (E2 : encode p ++ [] = encode q ++ (s ++ missing)) by (rewrite app_nil_r, E, app_assoc; auto).
  apply encode_prefix in E2; auto. destruct E2 as [_ E2]. symmetry in E2.
  apply app_eq_nil in E2. tauto.
Qed.

Lemma segments_unique : forall s ps1 r1, segments s ps1 r1 ->
  forall ps2 r2, segments s ps2 r2 -> ps1 = ps2 /\ r1 = r2.
Proof.
  assert (HD : forall p s b t, encode p ++ s = b :: t -> marker b).
  { intros p s b t E. destruct (encode_head p) as (b' & t' & Eb & Hm). rewrite Eb in E.
    injection E; intros; subst; auto. }
  assert (NE : forall p s, encode p ++ s = [] -> False).
  { intros p s E. apply app_eq_nil in E. destruct E as [E _]. eapply encode_nonempty; eauto. }
  assert (HP : forall p b r m, encode p = (b :: r) ++ m -> marker b).
  { intros p b r m E. destruct (encode_head p) as (b' & t' & Eb & Hm). rewrite Eb in E.
    simpl in E. injection E; intros; subst; auto. }
  intros s ps1 r1 H. induction H; intros ps2 r2 H'.
  - inversion H'; subst; auto; try congruence; exfalso; eauto.
  - inversion H'; subst; auto; try congruence.
    + exfalso. eauto.
    + exfalso. eapply (partial_not_packet p p0); eauto.
  - inversion H'; subst.
    + exfalso. eauto.
    + apply IHsegments; auto.
    + exfalso. eauto.
  - inversion H'; subst.
    + exfalso. eapply NE; eauto.
    + exfalso. eapply (partial_not_packet p0 p); eauto.
    + exfalso. eauto.
    + match goal with HH : encode _ ++ _ = encode _ ++ _ |- _ => apply encode_prefix in HH; auto; destruct HH; subst end.
      match goal with HH : segments s ?a ?b |- _ => destruct (IHsegments _ _ HH); subst; auto end.
Qed.
