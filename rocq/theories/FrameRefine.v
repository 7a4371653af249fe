(* The receive buffer of Frame.v, step by step, against byte streams. *)
From Verif Require Import Base Mav SpecCrc SpecFrame CrcProofs Frame FrameProofs.

(* The buffer holds the bytes s (followed by stale bytes). *)
Definition holds (x : rx) (s : list Z) : Prop :=
  exists tail, rx_data x = s ++ tail /\ length (s ++ tail) = RXMAX /\ rx_len x = length s.

(* Invariant between calls: either a packet was just handed out (rx_last), or
   what is held is not a complete packet. *)
Definition good (x : rx) (s : list Z) : Prop :=
  holds x s /\ (rx_last x <= length s)%nat /\ bytes s /\
  (rx_last x = 0%nat -> s = [] \/ incomplete s).

(* bytes not handed out yet *)
Definition rest_of (x : rx) (s : list Z) : list Z := skipn (rx_last x) s.

Fixpoint drop_junk (s : list Z) : list Z :=
  match s with
  | [] => []
  | b :: t => if is_stx b then s else drop_junk t
  end.

Lemma is_stx_marker : forall b, is_stx b = true <-> marker b.
Proof. intros. unfold is_stx, marker, STX1, STX2. rewrite orb_true_iff, !Z.eqb_eq. tauto. Qed.

Lemma is_stx_not_marker : forall b, is_stx b = false <-> ~ marker b.
Proof. intros. rewrite <- is_stx_marker. destruct (is_stx b); split; congruence. Qed.

Lemma rx_begin_holds : forall x s, holds x s -> (rx_last x <= length s)%nat ->
  exists x1, rx_begin x = Ok x1 /\ holds x1 (rest_of x s) /\ rx_last x1 = 0%nat.
Proof.
  intros x s (tail & Ed & El & En) HL. unfold rx_begin, rest_of.
  destruct (Nat.eqb_spec (rx_last x) 0) as [E|E].
  - exists x. split; auto. split; auto. rewrite E. simpl. exists tail. auto.
  - destruct (Nat.leb_spec (rx_last x) (rx_len x)) as [L|L]; [|lia].
    destruct (Nat.ltb_spec 0 (rx_len x - rx_last x)) as [P|P].
    + assert (DL : length (rx_data x) = RXMAX) by (rewrite Ed; auto).
      rewrite memmove_Ok by (rewrite app_length in El; lia).
      eexists. split; [reflexivity|]. split; [|reflexivity]. cbn [rx_data rx_len].
      assert (E1 : firstn (rx_len x - rx_last x) (skipn (rx_last x) (rx_data x)) = skipn (rx_last x) s).
      { rewrite Ed, skipn_app. replace (rx_last x - length s)%nat with 0%nat by lia.
        rewrite skipn_O, firstn_app. rewrite skipn_length.
        replace (rx_len x - rx_last x - (length s - rx_last x))%nat with 0%nat by lia.
        rewrite firstn_O, app_nil_r. apply firstn_all2. rewrite skipn_length. lia. }
      rewrite E1. simpl firstn. cbn [app].
      exists (skipn (0 + (rx_len x - rx_last x)) (rx_data x)).
      cbn [rx_data rx_len rx_last]. split; [reflexivity|].
      rewrite app_length, !skipn_length, DL. rewrite app_length in El. split; lia.
    + simpl bind. eexists. split; [reflexivity|]. split; [|reflexivity].
      assert (rx_last x = length s) by lia. rewrite H, skipn_all.
      exists (s ++ tail). cbn [rx_data rx_len rx_last]. simpl. repeat split; auto. lia.
Qed.

Lemma rx_fill_holds : forall x s avail, holds x s ->
  exists x2, rx_fill x avail = Ok x2 /\
    holds x2 (s ++ firstn (RXMAX - rx_len x) avail) /\ rx_last x2 = rx_last x.
Proof.
  intros x s avail (tail & Ed & El & En). unfold rx_fill.
  set (got := firstn (RXMAX - rx_len x) avail).
  assert (Lg : (length got <= RXMAX - rx_len x)%nat) by (unfold got; rewrite firstn_length; lia).
  rewrite app_length in El.
  rewrite blit_Ok by (rewrite Ed, app_length; lia).
  eexists. split; [reflexivity|]. split; [|reflexivity].
  exists (skipn (length got) tail). cbn [rx_data rx_len rx_last].
  rewrite Ed, En. rewrite firstn_app, Nat.sub_diag, firstn_O, app_nil_r, firstn_all.
  rewrite skipn_app. rewrite skipn_all2 by lia.
  replace (length s + length got - length s)%nat with (length got) by lia. cbn [app].
  rewrite <- app_assoc. split; [reflexivity|]. rewrite !app_length, skipn_length. lia.
Qed.

Lemma rd_app1 : forall s tail i, (i < length s)%nat -> rd (s ++ tail) i = Ok (nth i s 0).
Proof. intros. rewrite rd_Ok by (rewrite app_length; lia). rewrite app_nth1 by auto. reflexivity. Qed.

Lemma find_stx_spec : forall n i pre s tail,
  length pre = i -> length s = n ->
  find_stx ((pre ++ s) ++ tail) i n = Ok
    (match drop_junk s with [] => None | _ => Some (i + (length s - length (drop_junk s)))%nat end).
Proof.
  induction n; intros i pre s tail Hp Hs; simpl.
  - destruct s; [reflexivity|discriminate].
  - destruct s as [|b s]; [discriminate|]. cbn [length] in Hs.
    rewrite rd_app1 by (rewrite app_length; simpl; lia).
    rewrite app_nth2 by lia. rewrite Hp, Nat.sub_diag. cbn [nth bind].
    cbn [drop_junk]. destruct (is_stx b) eqn:E.
    + rewrite Nat.sub_diag, Nat.add_0_r. reflexivity.
    + replace ((pre ++ b :: s) ++ tail) with (((pre ++ [b]) ++ s) ++ tail)
        by (rewrite <- !app_assoc; reflexivity).
      rewrite IHn; [|rewrite app_length; simpl; lia | lia].
      destruct (drop_junk s) eqn:D; auto. f_equal. f_equal.
      assert (length (drop_junk s) <= length s)%nat.
      { clear. induction s; simpl; auto. destruct (is_stx a); simpl; lia. }
      rewrite D in H. simpl in *. lia.
Qed.

Lemma drop_junk_suffix : forall s, drop_junk s = skipn (length s - length (drop_junk s)) s
  /\ (length (drop_junk s) <= length s)%nat.
Proof.
  induction s; simpl; auto. destruct (is_stx a).
  - simpl. rewrite Nat.sub_diag. split; auto.
  - destruct IHs as [E L]. split; [|lia].
    replace (match length (drop_junk s) with 0%nat => S (length s) | S l => length s - l end)%nat
      with (S (length s - length (drop_junk s))) by (destruct (length (drop_junk s)); lia).
    simpl. auto.
Qed.

Lemma rx_sync_holds : forall x s, holds x s -> rx_last x = 0%nat ->
  exists o, rx_sync x = Ok o /\
    match o with
    | None => drop_junk s = []
    | Some x3 => holds x3 (drop_junk s) /\ rx_last x3 = 0%nat
    end.
Proof.
  intros x s (tail & Ed & El & En) HL. unfold rx_sync.
  destruct s as [|b s].
  - rewrite rd_Ok by (rewrite Ed, El; unfold RXMAX; lia). cbn [bind].
    destruct (is_stx _).
    + exists (Some x). split; auto. split; auto. exists tail. auto.
    + rewrite En. simpl. exists None. auto.
  - rewrite Ed, rd_app1 by (simpl; lia). cbn [nth bind]. 
    destruct (is_stx b) eqn:E.
    + exists (Some x). split; auto. cbn [drop_junk]. rewrite E. split; auto. exists tail. auto.
    + rewrite En. change (b :: s) with ([b] ++ s).
      replace (length ([b] ++ s) - 1)%nat with (length s) by (simpl; lia).
      rewrite find_stx_spec by auto. cbn [bind].
      replace (drop_junk ([b] ++ s)) with (drop_junk s) by (cbn [app drop_junk]; rewrite E; auto).
      destruct (drop_junk s) as [|c d] eqn:D.
      * exists None. auto.
      * pose proof (drop_junk_suffix s) as [SF SL]. rewrite D in SF, SL.
        rewrite app_length in El. cbn [length app] in El. 
        rewrite memmove_Ok by (rewrite !app_length; cbn [length app] in *; lia).
        eexists. split; [reflexivity|]. cbn [rx_last]. split; auto.
        exists (skipn (0 + (length ([b] ++ s) - (1 + (length s - length (c :: d))))) (([b] ++ s) ++ tail)).
        cbn [rx_data rx_len firstn app].
        assert (E1 : firstn (length (b :: s) - (1 + (length s - length (c :: d))))
                   (skipn (1 + (length s - length (c :: d))) (b :: s ++ tail)) = c :: d).
        { change (1 + (length s - length (c :: d)))%nat with (S (length s - length (c :: d))).
          cbn [skipn]. rewrite skipn_app.
          replace (length s - length (c :: d) - length s)%nat with 0%nat by lia.
          rewrite skipn_O. rewrite <- SF. cbn [length].
          rewrite firstn_app. cbn [length] in *.
          replace (S (length s) - S (length s - S (length d)) - S (length d))%nat with 0%nat by lia.
          rewrite firstn_O, app_nil_r. apply firstn_all2. cbn [length]. lia. }
        cbn [length app] in E1 |- *. rewrite E1. split; [reflexivity|].
        cbn [length] in *. rewrite app_length, skipn_length. cbn [length]. rewrite app_length. lia.
Qed.

(* --- one packet at the front -------------------------------------------------- *)

Definition stat_bad (st : rstat) (n : nat) : rstat :=
  mkRstat (u64 (s_crc_err_bytes st + Z.of_nat n)) (s_handled_bytes st) (u32 (s_total st + 1))
          (u32 (s_crc_err st + 1)) (s_handled st) (s_drop st) (s_eseq st).

Definition stat_ok (st : rstat) (n : nat) (sq : Z) : rstat :=
  seq_update (mkRstat (s_crc_err_bytes st) (u64 (s_handled_bytes st + Z.of_nat n))
    (u32 (s_total st + 1)) (s_crc_err st) (u32 (s_handled st + 1)) (s_drop st) (s_eseq st)) sq.

Definition is_known (tbl : table) (p : packet) : bool :=
  match tbl (p_id p) with Some _ => true | None => false end.

Lemma rx_packet_incomplete : forall tbl x t st, holds x t -> bytes t -> (t = [] \/ incomplete t) ->
  rx_packet tbl x st = Ok (x, st, RetNone 0).
Proof.
  intros tbl x t st (tail & Ed & El & En) HB H. unfold rx_packet.
  destruct H as [-> | ((b & t' & -> & Hm) & HS)].
  - rewrite rd_Ok by (rewrite Ed, El; unfold RXMAX; lia). cbn [bind].
    rewrite En. simpl length. destruct (nth 0 (rx_data x) 0 =? STX2); reflexivity.
  - rewrite Ed, rd_app1 by (simpl; lia). cbn [nth bind]. rewrite En.
    destruct Hm as [-> | ->].
    + change (253 =? STX2) with true. cbv iota. unfold HDR2.
      destruct (Nat.ltb_spec (length (253 :: t')) 10) as [L|L]; auto.
      do 9 (destruct t' as [|? t']; [simpl in L; lia|]).
      unfold parse_hdr2. rewrite !rd_app1 by (simpl; lia). cbn [nth bind h_size].
      cbn [size_of] in HS. unfold HDR2, SIGLEN.
      replace (length _ <? _)%nat with true; auto. symmetry. apply Nat.ltb_lt.
      destruct (Z.odd z0); cbn [length] in *; lia.
    + change (254 =? STX2) with false. cbv iota. unfold HDR1.
      destruct (Nat.ltb_spec (length (254 :: t')) 6) as [L|L]; auto.
      do 5 (destruct t' as [|? t']; [simpl in L; lia|]).
      unfold parse_hdr1. rewrite !rd_app1 by (simpl; lia). cbn [nth bind h_size].
      cbn [size_of] in HS. unfold HDR1.
      replace (length _ <? _)%nat with true; auto. symmetry. apply Nat.ltb_lt.
      cbn [length] in *; lia.
Qed.

Definition hdr_of (p : packet) : hdr :=
  mkHdr (p_id p) (p_seq p) (p_sys p) (p_comp p) (plen p) (hlen p) (length (encode p)).

Definition is_v2 (p : packet) : bool := match p_ver p with V1 => false | V2 _ _ _ => true end.

Lemma parse_hdr_encode : forall p r, wf_packet p ->
  (if is_v2 p then parse_hdr2 (encode p ++ r) else parse_hdr1 (encode p ++ r)) = Ok (hdr_of p).
Proof.
  intros p r (H1&H2&H3&H4&H5&H6&H7&H8).
  unfold hdr_of. rewrite encode_length. unfold is_v2, encode, body, hlen, plen. destruct (p_ver p).
  - unfold parse_hdr1, rd. cbn [nth_error app bind]. unfold HDR1. rewrite Nat2Z.id.
    do 2 f_equal. lia.
  - unfold parse_hdr2, rd. cbn [nth_error app bind]. unfold HDR2, SIGLEN. rewrite Nat2Z.id.
    destruct H8 as (I1&_&_&_&H8). rewrite H8.
    f_equal. f_equal.
    + Z.div_mod_to_equations. lia.
    + destruct (Z.odd incompat); lia.
Qed.

Lemma encode_magic : forall p r, rd (encode p ++ r) 0 = Ok (if is_v2 p then STX2 else STX1).
Proof. intros. unfold encode, is_v2, rd. destruct (p_ver p); reflexivity. Qed.

Lemma body_length : forall p, length (body p) = (hlen p - 1 + length (p_payload p))%nat.
Proof. intros. unfold body, hlen. destruct (p_ver p); simpl; lia. Qed.

Lemma encode_shape : forall p, exists m sig, encode p = m :: body p ++ p_crc0 p :: p_crc1 p :: sig.
Proof. intros. unfold encode. destruct (p_ver p); simpl; eauto. Qed.

Lemma encode_plen : forall p r, rd (encode p ++ r) 1 = Ok (plen p).
Proof. intros. unfold encode, body, rd. destruct (p_ver p); reflexivity. Qed.

Lemma hlen_pos : forall p, (6 <= hlen p <= 10)%nat.
Proof. intros. unfold hlen. destruct (p_ver p); lia. Qed.

Lemma crc_run_app : forall a b c, crc_run c (a ++ b) = crc_run (crc_run c a) b.
Proof. induction a; simpl; auto. Qed.

Lemma lor_bytes : forall c0 c1, is_byte c0 -> is_byte c1 -> u16 (Z.lor c0 (Z.shiftl c1 8)) = c0 + 256 * c1.
Proof.
  unfold is_byte. intros c0 c1 H0 H1.
  assert (E : Z.lor c0 (Z.shiftl c1 8) = c0 + 256 * c1).
  { rewrite Z.shiftl_mul_pow2 by lia. change (2^8) with 256.
    rewrite <- Z.lxor_lor.
    - rewrite <- Z.add_nocarry_lxor; [lia|].
      apply Z.bits_inj'. intros i Hi. rewrite Z.land_spec, Z.bits_0.
      replace (c1 * 256) with (Z.shiftl c1 8) by (rewrite Z.shiftl_mul_pow2 by lia; reflexivity).
      destruct (Z_lt_dec i 8).
      + rewrite Z.shiftl_spec_low by lia. apply andb_false_r.
      + destruct (Z.eq_dec c0 0) as [->|N]; [rewrite Z.testbit_0_l; reflexivity|].
        rewrite Z.bits_above_log2; auto; try lia.
        assert (Z.log2 c0 < 8) by (apply Z.log2_lt_pow2; lia). lia.
    - apply Z.bits_inj'. intros i Hi. rewrite Z.land_spec, Z.bits_0.
      replace (c1 * 256) with (Z.shiftl c1 8) by (rewrite Z.shiftl_mul_pow2 by lia; reflexivity).
      destruct (Z_lt_dec i 8).
      + rewrite Z.shiftl_spec_low by lia. apply andb_false_r.
      + destruct (Z.eq_dec c0 0) as [->|N]; [rewrite Z.testbit_0_l; reflexivity|].
        rewrite Z.bits_above_log2; auto; try lia.
        assert (Z.log2 c0 < 8) by (apply Z.log2_lt_pow2; lia). lia. }
  rewrite E. apply u16_small. lia.
Qed.

Lemma body_bytes : forall p, wf_packet p -> bytes (body p).
Proof.
  intros p (H1&H2&H3&H4&H5&H6&H7&H8). unfold body, plen. unfold is_byte in *.
  destruct (p_ver p); cbn [app].
  - repeat (apply bytes_cons; split; [unfold is_byte; lia|]). auto.
  - destruct H8 as (I1&I2&I3&_).
    repeat (apply bytes_cons; split; [unfold is_byte; Z.div_mod_to_equations; lia|]). auto.
Qed.

Lemma check_crc_encode : forall p r e, wf_packet p -> is_byte (e_crc_extra e) ->
  check_crc (encode p ++ r) e = Ok (crc_spec (body p ++ [e_crc_extra e]) =? p_crc0 p + 256 * p_crc1 p).
Proof.
  intros p r e Hp He. unfold check_crc. rewrite encode_magic, encode_plen. cbn [bind].
  assert (Eh : (if (if is_v2 p then STX2 else STX1) =? STX2 then HDR2 else HDR1) = hlen p)
    by (unfold is_v2, hlen; destruct (p_ver p); reflexivity).
  rewrite Eh. unfold plen at 1 2 3. rewrite Nat2Z.id.
  destruct (encode_shape p) as (m & sig & E). rewrite E.
  pose proof (body_length p) as BL. pose proof (hlen_pos p) as HP.
  assert (R0 : rd ((m :: body p ++ p_crc0 p :: p_crc1 p :: sig) ++ r) (hlen p + length (p_payload p)) = Ok (p_crc0 p)).
  { rewrite rd_app1 by (simpl; rewrite app_length; simpl; lia).
    replace (hlen p + length (p_payload p))%nat with (S (length (body p))) by lia.
    cbn [nth]. rewrite app_nth2, Nat.sub_diag by lia. reflexivity. }
  assert (R1 : rd ((m :: body p ++ p_crc0 p :: p_crc1 p :: sig) ++ r) (hlen p + length (p_payload p) + 1) = Ok (p_crc1 p)).
  { rewrite rd_app1 by (simpl; rewrite app_length; simpl; lia).
    replace (hlen p + length (p_payload p) + 1)%nat with (S (S (length (body p)))) by lia.
    cbn [nth]. rewrite app_nth2 by lia.
    replace (S (length (body p)) - length (body p))%nat with 1%nat by lia. reflexivity. }
  rewrite R0, R1. cbn [bind].
  rewrite slice_Ok by (rewrite app_length; simpl; rewrite app_length; simpl; lia). cbn [bind].
  replace (firstn (hlen p + length (p_payload p) - 1) (skipn 1 ((m :: body p ++ p_crc0 p :: p_crc1 p :: sig) ++ r)))
    with (body p).
  2:{ cbn [app skipn]. rewrite <- app_assoc. rewrite firstn_app.
      replace (hlen p + length (p_payload p) - 1 - length (body p))%nat with 0%nat by lia.
      rewrite firstn_O, app_nil_r. symmetry. apply firstn_all2. lia. }
  destruct Hp as (H1&H2&H3&H4&H5&H6&H7&H8).
  rewrite lor_bytes by auto. f_equal. f_equal.
  assert (Hb : bytes (body p)) by (apply body_bytes; unfold wf_packet; tauto).
  rewrite <- crc_calculate_spec.
  - unfold crc_calculate. rewrite crc_run_app. reflexivity.
  - apply bytes_app. split; auto. constructor; auto.
Qed.

Lemma target_of_encode : forall p r field, wf_packet p ->
  (match field with Some o => target_of (encode p ++ r) (hlen p) (plen p) o | None => Ok (-1) end)
  = Ok (target_spec p field).
Proof.
  intros p r field Hp. destruct field as [[o|]|]; auto.
  unfold target_of, target_spec. unfold plen.
  destruct (Z.ltb_spec (Z.of_nat o) (Z.of_nat (length (p_payload p)))) as [L|L].
  - rewrite rd_app1 by (rewrite encode_length; lia). f_equal.
    unfold encode, body, hlen. destruct (p_ver p); cbn [app nth Nat.add]; rewrite app_nth1 by lia; reflexivity.
  - rewrite nth_overflow by lia. reflexivity.
Qed.

Lemma rx_packet_complete : forall tbl x p s st, wf_table tbl -> wf_packet p -> holds x (encode p ++ s) ->
  rx_packet tbl x st =
    Ok (mkRx (rx_data x) (rx_len x) (length (encode p)),
        if acceptableb tbl p then stat_ok st (length (encode p)) (p_seq p)
        else stat_bad st (length (encode p)),
        if acceptableb tbl p then RetMsg (is_known tbl p) (info_of tbl p) else RetNone 0).
Proof.
  intros tbl x p s st Ht Hp (tail & Ed & El & En). unfold rx_packet.
  rewrite Ed, <- app_assoc, encode_magic. cbn [bind].
  assert (Ev : ((if is_v2 p then STX2 else STX1) =? STX2) = is_v2 p) by (destruct (is_v2 p); reflexivity).
  rewrite Ev. rewrite En.
  assert (L1 : (length (encode p ++ s) <? (if is_v2 p then HDR2 else HDR1))%nat = false).
  { apply Nat.ltb_ge. rewrite app_length, encode_length. unfold is_v2, hlen, HDR1, HDR2.
    destruct (p_ver p); lia. }
  rewrite L1. rewrite parse_hdr_encode by auto. cbn [bind].
  unfold hdr_of at 1. cbn [h_size].
  assert (L2 : (length (encode p ++ s) <? length (encode p))%nat = false).
  { apply Nat.ltb_ge. rewrite app_length. lia. }
  rewrite L2. unfold hdr_of; cbn [h_id h_seq h_sys h_comp h_plen h_poff h_size].
  unfold acceptableb, acceptable_dec, acceptable, is_known, info_of.
  destruct (tbl (p_id p)) as [e|] eqn:Et.
  - rewrite check_crc_encode by (auto; apply (Ht _ _ Et)). cbn [bind].
    unfold crc_matches. destruct (Z.eq_dec _ _) as [Ec|Ec].
    + apply Z.eqb_eq in Ec. rewrite Ec. cbn [negb].
      pose proof (target_of_encode p (s ++ tail) (Some (e_tsys e)) Hp) as T1. cbn iota in T1.
      pose proof (target_of_encode p (s ++ tail) (Some (e_tcomp e)) Hp) as T2. cbn iota in T2.
      rewrite T1, T2. cbn [bind option_map]. reflexivity.
    + apply Z.eqb_neq in Ec. rewrite Ec. cbn [negb]. reflexivity.
  - cbn [bind negb]. reflexivity.
Qed.

(* --- one call of read_msg ------------------------------------------------------ *)

Definition taken (x : rx) (s : list Z) (rr : rdres) : list Z :=
  match rr with
  | RdFail _ => []
  | RdBytes avail => if needs_read x then firstn (RXMAX - length s) avail else []
  end.

Inductive outcome (tbl : table) (st : rstat) (t : list Z) (r0 : Z) : rx -> rstat -> rmsg -> Prop :=
| oc_none : forall x', holds x' t -> rx_last x' = 0%nat -> (t = [] \/ incomplete t) ->
    outcome tbl st t r0 x' st (RetNone r0)
| oc_bad : forall x' p s, holds x' t -> wf_packet p -> t = encode p ++ s ->
    rx_last x' = length (encode p) -> ~ acceptable tbl p ->
    outcome tbl st t r0 x' (stat_bad st (length (encode p))) (RetNone 0)
| oc_msg : forall x' p s, holds x' t -> wf_packet p -> t = encode p ++ s ->
    rx_last x' = length (encode p) -> acceptable tbl p ->
    outcome tbl st t r0 x' (stat_ok st (length (encode p)) (p_seq p))
            (RetMsg (is_known tbl p) (info_of tbl p)).

Lemma drop_junk_bytes : forall s, bytes s -> bytes (drop_junk s).
Proof.
  induction s; simpl; intros; auto. destruct (is_stx a); auto. apply IHs. inversion H; auto.
Qed.

Lemma drop_junk_head : forall s, drop_junk s = [] \/ exists b t, drop_junk s = b :: t /\ marker b.
Proof.
  induction s; simpl; auto. destruct (is_stx a) eqn:E; auto.
  right. exists a, s. split; auto. apply is_stx_marker; auto.
Qed.

Lemma drop_junk_fix : forall s, s = [] \/ incomplete s -> drop_junk s = s.
Proof.
  intros s [-> | ((b & t & -> & Hm) & _)]; auto. simpl.
  apply is_stx_marker in Hm. rewrite Hm. reflexivity.
Qed.

Lemma bytes_skipn : forall n s, bytes s -> bytes (skipn n s).
Proof. intros. rewrite <- (firstn_skipn n s) in H. apply bytes_app in H. tauto. Qed.
Lemma bytes_firstn : forall n s, bytes s -> bytes (firstn n s).
Proof. intros. rewrite <- (firstn_skipn n s) in H. apply bytes_app in H. tauto. Qed.

Lemma acceptableb_true : forall tbl p, acceptableb tbl p = true <-> acceptable tbl p.
Proof. intros. unfold acceptableb. destruct (acceptable_dec tbl p); split; congruence. Qed.

Lemma sync_packet : forall tbl x2 s st, wf_table tbl -> holds x2 s -> rx_last x2 = 0%nat -> bytes s ->
  exists x' st' r,
    (let* x3 := rx_sync x2 in
     match x3 with
     | None => Ok (mkRx (rx_data x2) 0 (rx_last x2), st, RetNone 0)
     | Some x3 => rx_packet tbl x3 st
     end) = Ok (x', st', r) /\ outcome tbl st (drop_junk s) 0 x' st' r.
Proof.
  intros tbl x2 s st Ht Hh HL HB.
  destruct (rx_sync_holds _ _ Hh HL) as (o & E & Ho). rewrite E. cbn [bind].
  destruct o as [x3|].
  - destruct Ho as [H3 L3].
    pose proof (drop_junk_bytes _ HB) as HB3.
    destruct (drop_junk_head s) as [Z0 | (b & t & Eb & Hm)].
    + rewrite (rx_packet_incomplete tbl x3 (drop_junk s)); auto.
      do 3 eexists. split; [reflexivity|]. constructor; auto.
    + rewrite Eb in *. destruct (classify b t HB3 Hm) as [HI | (p & s' & Hp & Ep)].
      * rewrite (rx_packet_incomplete tbl x3 (b :: t)); auto.
        do 3 eexists. split; [reflexivity|]. constructor; auto.
      * rewrite Ep in H3. rewrite (rx_packet_complete tbl x3 p s' st Ht Hp H3).
        do 3 eexists. split; [reflexivity|].
        assert (HH : holds (mkRx (rx_data x3) (rx_len x3) (length (encode p))) (b :: t)).
        { rewrite Ep. destruct H3 as (tl & ? & ? & ?). exists tl. auto. }
        destruct (acceptableb tbl p) eqn:EA.
        -- apply acceptableb_true in EA. eapply oc_msg; eauto.
        -- eapply oc_bad; eauto. rewrite <- acceptableb_true. congruence.
  - do 3 eexists. split; [reflexivity|]. rewrite Ho. rewrite HL. constructor; auto.
    destruct Hh as (tail & Ed & El & En). exists (s ++ tail). simpl. repeat split; auto.
Qed.

Lemma read_msg_step : forall tbl x s st rr, wf_table tbl -> good x s ->
  match rr with RdBytes a => bytes a | RdFail _ => True end ->
  exists x' st' r,
    read_msg tbl x st rr = Ok (x', st', r) /\
    outcome tbl st (drop_junk (rest_of x s ++ taken x s rr))
      (match rr with RdFail r0 => if needs_read x then r0 else 0 | RdBytes _ => 0 end) x' st' r.
Proof.
  intros tbl x s st rr Ht (Hh & HL & HB & HI) Hr. unfold read_msg.
  destruct (rx_begin_holds x s Hh HL) as (x1 & E1 & H1 & L1). rewrite E1. cbn [bind].
  assert (HB1 : bytes (rest_of x s)) by (apply bytes_skipn; auto).
  unfold taken, needs_read. destruct (Nat.eqb_spec (rx_last x) 0) as [Z0|Z0].
  - assert (RS : rest_of x s = s) by (unfold rest_of; rewrite Z0; reflexivity).
    rewrite RS in *.
    assert (Ln : rx_len x1 = length s) by (destruct H1 as (?&?&?&?); auto).
    destruct rr as [avail|r0].
    + rewrite Ln. destruct (firstn (RXMAX - length s) avail) as [|g got] eqn:G.
      * cbn [bind]. do 3 eexists. split; [reflexivity|]. rewrite app_nil_r, drop_junk_fix by auto.
        constructor; auto.
      * destruct (rx_fill_holds x1 s avail H1) as (x2 & E2 & H2 & L2). rewrite E2. cbn [bind].
        rewrite Ln, G in H2. apply sync_packet; auto; try congruence.
        apply bytes_app. split; auto. rewrite <- G. apply bytes_firstn; auto.
    + cbn [bind]. do 3 eexists. split; [reflexivity|]. rewrite app_nil_r, drop_junk_fix by auto.
      constructor; auto.
  - cbn [bind].
    assert (T : match rr with RdBytes avail => @nil Z | RdFail _ => [] end = []) by (destruct rr; auto).
    rewrite T, app_nil_r.
    replace (match rr with RdBytes _ => 0 | RdFail _ => 0 end) with 0 by (destruct rr; auto).
    apply sync_packet; auto.
Qed.

Lemma outcome_good : forall tbl st t r0 x' st' r, bytes t ->
  outcome tbl st t r0 x' st' r -> good x' t.
Proof.
  intros tbl st t r0 x' st' r HB H. inversion H; subst; unfold good; repeat split; auto; try lia;
  match goal with
  | H : rx_last _ = length (encode ?p), Hw : wf_packet ?p |- _ =>
      pose proof (encode_length_bounds p Hw); rewrite ?app_length; try lia
  end.
Qed.
