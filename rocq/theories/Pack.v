(* The packets the loggers pack. *)
From Verif Require Import Base Mav SpecCrc CrcProofs SpecFrame Frame FrameProofs Names Sys FrameRefine SpecOwn.

Lemma strip_zeros_spec : forall l, exists k, l = repeat 0 k ++ strip_zeros l.
Proof.
  induction l as [|z l [k IH]].
  - exists 0%nat. reflexivity.
  - cbn [strip_zeros]. destruct z; try (exists 0%nat; reflexivity). exists (Datatypes.S k). cbn [repeat app]. f_equal. auto.
Qed.

Lemma repeat_snoc : forall k, repeat 0 k ++ [0] = repeat (0 : Z) (Datatypes.S k).
Proof. induction k; cbn; auto. f_equal. auto. Qed.
Lemma rev_repeat0 : forall k, rev (repeat (0 : Z) k) = repeat 0 k.
Proof. induction k; auto. cbn [repeat rev]. rewrite IHk. apply repeat_snoc. Qed.

Lemma trim_spec : forall p, p <> [] -> exists k, p = trim_payload p ++ repeat 0 k /\ (1 <= length (trim_payload p))%nat.
Proof.
  intros p N. unfold trim_payload. destruct (strip_zeros_spec (rev p)) as (k & E).
  assert (P : p = rev (strip_zeros (rev p)) ++ repeat 0 k).
  { rewrite <- (rev_involutive p) at 1. rewrite E at 1. rewrite rev_app_distr, rev_repeat0. reflexivity. }
  destruct (rev (strip_zeros (rev p))) as [|x q] eqn:Q.
  - destruct p as [|z p]; [congruence|]. destruct k; cbn [app repeat] in P; inversion P; subst.
    exists k. split; [reflexivity|]. cbn. lia.
  - exists k. split; auto. cbn. lia.
Qed.

Lemma strip_bytes : forall l, bytes l -> bytes (strip_zeros l) /\ (length (strip_zeros l) <= length l)%nat.
Proof.
  induction l as [|b l IH]; intros B; cbn [strip_zeros]; [split; auto|]. apply bytes_cons in B. destruct B as [B1 B2]. destruct (IH B2) as [I1 I2].
  destruct b; cbn [length]; split; auto; try lia; apply bytes_cons; auto.
Qed.
Lemma trim_bytes : forall l, bytes l -> bytes (trim_payload l) /\ (length (trim_payload l) <= length l)%nat.
Proof.
  intros l B. unfold trim_payload. assert (B' : bytes (rev l)). { unfold bytes in *. rewrite Forall_forall in *. intros x X. apply B. apply in_rev. auto. }
  destruct (strip_bytes _ B') as [S1 S2]. rewrite rev_length in S2. destruct (rev (strip_zeros (rev l))) as [|z r] eqn:E.
  - split; [apply bytes_firstn; auto|]. rewrite firstn_length. lia.
  - rewrite <- E, rev_length. split; auto. unfold bytes in *. rewrite Forall_forall in *. intros x X. apply S1. apply in_rev. auto.
Qed.
Lemma le16_bytes : forall z, bytes (le16 z).
Proof. intros. unfold le16. repeat (apply bytes_cons; split; [apply u8_range|]). constructor. Qed.
Lemma le32_bytes : forall z, bytes (le32 z).
Proof. intros. unfold le32. repeat (apply bytes_cons; split; [apply u8_range|]). constructor. Qed.

Lemma trim_nth : forall p k, nth k (trim_payload p) 0 = nth k p 0.
Proof.
  intros p k. destruct p as [|b r]; [destruct k; reflexivity|]. set (p := b :: r). destruct (trim_spec p ltac:(discriminate)) as (n & E & _). rewrite E at 2.
  destruct (Nat.lt_ge_cases k (length (trim_payload p))) as [L|L].
  - rewrite app_nth1; auto.
  - rewrite app_nth2 by auto. rewrite nth_overflow by auto. symmetry. apply nth_repeat.
Qed.

Lemma own_pack2 : forall seq i x at_ payload, In (i, x, at_) own_kinds -> bytes payload -> (length payload < 256)%nat ->
  exists p, encode p = pack2 seq i x payload /\ p_id p = i /\ own_packet p (nth at_ payload 0).
Proof.
  intros seq i x at_ payload I B L. destruct (trim_bytes _ B) as [T1 T2]. assert (NL : (length (trim_payload payload) < 256)%nat) by lia.
  assert (IR : 0 <= i < 16777216 /\ i / 65536 mod 256 = i / 65536 /\ is_byte x).
  { unfold is_byte. destruct I as [E|[E|[E|[]]]]; inversion E; subst; repeat split; try lia; reflexivity. }
  destruct IR as (I1 & I2 & I3).
  set (q := mkPacket (V2 0 0 []) (u8 seq) 2 0 i (trim_payload payload) 0 0).
  assert (BB : bytes (body q ++ [x])).
  { apply bytes_app. split; [|apply bytes_cons; split; [auto|constructor]]. unfold body, q. cbn [p_ver plen p_payload p_seq p_sys p_comp p_id].
    apply bytes_app. split; auto. repeat (apply bytes_cons; split; [first [apply u8_range|unfold is_byte, plen; cbn [p_payload]; lia|rewrite <- I2; apply u8_range]|]). constructor. }
  set (ck := crc_spec (body q ++ [x])). assert (CK : 0 <= ck < 65536) by (apply (run_range (bits (body q ++ [x])) 65535); lia).
  exists (mkPacket (V2 0 0 []) (u8 seq) 2 0 i (trim_payload payload) (ck mod 256) (ck / 256)). split; [|split; [reflexivity|]].
  - unfold pack2. rewrite I2. change ([Z.of_nat (length (trim_payload payload)); 0; 0; u8 seq; 2; 0; i mod 256; i / 256 mod 256; i / 65536] ++ trim_payload payload) with (body q).
    rewrite (crc_calculate_spec _ BB). fold ck. unfold encode. cbn [p_ver p_crc0 p_crc1]. reflexivity.
  - split; [|split; [reflexivity|split; [reflexivity|split; [reflexivity|]]]].
    + unfold wf_packet. cbn [p_ver p_seq p_sys p_comp p_id p_payload p_crc0 p_crc1]. split; [apply u8_range|]. unfold is_byte. split; [lia|]. split; [lia|].
      split; [apply Z.mod_pos_bound; lia|]. split. { split; [apply Z.div_pos; lia|apply Z.div_lt_upper_bound; lia]. }
      split; auto. split; auto. split; auto. split; [lia|]. split; [lia|]. split; [constructor|reflexivity].
    + exists x, at_. split; auto. split; [|apply trim_nth]. unfold crc_matches. cbn [p_crc0 p_crc1]. change (body (mkPacket (V2 0 0 []) (u8 seq) 2 0 i (trim_payload payload) (ck mod 256) (ck / 256))) with (body q). fold ck.
      rewrite (Z.div_mod ck 256) at 1 by lia. lia.
Qed.

