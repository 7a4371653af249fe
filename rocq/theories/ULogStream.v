(* ULog: what reaches the file. *)
From Verif Require Import Base Mav SpecFrame Frame FrameProofs Names NamesProofs Sys LogFile LogFileProofs ULog Loggers LogInv LogStep
  SpecLog SpecULog LogRun LogModes LogModes2 BinProofs ULogProofs.

(* the file is open, holds [d] and is positioned at its end *)
Record at_end (y : sys) (g : lg) (d : list Z) : Prop := mkAtEnd {
  ae_open : l_open g = true;
  ae_data : content y (l_name g) d;
  ae_off : l_off g = length d }.

Record keeps (y : sys) (g : lg) (y' : sys) (g' : lg) : Prop := mkKeeps {
  kp_name : l_name g' = l_name g;
  kp_mode : l_mode g' = l_mode g;
  kp_pos : (y_pos y <= y_pos y')%nat }.

Lemma keeps_refl : forall y g, keeps y g y g.
Proof. intros. split; auto. Qed.
Lemma keeps_trans : forall y g y1 g1 y2 g2, keeps y g y1 g1 -> keeps y1 g1 y2 g2 -> keeps y g y2 g2.
Proof. intros y g y1 g1 y2 g2 [] []. split; congruence || lia. Qed.

Lemma file_put_end : forall d bs, file_put d (length d) bs = d ++ bs.
Proof.
  intros. unfold file_put. rewrite firstn_app, firstn_all, Nat.sub_diag. cbn [firstn]. rewrite app_nil_r.
  rewrite skipn_all2 by lia. rewrite ?app_nil_r. rewrite ?Nat.sub_diag. cbn [repeat]. rewrite ?app_nil_r. reflexivity.
Qed.

Lemma write_end : forall v y g d bs r y' g', at_end y g d -> file_write v y g (l_off g) bs = (r, y', g') ->
  keeps y g y' g' /\ y_pos y' = Datatypes.S (y_pos y) /\
  ((v_orc v (y_pos y) < 0 /\ r = v_orc v (y_pos y) /\ at_end y' g' d) \/
   (0 <= v_orc v (y_pos y) /\ r = Z.min (v_orc v (y_pos y)) (Z.of_nat (length bs)) /\ at_end y' g' (d ++ firstn (Z.to_nat r) bs))).
Proof.
  intros v y g d bs r y' g' [O C F] H. unfold file_write, ask in H. rewrite O in H. set (q := v_orc v (y_pos y)) in *.
  destruct (Z.ltb_spec q 0).
  - pose proof (f_equal (fun t => fst (fst t)) H) as X1. pose proof (f_equal (fun t => snd (fst t)) H) as X2. pose proof (f_equal snd H) as X3.
    cbn [fst snd] in X1, X2, X3. subst r y' g'. split; [split; cbn; auto|]. split; [reflexivity|]. left. split; auto. split; auto. split; auto.
  - pose proof (f_equal (fun t => fst (fst t)) H) as X1. pose proof (f_equal (fun t => snd (fst t)) H) as X2. pose proof (f_equal snd H) as X3.
    cbn [fst snd] in X1, X2, X3. subst r y' g'. destruct C as (l & FS & C). cbn [set_pos y_fs]. rewrite FS.
    split; [split; cbn; auto|]. split; [reflexivity|]. right. split; auto. split; [lia|].
    rewrite Nat2Z.id. split; cbn [set_file l_open l_name l_off]; auto.
    + rewrite F, <- file_put_end. apply content_put; auto. exists l. split; auto.
    + rewrite app_length, firstn_length. lia.
Qed.

(* what is staged in memory and not in the file yet *)
Definition window (u : ulst) : list Z := firstn (Z.to_nat (u_len u)) (skipn (Z.to_nat (u_idx u)) (u_buf u)).
Definition staged (u : ulst) : list Z := firstn (Z.to_nat (u_plen u)) (u_part u) ++ window u.

Lemma window_length : forall u, ubuf_ok u -> length (window u) = Z.to_nat (u_len u).
Proof. intros u []. unfold window, UBUF in *. rewrite firstn_length, skipn_length. lia. Qed.

Lemma firstn_skipn_add : forall (l : list Z) a b, firstn (a + b) l = firstn a l ++ firstn b (skipn a l).
Proof. intros l a. revert l. induction a; intros l b; cbn; auto. destruct l; cbn; [rewrite firstn_nil; auto|]. f_equal. apply IHa. Qed.
Lemma skipn_skipn_add : forall (l : list Z) a b, skipn a (skipn b l) = skipn (b + a) l.
Proof. intros l a b. revert l. induction b; intros l; cbn; auto. destruct l; cbn; auto. rewrite skipn_nil. auto. Qed.

Lemma window_split : forall u n, ubuf_ok u -> 0 <= n <= u_len u ->
  window u = firstn (Z.to_nat n) (skipn (Z.to_nat (u_idx u)) (u_buf u)) ++ window (set_buf u (u_buf u) (u_len u - n) (u_idx u + n)).
Proof.
  intros u n B N. destruct B. unfold window. cbn [set_buf u_len u_idx u_buf].
  replace (Z.to_nat (u_len u)) with (Z.to_nat n + Z.to_nat (u_len u - n))%nat by lia.
  rewrite firstn_skipn_add, skipn_skipn_add. replace (Z.to_nat (u_idx u + n)) with (Z.to_nat (u_idx u) + Z.to_nat n)%nat by lia. reflexivity.
Qed.

(* ---- conservation: whatever the writes return ----------------------------------------------------- *)

Lemma flush_part_conserve : forall f v y g u d y' g' u' r, ubuf_ok u -> at_end y g d -> flush_part f v y g u = Ok (y', g', u', r) ->
  keeps y g y' g' /\ exists d', at_end y' g' d' /\ d' ++ staged u' = d ++ staged u.
Proof.
  induction f; intros v y g u d y' g' u' r B A H; cbn [flush_part] in H; destruct (Z.eqb_spec (u_plen u) 0) as [Z0|Z0]; try discriminate.
  1,2: inversion H; subst; split; [apply keeps_refl|]; exists d; auto.
  pose proof B as B'. destruct B as [B1 BB B2 B3 B4 B5 B6]. unfold UPART in *. rewrite slice_Ok in H by lia. cbn [bind skipn] in H.
  set (bs := firstn (Z.to_nat (u_plen u)) (u_part u)) in *.
  assert (LB : length bs = Z.to_nat (u_plen u)) by (unfold bs; rewrite firstn_length; lia).
  destruct (file_write v y g (l_off g) bs) as [[q y1] g1] eqn:FW.
  destruct (write_end _ _ _ _ _ _ _ _ A FW) as (K1 & P1 & OUT).
  destruct ((q =? 0) || (q =? - EAGAIN)) eqn:C1.
  { inversion H; subst. split; auto. exists d. split; auto. destruct OUT as [(_ & _ & A1)|(Q & R & A1)]; auto.
    assert (q = 0) by (unfold EAGAIN in C1; lia). subst q. rewrite H0 in A1. cbn [Z.to_nat firstn] in A1. rewrite app_nil_r in A1. auto. }
  destruct (Z.ltb_spec q 0).
  { inversion H; subst. split; auto. exists d. split; auto. destruct OUT as [(_ & _ & A1)|(Q & R & A1)]; auto. lia. }
  destruct OUT as [(Q & R & _)|(Q & R & A1)]; [lia|].
  rewrite u16_small in H by lia. rewrite memmove_Ok in H by lia. cbn [bind firstn app] in H.
  apply (IHf v y1 g1 _ (d ++ firstn (Z.to_nat q) bs)) in H; auto.
  - destruct H as (K & d' & A' & E). split; [eapply keeps_trans; eauto|]. exists d'. split; auto. rewrite E.
    rewrite <- app_assoc. f_equal. unfold staged, window. cbn [set_part u_plen u_part u_len u_idx u_buf]. rewrite app_assoc. f_equal.
    rewrite firstn_app, firstn_firstn. rewrite firstn_length, skipn_length.
    replace (Nat.min (Z.to_nat (u_plen u - q)) (Z.to_nat (u_plen u - q))) with (Z.to_nat (u_plen u - q)) by lia.
    replace (Z.to_nat (u_plen u - q) - Nat.min (Z.to_nat (u_plen u - q)) (length (u_part u) - Z.to_nat q))%nat with 0%nat by lia.
    cbn [firstn]. rewrite app_nil_r. unfold bs. rewrite firstn_firstn. replace (Nat.min (Z.to_nat q) (Z.to_nat (u_plen u))) with (Z.to_nat q) by lia.
    replace (Z.to_nat (u_plen u)) with (Z.to_nat q + Z.to_nat (u_plen u - q))%nat by lia. rewrite firstn_skipn_add. reflexivity.
  - split; cbn [set_part u_buf u_part u_len u_idx u_plen]; auto; try lia.
    rewrite app_length, firstn_length, !skipn_length. unfold UPART. lia.
Qed.

Lemma flush_msgs_conserve : forall f v y g u d y' g' u' ok, ubuf_ok u -> at_end y g d ->
  (forall k, (y_pos y <= k)%nat -> v_orc v k <= 0 \/ 1024 <= v_orc v k) ->
  flush_msgs f v y g u = Ok (y', g', u', ok) ->
  keeps y g y' g' /\ exists d', at_end y' g' d' /\ d' ++ staged u' = d ++ staged u.
Proof.
  induction f; intros v y g u d y' g' u' ok B A R H; cbn [flush_msgs] in H; destruct (negb ((3 <=? u_len u) && (u_plen u =? 0))) eqn:C0; try discriminate.
  1,2: inversion H; subst; split; [apply keeps_refl|]; exists d; auto.
  apply negb_false_iff, andb_prop in C0. destruct C0 as [C1 C2]. apply Z.leb_le in C1. apply Z.eqb_eq in C2.
  pose proof B as B'. destruct B as [B1 BB B2 B3 B4 B5 B6]. unfold UBUF, UPART in *. rewrite !rd_Ok in H by lia. cbn [bind] in H.
  set (full := u16 _) in *. pose proof (u16_range (nth (Z.to_nat (u_idx u)) (u_buf u) 0 + 256 * nth (Z.to_nat (u_idx u) + 1) (u_buf u) 0 + 3)) as FR. fold full in FR.
  clearbody full. destruct (Z.ltb_spec (u_len u) full). { inversion H; subst. split; [apply keeps_refl|]. exists d; auto. }
  rewrite slice_Ok in H by lia. cbn [bind] in H. set (bs := firstn _ _) in *. assert (LB : length bs = Z.to_nat full) by (unfold bs; rewrite firstn_length, skipn_length; lia).
  destruct (file_write v y g (l_off g) bs) as [[q y1] g1] eqn:FW.
  destruct (write_end _ _ _ _ _ _ _ _ A FW) as (K1 & P1 & OUT).
  assert (WS : window u = bs ++ window (set_buf u (u_buf u) (u_len u - full) (u_idx u + full))) by (apply window_split; auto; lia).
  destruct (Z.eqb_spec q full) as [RF|RF].
  - rewrite !u16_small in H by lia. destruct OUT as [(Q & RR & _)|(Q & RR & A1)]; [lia|].
    rewrite firstn_all2 in A1 by lia.
    apply (IHf v y1 g1 _ (d ++ bs)) in H; auto.
    + destruct H as (K & d' & A' & E). split; [eapply keeps_trans; eauto|]. exists d'. split; auto. rewrite E.
      unfold staged. cbn [set_buf u_plen u_part]. rewrite C2. cbn [Z.to_nat firstn app]. rewrite WS, app_assoc. reflexivity.
    + split; cbn [set_buf u_buf u_part u_len u_idx u_plen]; auto; lia.
    + intros k KK. apply R. lia.
  - destruct ((q =? 0) || (q =? - EAGAIN)) eqn:CC.
    { inversion H; subst. split; auto. exists d. split; auto. destruct OUT as [(_ & _ & A1)|(Q & RR & A1)]; auto.
      assert (q = 0) by (unfold EAGAIN in CC; lia). subst q. rewrite H1 in A1. cbn [Z.to_nat firstn] in A1. rewrite app_nil_r in A1. auto. }
    destruct (Z.ltb_spec q 0).
    { inversion H; subst. split; auto. exists d. split; auto. destruct OUT as [(_ & _ & A1)|(Q & RR & A1)]; auto. lia. }
    destruct OUT as [(Q & RR & _)|(Q & RR & A1)]; [lia|].
    specialize (R (y_pos y) ltac:(lia)). rewrite (u16_small (full - q)) in H by lia. change (Z.of_nat 1024) with 1024 in H.
    destruct (Z.ltb_spec 1024 (full - q)). { lia. }
    rewrite slice_Ok in H by lia. cbn [bind] in H. rewrite blit_Ok in H by (rewrite firstn_length, skipn_length; lia). cbn [bind] in H. rewrite !u16_small in H by lia.
    injection H as <- <- <- <-. split; auto. eexists. split; [exact A1|]. rewrite <- app_assoc. f_equal.
    unfold staged. cbn [set_buf set_part u_plen u_part u_buf u_len u_idx]. rewrite C2. cbn [Z.to_nat firstn app].
    cbn [Nat.add firstn app]. rewrite firstn_app, firstn_firstn, firstn_length, skipn_length.
    replace (Nat.min (Z.to_nat (full - q)) (Z.to_nat (full - q))) with (Z.to_nat (full - q)) by lia.
    replace (Z.to_nat (full - q) - Nat.min (Z.to_nat (full - q)) (length (u_buf u) - Z.to_nat (u_idx u + q)))%nat with 0%nat by lia.
    cbn [firstn]. rewrite app_nil_r. rewrite WS, app_assoc. f_equal.
    unfold bs. replace (Z.to_nat full) with (Z.to_nat q + Z.to_nat (full - q))%nat by lia. rewrite firstn_skipn_add, skipn_skipn_add.
    rewrite firstn_app, firstn_firstn, firstn_length, skipn_length.
    replace (Nat.min (Z.to_nat q) (Z.to_nat q)) with (Z.to_nat q) by lia.
    replace (Z.to_nat q - Nat.min (Z.to_nat q) (length (u_buf u) - Z.to_nat (u_idx u)))%nat with 0%nat by lia. cbn [firstn]. rewrite app_nil_r.
    f_equal. replace (Z.to_nat (u_idx u + q)) with (Z.to_nat (u_idx u) + Z.to_nat q)%nat by lia. reflexivity.
Qed.

Lemma ul_flush_conserve : forall f v y g u d y' g' u' ok, ubuf_ok u -> at_end y g d ->
  (forall k, (y_pos y <= k)%nat -> v_orc v k <= 0 \/ 1024 <= v_orc v k) ->
  ul_flush f v y g u = Ok (y', g', u', ok) ->
  keeps y g y' g' /\ exists d', at_end y' g' d' /\ d' ++ staged u' = d ++ staged u.
Proof.
  intros f v y g u d y' g' u' ok B A R H. unfold ul_flush in H.
  destruct (flush_part_safe f v y g u B) as [F|(y1 & g1 & u1 & r & E & B1 & _)]; [rewrite F in H; discriminate|].
  rewrite E in H. cbn [bind] in H. destruct (flush_part_conserve _ _ _ _ _ _ _ _ _ _ B A E) as (K1 & d1 & A1 & E1).
  destruct r. { inversion H; subst. split; auto. exists d1; auto. }
  assert (R1 : forall k, (y_pos y1 <= k)%nat -> v_orc v k <= 0 \/ 1024 <= v_orc v k).
  { intros k KK. apply R. destruct K1. lia. }
  destruct (flush_msgs_conserve _ _ _ _ _ d1 _ _ _ _ B1 A1 R1 H) as (K2 & d2 & A2 & E2).
  split; [eapply keeps_trans; eauto|]. exists d2. split; auto. congruence.
Qed.

(* ---- adding the data of one message ------------------------------------------------------------------ *)

Lemma window_append : forall (buf bs : list Z) i n, (i + n + length bs <= length buf)%nat ->
  firstn (n + length bs) (skipn i (firstn (i + n) buf ++ bs ++ skipn (i + n + length bs) buf)) = firstn n (skipn i buf) ++ bs.
Proof.
  intros buf bs i n L. rewrite (firstn_skipn_add buf i n), <- app_assoc.
  rewrite skipn_app, firstn_length. rewrite skipn_all2 by (rewrite firstn_length; lia).
  replace (i - Nat.min i (length buf))%nat with 0%nat by lia. cbn [app skipn].
  rewrite app_assoc, firstn_app. rewrite firstn_all2 by (rewrite app_length, firstn_length, skipn_length; lia).
  rewrite app_length, firstn_length, skipn_length.
  replace (n + length bs - (Nat.min n (length buf - i) + length bs))%nat with 0%nat by lia. cbn [firstn]. rewrite app_nil_r. reflexivity.
Qed.

Lemma ul_data_append : forall f v y g u mm b, ul_inv u -> u_hdr u = false -> bytes mm -> (b + 6 <= length mm)%nat ->
  let len := nth (b + 4) mm 0 in let fmo := nth (b + 5) mm 0 in let begin := if u_first u then fmo else 0 in
  (b + 6 + Z.to_nat len <= length mm)%nat -> u_len u + len <= 2048 -> (u_first u = true -> fmo = 255 -> False) -> begin <= len -> len <> 0 ->
  exists u4 mm4, ul_data f v y g u mm b false = (let* (y, g, u, _) := ul_flush f v y g u4 in Ok (y, g, u, mm4)) /\
    ubuf_ok u4 /\ u_hdr u4 = false /\ u_first u4 = false /\ u_exp u4 = u_exp u /\ u_plen u4 = u_plen u /\ u_part u4 = u_part u /\
    window u4 = window u ++ skipn (Z.to_nat begin) (firstn (Z.to_nat len) (skipn (b + 6) mm)).
Proof.
  intros f v y g u mm b [B X FI HI] HD BM L6 len fmo begin LL ROOM NB BL LN. unfold ul_data. cbn [bind].
  rewrite !rd_Ok by lia. cbn [bind]. fold len fmo. change (Z.of_nat UBUF) with 2048. rewrite (proj2 (Z.ltb_ge _ _) ROOM).
  assert (LB : is_byte len) by (apply nth_byte; auto). assert (FB : is_byte fmo) by (apply nth_byte; auto). unfold is_byte in LB, FB.
  assert (S3 : exists u3, (if 2048 <? u_idx u + u_len u + len then
      let* nb := memmove (u_buf u) 0 (Z.to_nat (u_idx u)) (Z.to_nat (u_len u)) in Ok (set_buf u nb (u_len u) 0) else Ok u) = Ok u3 /\
      ubuf_ok u3 /\ u_hdr u3 = false /\ u_first u3 = u_first u /\ u_exp u3 = u_exp u /\ u_plen u3 = u_plen u /\ u_part u3 = u_part u /\ u_len u3 = u_len u /\
      window u3 = window u /\ u_idx u3 + u_len u3 + len <= 2048).
  { destruct (Z.ltb_spec 2048 (u_idx u + u_len u + len)).
    - destruct B as [K1 KB K2 K3 K4 K5 K6]. unfold UBUF in K1. rewrite memmove_Ok by lia. cbn [bind]. eexists. split; [reflexivity|].
      cbn [set_buf u_exp u_hdr u_first u_buf u_len u_idx u_plen u_part]. repeat split; cbn [set_buf u_exp u_hdr u_first u_buf u_len u_idx u_plen u_part]; auto; try lia.
      + cbn [firstn app]. rewrite app_length, firstn_length, !skipn_length. unfold UBUF. lia.
      + apply Forall_app. split; [apply bytes_firstn; auto|]. apply Forall_app. split; [apply bytes_firstn, bytes_skipn; auto|apply bytes_skipn; auto].
      + unfold window. cbn [set_buf u_exp u_hdr u_first u_buf u_len u_idx u_plen u_part Z.to_nat skipn firstn app].
        rewrite firstn_app, firstn_firstn, firstn_length, skipn_length.
        replace (Nat.min (Z.to_nat (u_len u)) (Z.to_nat (u_len u))) with (Z.to_nat (u_len u)) by lia.
        replace (Z.to_nat (u_len u) - Nat.min (Z.to_nat (u_len u)) (length (u_buf u) - Z.to_nat (u_idx u)))%nat with 0%nat by lia.
        cbn [firstn]. apply app_nil_r.
    - exists u. split; auto. repeat (split; auto). }
  destruct S3 as (u3 & E3 & B3 & HD3 & F3 & X3 & P3 & PA3 & LN3 & W3 & R3). rewrite E3. cbn [bind].
  assert (CF : u_first u3 && (fmo =? 255) = false).
  { rewrite F3. destruct (u_first u); cbn; auto. apply Z.eqb_neq. intros E. apply NB; auto. }
  rewrite CF, F3. fold begin. rewrite (proj2 (Z.eqb_neq _ _) LN).
  assert (BG : 0 <= begin) by (unfold begin; destruct (u_first u); lia).
  rewrite u8_small by lia. cbn [length app]. rewrite blit_Ok by (cbn [length]; lia). cbn [bind]. set (mm' := firstn (b + 4) mm ++ _).
  assert (LM : length mm' = length mm). { unfold mm'. rewrite !app_length, firstn_length, skipn_length. cbn [length]. lia. }
  rewrite slice_Ok by lia. cbn [bind]. set (bs := firstn _ (skipn _ mm')).
  assert (EB : bs = skipn (Z.to_nat begin) (firstn (Z.to_nat len) (skipn (b + 6) mm))).
  { unfold bs. rewrite skipn_firstn_comm, skipn_skipn_add. replace (Z.to_nat len - Z.to_nat begin)%nat with (Z.to_nat (len - begin)) by lia. f_equal.
    unfold mm'. rewrite skipn_app, firstn_length. rewrite skipn_all2 by (rewrite firstn_length; lia). cbn [app length].
    replace (b + 6 + Z.to_nat begin - Nat.min (b + 4) (length mm))%nat with (Datatypes.S (1 + Z.to_nat begin))%nat by lia. cbn [skipn Nat.add].
    change (match skipn (b + 4 + 1) mm with [] => [] | _ :: l => skipn (Z.to_nat begin) l end) with (skipn (1 + Z.to_nat begin) (skipn (b + 4 + 1) mm)).
    rewrite skipn_skipn_add. f_equal. lia. }
  assert (LBS : length bs = Z.to_nat (len - begin)) by (unfold bs; rewrite firstn_length, skipn_length; lia).
  assert (BBS : bytes bs) by (rewrite EB; apply bytes_skipn, bytes_firstn, bytes_skipn; auto).
  cbn [set_wait u_buf u_idx u_len].
  destruct B3 as [K1 KB K2 K3 K4 K5 K6]. unfold UBUF in K1. rewrite blit_Ok by lia. cbn [bind]. rewrite u16_small by lia.
  eexists. exists mm'. split; [reflexivity|].
  split; [|cbn [set_wait set_buf u_exp u_hdr u_first u_buf u_len u_idx u_plen u_part]; repeat (split; auto)].
  - split; cbn [set_wait set_buf u_exp u_hdr u_first u_buf u_len u_idx u_plen u_part]; auto; try lia.
    + rewrite !app_length, firstn_length, skipn_length. unfold UBUF. lia.
    + apply Forall_app. split; [apply bytes_firstn; auto|]. apply Forall_app. split; auto. apply bytes_skipn; auto.
  - rewrite <- EB, <- W3. unfold window. cbn [set_wait set_buf u_exp u_hdr u_first u_buf u_len u_idx u_plen u_part].
    replace (Z.to_nat (u_len u3 + (len - begin))) with (Z.to_nat (u_len u3) + length bs)%nat by lia.
    replace (Z.to_nat (u_idx u3 + u_len u3)) with (Z.to_nat (u_idx u3) + Z.to_nat (u_len u3))%nat by lia.
    apply window_append. lia.
Qed.

(* ---- complete writes ------------------------------------------------------------------------------------ *)

Lemma nth_win : forall u i, ubuf_ok u -> (i < Z.to_nat (u_len u))%nat -> nth (Z.to_nat (u_idx u) + i) (u_buf u) 0 = nth i (window u) 0.
Proof. intros u i B L. unfold window. rewrite nth_firstn_lt by lia. rewrite nth_skipn0. reflexivity. Qed.

Lemma message_bytes : forall m, small_message m -> exists lo hi ty bd, m = lo :: hi :: ty :: bd /\ is_byte lo /\ is_byte hi /\
  u16 (lo + 256 * hi + 3) = Z.of_nat (length m) /\ 3 <= Z.of_nat (length m) <= 1799.
Proof.
  intros m ((lo & hi & ty & bd & E & L & H & S) & M). exists lo, hi, ty, bd. split; auto. split; auto. split; auto.
  subst m. cbn [length] in *. unfold is_byte in *. split; [|lia]. rewrite u16_small; lia.
Qed.

Lemma flush_msgs_complete : forall ms f v y g u d r, ubuf_ok u -> u_plen u = 0 -> window u = concat ms ++ r -> Forall small_message ms ->
  (exists t, t <> [] /\ small_message (r ++ t)) -> at_end y g d -> (forall k, (y_pos y <= k)%nat -> 2048 <= v_orc v k) -> (length ms < f)%nat ->
  exists y' g' u', flush_msgs f v y g u = Ok (y', g', u', true) /\ keeps y g y' g' /\ at_end y' g' (d ++ concat ms) /\ window u' = r /\ u_plen u' = 0.
Proof.
  induction ms as [|m ms IH]; intros f v y g u d r B P W SM (t & TN & ST) A R F; destruct f as [|f]; try lia; cbn [length] in F.
  - cbn [concat app] in W. cbn [flush_msgs]. rewrite P. rewrite app_nil_r.
    assert (DONE : exists y' g' u', Ok (y, g, u, true) = Ok (y', g', u', true) /\ keeps y g y' g' /\ at_end y' g' d /\ window u' = r /\ u_plen u' = 0).
    { exists y, g, u. repeat (split; auto). }
    destruct (Z.leb_spec 3 (u_len u)) as [L3|L3]; cbn [andb negb Z.eqb]; auto.
    destruct (message_bytes _ ST) as (lo & hi & ty & bd & EM & BL & BH & SZ & _).
    pose proof (window_length u B) as WL. rewrite W in WL.
    destruct r as [|a [|b [|c r]]]; cbn [length] in WL; try lia. cbn [app] in EM. inversion EM; subst a b c.
    pose proof (nth_win u 0 B ltac:(lia)) as N0. pose proof (nth_win u 1 B ltac:(lia)) as N1. rewrite W in N0, N1. cbn [nth] in N0, N1. rewrite Nat.add_0_r in N0.
    destruct B as [B1 BB B2 B3 B4 B5 B6]. unfold UBUF in B1. rewrite !rd_Ok by lia. cbn [bind]. rewrite N0, N1, SZ.
    rewrite (proj2 (Z.ltb_lt _ _)); auto. cbn [app length] in *. rewrite app_length. destruct t; [congruence|]. cbn [length]. lia.
  - cbn [concat] in W. rewrite <- app_assoc in W. inversion SM as [|? ? SM1 SM2]; subst.
    destruct (message_bytes _ SM1) as (lo & hi & ty & bd & EM & BL & BH & SZ & SB). pose proof (window_length u B) as WL. pose proof WL as WL'.
    rewrite W in WL. rewrite app_length in WL. cbn [flush_msgs]. rewrite P. rewrite (proj2 (Z.leb_le 3 (u_len u))) by lia. cbn [andb negb Z.eqb].
    pose proof (nth_win u 0 B ltac:(lia)) as N0. pose proof (nth_win u 1 B ltac:(lia)) as N1. rewrite W, EM in N0, N1. cbn [nth app] in N0, N1. rewrite Nat.add_0_r in N0.
    pose proof B as B'. destruct B as [B1 BB B2 B3 B4 B5 B6]. unfold UBUF in B1. rewrite !rd_Ok by lia. cbn [bind]. rewrite N0, N1, SZ.
    rewrite (proj2 (Z.ltb_ge _ _)) by lia. rewrite slice_Ok by lia. cbn [bind].
    pose proof (window_split u (Z.of_nat (length m)) B' ltac:(lia)) as WS. set (bs := firstn _ _) in *.
    assert (LB : length bs = length m) by (unfold bs; rewrite firstn_length, skipn_length; lia).
    assert (EB : bs = m /\ window (set_buf u (u_buf u) (u_len u - Z.of_nat (length m)) (u_idx u + Z.of_nat (length m))) = concat ms ++ r).
    { rewrite W in WS. pose proof (f_equal (firstn (length m)) WS) as E1. pose proof (f_equal (skipn (length m)) WS) as E2.
      rewrite !firstn_app, Nat.sub_diag, LB, Nat.sub_diag in E1. cbn [firstn] in E1. rewrite !app_nil_r, !firstn_all2 in E1 by lia.
      split; [symmetry; exact E1|]. rewrite <- E1 in WS. apply app_inv_head in WS. symmetry. exact WS. }
    destruct EB as [EB WR]. clear WS. rewrite EB. clear EB LB bs.
    destruct (file_write v y g (l_off g) m) as [[q y1] g1] eqn:FW.
    destruct (write_end _ _ _ _ _ _ _ _ A FW) as (K1 & P1 & OUT). pose proof (R (y_pos y) ltac:(lia)).
    destruct OUT as [(Q & _)|(Q & RR & A1)]; [lia|]. assert (QF : q = Z.of_nat (length m)) by lia. clear RR. subst q. rewrite Z.eqb_refl.
    rewrite Nat2Z.id, firstn_all in A1. rewrite !u16_small by lia.
    destruct (IH f v y1 g1 (set_buf u (u_buf u) (u_len u - Z.of_nat (length m)) (u_idx u + Z.of_nat (length m))) (d ++ m) r) as (y2 & g2 & u2 & E & K & A2 & W2 & P2); auto.
    + split; cbn [set_buf u_buf u_part u_len u_idx u_plen]; auto; lia.
    + exists t. auto.
    + intros k KK. apply R. lia.
    + lia.
    + exists y2, g2, u2. split; auto. split; [eapply keeps_trans; eauto|]. cbn [concat]. rewrite app_assoc. auto.
Qed.

Lemma flush_part_complete : forall f v y g u d, ubuf_ok u -> at_end y g d -> (forall k, (y_pos y <= k)%nat -> 2048 <= v_orc v k) -> (0 < f)%nat ->
  exists y' g' u', flush_part f v y g u = Ok (y', g', u', None) /\ keeps y g y' g' /\ at_end y' g' (d ++ firstn (Z.to_nat (u_plen u)) (u_part u)) /\
    u_plen u' = 0 /\ window u' = window u.
Proof.
  intros f v y g u d B A R F. destruct f; [lia|]. cbn [flush_part]. destruct (Z.eqb_spec (u_plen u) 0) as [Z0|Z0].
  - exists y, g, u. rewrite Z0. cbn [Z.to_nat firstn]. rewrite app_nil_r. split; [reflexivity|]. split; [apply keeps_refl|]. auto.
  - destruct B as [B1 BB B2 B3 B4 B5 B6]. unfold UPART in *. rewrite slice_Ok by lia. cbn [bind skipn].
    set (bs := firstn (Z.to_nat (u_plen u)) (u_part u)).
    assert (LB : length bs = Z.to_nat (u_plen u)) by (unfold bs; rewrite firstn_length; lia).
    destruct (file_write v y g (l_off g) bs) as [[q y1] g1] eqn:FW.
    destruct (write_end _ _ _ _ _ _ _ _ A FW) as (K1 & P1 & OUT). pose proof (R (y_pos y) ltac:(lia)).
    destruct OUT as [(Q & _)|(Q & RR & A1)]; [lia|]. assert (QF : q = u_plen u) by lia. clear RR. subst q.
    rewrite <- LB, firstn_all in A1. unfold EAGAIN. destruct (Z.eqb_spec (u_plen u) 0); [lia|]. destruct (Z.eqb_spec (u_plen u) (-(11))); [lia|].
    cbn [orb]. destruct (Z.ltb_spec (u_plen u) 0); [lia|]. rewrite u16_small by lia. rewrite Z.sub_diag. rewrite memmove_Ok by (cbn; lia). cbn [bind Z.to_nat].
    set (u1 := set_part u _ 0). exists y1, g1, u1. split; [destruct f; reflexivity|]. split; auto.
Qed.

Lemma ul_flush_complete : forall ms f v y g u d r, ubuf_ok u -> window u = concat ms ++ r -> Forall small_message ms ->
  (exists t, t <> [] /\ small_message (r ++ t)) -> at_end y g d -> (forall k, (y_pos y <= k)%nat -> 2048 <= v_orc v k) -> (700 <= f)%nat ->
  exists y' g' u', ul_flush f v y g u = Ok (y', g', u', true) /\ keeps y g y' g' /\
    at_end y' g' (d ++ firstn (Z.to_nat (u_plen u)) (u_part u) ++ concat ms) /\ window u' = r /\ u_plen u' = 0.
Proof.
  intros ms f v y g u d r B W SM ST A R F. unfold ul_flush.
  destruct (flush_part_complete f v y g u d B A R ltac:(lia)) as (y1 & g1 & u1 & E1 & K1 & A1 & P1 & W1).
  destruct (flush_part_safe f v y g u B) as [X|(y1' & g1' & u1' & o & E1' & B1 & _)]; [congruence|].
  rewrite E1 in E1'. inversion E1'; subst y1' g1' u1' o. rewrite E1. cbn [bind].
  assert (LM : (length ms < f)%nat).
  { assert (L3 : (3 * length ms <= length (concat ms))%nat).
    { clear - SM. induction SM; cbn [length concat]; auto. rewrite app_length. destruct (message_bytes _ H) as (? & ? & ? & ? & _ & _ & _ & _ & ?). lia. }
    pose proof (window_length u B) as WL. rewrite W, app_length in WL. destruct B. lia. }
  destruct (flush_msgs_complete ms f v y1 g1 u1 (d ++ firstn (Z.to_nat (u_plen u)) (u_part u)) r) as (y2 & g2 & u2 & E2 & K2 & A2 & W2 & P2); auto.
  - congruence.
  - intros k KK. apply R. destruct K1. lia.
  - exists y2, g2, u2. split; auto. split; [eapply keeps_trans; eauto|]. rewrite app_assoc. auto.
Qed.

(* ---- cutting streams into messages ---------------------------------------------------------------------- *)

Lemma message_prefix : forall m m' a b, small_message m -> small_message m' -> m ++ a = m' ++ b -> m = m' /\ a = b.
Proof.
  intros m m' a b S S' E. destruct (message_bytes _ S) as (lo & hi & ty & bd & E1 & _ & _ & Z1 & _).
  destruct (message_bytes _ S') as (lo' & hi' & ty' & bd' & E1' & _ & _ & Z1' & _).
  assert (L : length m = length m').
  { rewrite E1, E1' in E. cbn [app] in E. inversion E. subst lo' hi'. lia. }
  apply (f_equal (firstn (length m))) in E as E2. rewrite firstn_app, firstn_all, Nat.sub_diag in E2. cbn [firstn] in E2. rewrite app_nil_r in E2.
  rewrite L, firstn_app, firstn_all, Nat.sub_diag in E2. cbn [firstn] in E2. rewrite app_nil_r in E2. rewrite <- E2 in E. apply app_inv_head in E. auto.
Qed.

Lemma stream_cancel1 : forall m y ms r, small_message m -> ulog_stream (m ++ y) ms r -> exists ms2, ms = m :: ms2 /\ ulog_stream y ms2 r.
Proof.
  intros m y ms r S (E & F & t & TN & ST). destruct ms as [|m' ms2].
  - cbn [concat app] in E. subst r. assert (X : m ++ (y ++ t) = ((m ++ y) ++ t) ++ []) by (rewrite app_nil_r, app_assoc; reflexivity).
    destruct (message_prefix _ _ _ _ S ST X) as [_ N]. apply app_eq_nil in N. destruct N. congruence.
  - cbn [concat] in E. rewrite <- app_assoc in E. inversion F; subst. destruct (message_prefix _ _ _ _ S H1 E) as [<- E2].
    exists ms2. split; auto. split; auto. split; auto. exists t. auto.
Qed.

Lemma stream_cancel : forall ms0 y ms r, Forall small_message ms0 -> ulog_stream (concat ms0 ++ y) ms r -> exists ms2, ms = ms0 ++ ms2 /\ ulog_stream y ms2 r.
Proof.
  induction ms0 as [|m ms0 IH]; intros y ms r F S. { exists ms. auto. }
  inversion F; subst. cbn [concat] in S. rewrite <- app_assoc in S. destruct (stream_cancel1 _ _ _ _ H1 S) as (ms2 & -> & S2).
  destruct (IH _ _ _ H2 S2) as (ms3 & -> & S3). exists ms3. auto.
Qed.

Lemma stream_extend : forall cur ms r x ms' r', ulog_stream cur ms r -> ulog_stream (cur ++ x) ms' r' ->
  exists ms2, ms' = ms ++ ms2 /\ ulog_stream (r ++ x) ms2 r'.
Proof.
  intros cur ms r x ms' r' (E & F & T) S. subst cur. rewrite <- app_assoc in S. apply stream_cancel in S; auto.
Qed.

Lemma stream_nil : ulog_stream [] [] [].
Proof.
  split; auto. split; auto. exists [0; 0; 0]. split; [discriminate|]. split; [|cbn; lia]. exists 0, 0, 0, []. unfold is_byte. cbn. repeat split; lia.
Qed.

Definition streamable (s : list Z) : Prop := exists ms r, ulog_stream s ms r.

(* a prefix of a stream is a stream *)
Lemma prefix_streamable : forall b a ms r, ulog_stream (a ++ b) ms r -> streamable a.
Proof.
  intros b a ms. revert a. induction ms as [|m ms IH]; intros a r (E & F & t & TN & ST).
  - cbn [concat app] in E. exists [], a. split; auto. split; auto. exists (b ++ t). split; [destruct b; cbn; congruence|]. rewrite app_assoc, E. auto.
  - cbn [concat] in E. rewrite <- app_assoc in E. inversion F; subst. destruct (le_lt_dec (length m) (length a)) as [L|L].
    + assert (A : exists a2, a = m ++ a2).
      { exists (skipn (length m) a). apply (f_equal (firstn (length m))) in E. rewrite !firstn_app, Nat.sub_diag, firstn_all in E. cbn [firstn] in E.
        rewrite app_nil_r in E. replace (length m - length a)%nat with 0%nat in E by lia. cbn [firstn] in E. rewrite app_nil_r in E. rewrite <- E at 1. symmetry. apply firstn_skipn. }
      destruct A as [a2 ->]. rewrite <- app_assoc in E. apply app_inv_head in E. destruct (IH a2 r) as (ms2 & r2 & E2 & F2 & T2).
      { split; auto. split; auto. exists t. auto. }
      exists (m :: ms2), r2. split; [cbn [concat]; rewrite E2, app_assoc; auto|]. split; auto.
    + exists [], a. split; auto. split; auto. exists (skipn (length a) m). split.
      * intros N. apply (f_equal (@length Z)) in N. rewrite skipn_length in N. cbn in N. lia.
      * apply (f_equal (firstn (length a))) in E. rewrite !firstn_app, Nat.sub_diag, firstn_all in E. cbn [firstn] in E. rewrite app_nil_r in E.
        replace (length a - length m)%nat with 0%nat in E by lia. cbn [firstn] in E. rewrite app_nil_r in E. rewrite E at 1. rewrite firstn_skipn. auto.
Qed.

(* ---- one packet ------------------------------------------------------------------------------------------- *)

(* the message fields of [p] lie at offset [b] of [mm] *)
Definition holds (mm : list Z) (b : nat) (p : packet) : Prop :=
  bytes mm /\ (b + 255 <= length mm)%nat /\ firstn 255 (skipn b mm) = ul_fields p.

Lemma holds_nth : forall mm b p i, holds mm b p -> (i < 255)%nat -> nth (b + i) mm 0 = nth i (ul_fields p) 0.
Proof. intros mm b p i (_ & _ & E) L. rewrite <- E, nth_firstn_lt by auto. rewrite nth_skipn0. auto. Qed.

Lemma holds_seq : forall mm b p, holds mm b p -> nth b mm 0 + 256 * nth (b + 1) mm 0 = ul_seq p.
Proof.
  intros mm b p H. unfold ul_seq, field16. rewrite <- (holds_nth mm b p 0 H), <- (holds_nth mm b p (0+1) H) by lia.
  rewrite Nat.add_0_r. cbn [Nat.add]. reflexivity.
Qed.

Lemma holds_bytes : forall mm b p, holds mm b p -> 0 <= ul_size p <= 249 -> firstn (Z.to_nat (ul_size p)) (skipn (b + 6) mm) = ul_bytes p.
Proof.
  intros mm b p (_ & L & E) S. unfold ul_bytes. rewrite <- E. rewrite skipn_firstn_comm, firstn_firstn, skipn_skipn_add. f_equal. lia.
Qed.

Lemma ul_fields_bytes : forall p, wf_packet p -> bytes (ul_fields p).
Proof.
  intros p W. unfold ul_fields, restored. apply bytes_firstn. apply Forall_app. split; [apply W|].
  generalize 255%nat as k. induction k; cbn; constructor; auto. unfold is_byte; lia.
Qed.

Lemma ul_bytes_length : forall p, ul_size p <= 249 -> length (ul_bytes p) = Z.to_nat (ul_size p).
Proof. intros p L. unfold ul_bytes. rewrite firstn_length, skipn_length. unfold ul_fields. rewrite restored_length. lia. Qed.

Lemma seq_range : forall p, wf_packet p -> 0 <= ul_seq p < 65536.
Proof.
  intros p W. pose proof (ul_fields_bytes p W) as B. unfold ul_seq, field16.
  pose proof (nth_byte (ul_fields p) 0 B). pose proof (nth_byte (ul_fields p) (0+1) B). unfold is_byte in *. lia.
Qed.

Lemma seq_cases : forall u s, 0 <= u_exp u < 65536 -> 0 <= s < 65536 -> let a := ahead (u_exp u) s in a <> 32768 -> a <> 32769 ->
  logging_seq u s = if a =? 0 then Some (set_exp u (after s), false) else if a <? 32768 then Some (set_exp u (after s), true) else None.
Proof.
  intros u s X S a N1 N2. unfold logging_seq. unfold a, ahead in *. clear a. unfold after.
  destruct (Z.eqb_spec (u_exp u) s) as [E|E].
  - subst s. rewrite Z.sub_diag. cbn [Z.modulo Z.eqb Z.div_eucl]. reflexivity.
  - destruct (Z.eqb_spec ((s - u_exp u) mod 65536) 0). { exfalso. Z.div_mod_to_equations. lia. }
    destruct (Z.ltb_spec (u_exp u) s).
    + rewrite u16_small by lia. destruct (Z.leb_spec (s - u_exp u) 32767); destruct (Z.ltb_spec ((s - u_exp u) mod 65536) 32768); auto; exfalso; Z.div_mod_to_equations; lia.
    + rewrite u16_small by lia. destruct (Z.leb_spec 32767 (u_exp u - s)); destruct (Z.ltb_spec ((s - u_exp u) mod 65536) 32768); auto; exfalso; Z.div_mod_to_equations; lia.
Qed.

(* the logger after a run [cur] of which [ms] is in the file, behind [base] *)
Record strm (y : sys) (g : lg) (u : ulst) (base : list Z) (cur : list Z) (ms : list (list Z)) (r : list Z) (exp : Z) (lost : bool) : Prop := mkStrm {
  st_inv : ul_inv u;
  st_hdr : u_hdr u = false;
  st_end : at_end y g (base ++ concat ms);
  st_win : window u = r;
  st_plen : u_plen u = 0;
  st_exp : u_exp u = exp;
  st_lost : u_first u = lost;
  st_cut : ulog_stream cur ms r;
  st_nil : lost = true -> cur = [] }.

Lemma stream_short : forall s ms r, ulog_stream s ms r -> (length r <= 1798)%nat.
Proof.
  intros s ms r (_ & _ & t & TN & (_ & L)). rewrite app_length in L. destruct t; [congruence|]. cbn [length] in L. lia.
Qed.

Lemma flush_flags : forall f v y g u y' g' u' ok, ubuf_ok u -> ul_flush f v y g u = Ok (y', g', u', ok) ->
  ubuf_ok u' /\ u_exp u' = u_exp u /\ u_hdr u' = u_hdr u /\ u_first u' = u_first u.
Proof.
  intros f v y g u y' g' u' ok B H. destruct (ul_flush_safe f v y g u B) as [F|(y1 & g1 & u1 & o1 & E & B1 & X & HH & FF & _)]; [congruence|].
  rewrite E in H. inversion H; subst. auto.
Qed.

(* data that is appended to the run *)
Lemma data_append_step : forall f v y g u mm b p base cur ms r x ms2 r2, ul_inv u -> u_hdr u = false -> holds mm b p -> 0 <= ul_size p <= 249 ->
  (u_first u = true -> ul_offset p <= ul_size p) -> (u_first u = true -> ul_offset p <> 255) ->
  x = skipn (Z.to_nat (if u_first u then ul_offset p else 0)) (ul_bytes p) -> window u = r -> u_plen u = 0 -> at_end y g (base ++ concat ms) ->
  ulog_stream cur ms r -> ulog_stream (cur ++ x) (ms ++ ms2) r2 -> ulog_stream (r ++ x) ms2 r2 ->
  (forall k, (y_pos y <= k)%nat -> 2048 <= v_orc v k) -> (700 <= f)%nat ->
  exists y' g' u' mm', ul_data f v y g u mm b false = Ok (y', g', u', mm') /\ keeps y g y' g' /\
    exists ms' r', strm y' g' u' base (cur ++ x) ms' r' (u_exp u) false.
Proof.
  intros f v y g u mm b p base cur ms r x ms2 r2 I HD HO SZ OF NB EX W P A S1 S2 S3 R F.
  pose proof (holds_nth mm b p 4 HO ltac:(lia)) as N4. pose proof (holds_nth mm b p 5 HO ltac:(lia)) as N5. fold (ul_size p) in N4. fold (ul_offset p) in N5.
  pose proof HO as (BM & LM & HE).
  pose proof (stream_short _ _ _ S1) as RS. pose proof (window_length u (ui_buf u I)) as WL. rewrite W in WL.
  destruct (Z.eq_dec (ul_size p) 0) as [Z0|Z0].
  - (* no data *)
    assert (XN : x = []). { rewrite EX. unfold ul_bytes. rewrite Z0. cbn [Z.to_nat firstn]. apply skipn_nil. }
    unfold ul_data. cbn [bind]. rewrite !rd_Ok by lia. cbn [bind]. rewrite N4, N5, Z0. change (Z.of_nat UBUF) with 2048.
    destruct (ui_buf u I) as [K1 KB K2 K3 K4 K5 K6]. rewrite (proj2 (Z.ltb_ge 2048 (u_len u + 0))) by lia. rewrite (proj2 (Z.ltb_ge 2048 (u_idx u + u_len u + 0))) by lia. cbn [bind].
    assert (CF : u_first u && (ul_offset p =? 255) = false).
    { destruct (u_first u); cbn; auto. apply Z.eqb_neq. auto. }
    rewrite CF. cbn [Z.eqb]. eexists _, _, _, _. split; [reflexivity|]. split; [apply keeps_refl|]. exists ms, r.
    rewrite XN, app_nil_r. split; cbn [set_wait u_hdr u_plen u_exp u_first]; auto; try discriminate.
    destruct I as [B X FI HI]. split; cbn [set_wait set_buf u_exp u_hdr u_first u_buf u_len u_idx u_plen u_part]; auto; try discriminate.
    destruct B; split; cbn [set_wait set_buf u_exp u_hdr u_first u_buf u_len u_idx u_plen u_part]; auto.
  - destruct (ul_data_append f v y g u mm b I HD BM) as (u4 & mm4 & E & B4 & H4 & F4 & X4 & P4 & PA4 & W4); rewrite ?N4, ?N5 in *; try lia; auto.
    rewrite (holds_bytes _ _ _ HO SZ) in W4. rewrite <- EX, W in W4.
    destruct S3 as (E3 & F3 & T3). rewrite E3 in W4.
    destruct (ul_flush_complete ms2 f v y g u4 (base ++ concat ms) r2 B4 W4 F3 T3 A R F) as (y' & g' & u' & EF & K & A' & W' & P').
    destruct (flush_flags _ _ _ _ _ _ _ _ _ B4 EF) as (B' & X' & H' & F').
    rewrite E, EF. cbn [bind]. eexists _, _, _, _. split; [reflexivity|]. split; auto. exists (ms ++ ms2), r2.
    split; auto; try congruence; try discriminate.
    + split; auto; try congruence. rewrite X', X4. apply I.
    + rewrite P4, P in A'. cbn [Z.to_nat firstn app] in A'. rewrite concat_app, app_assoc. auto.
Qed.

Lemma runs_head : forall ps exp lost cur, (lost = true -> cur = []) -> exists rest tl, runs exp lost cur ps = (cur ++ rest) :: tl.
Proof.
  induction ps as [|p ps IH]; intros exp lost cur N; cbn [runs]. { exists [], []. rewrite app_nil_r. auto. }
  destruct (ahead exp (ul_seq p) =? 0).
  - destruct lost.
    + rewrite (N eq_refl). cbn [app]. destruct (ul_offset p =? 255).
      * destruct (IH (after (ul_seq p)) true [] ltac:(auto)) as (rest & tl & E). exists rest, tl. auto.
      * destruct (IH (after (ul_seq p)) false (skipn (Z.to_nat (ul_offset p)) (ul_bytes p)) ltac:(discriminate)) as (rest & tl & E). rewrite E. eauto.
    + destruct (IH (after (ul_seq p)) false (cur ++ ul_bytes p) ltac:(discriminate)) as (rest & tl & E). rewrite E. rewrite <- app_assoc. eauto.
  - destruct (_ <? 32768). { exists []. rewrite app_nil_r. eauto. } apply IH; auto.
Qed.

Lemma runs_streamable : forall ps exp lost cur, (lost = true -> cur = []) -> Forall streamable (runs exp lost cur ps) -> streamable cur.
Proof.
  intros ps exp lost cur N F. destruct (runs_head ps exp lost cur N) as (rest & tl & E). rewrite E in F. inversion F; subst.
  destruct H1 as (ms & r & S). eapply prefix_streamable; eauto.
Qed.

Lemma ul_data_drops : forall f v y g u mm b, ul_data f v y g u mm b true =
  let* (y, g, u, _) := ul_flush f v y g u in ul_data f v y g (set_wait (set_buf u (u_buf u) 0 0) (u_hdr u) true) mm b false.
Proof. intros. unfold ul_data at 1. destruct (ul_flush f v y g u) as [[[[y1 g1] u1] o1]| |]; reflexivity. Qed.

Lemma data_wait_step : forall f v y g u mm b p, ul_inv u -> u_first u = true -> holds mm b p -> ul_size p <= 249 -> ul_offset p = 255 ->
  ul_data f v y g u mm b false = Ok (y, g, u, mm).
Proof.
  intros f v y g u mm b p I FF HO SZ O. pose proof (holds_nth mm b p 4 HO ltac:(lia)) as N4. pose proof (holds_nth mm b p 5 HO ltac:(lia)) as N5. fold (ul_size p) in N4. fold (ul_offset p) in N5.
  pose proof HO as (BM & LM & HE). unfold ul_data. cbn [bind]. rewrite !rd_Ok by lia. cbn [bind]. rewrite N4, N5, O. change (Z.of_nat UBUF) with 2048.
  destruct (ui_first u I FF) as [L0 IX]. rewrite L0.
  rewrite (proj2 (Z.ltb_ge 2048 (0 + ul_size p))) by lia. rewrite L0. rewrite (proj2 (Z.ltb_ge 2048 (u_idx u + 0 + ul_size p))) by lia. cbn [bind]. rewrite FF. reflexivity.
Qed.

Lemma window_nil : forall u, u_len u = 0 -> window u = [].
Proof. intros u E. unfold window. rewrite E. reflexivity. Qed.

Lemma process_step : forall f v y g u mm b p ps base cur ms r exp lost, strm y g u base cur ms r exp lost -> holds mm b p -> wf_packet p -> ul_consistent p ->
  ahead exp (ul_seq p) <> 32768 -> ahead exp (ul_seq p) <> 32769 -> Forall streamable (runs exp lost cur (p :: ps)) ->
  (forall k, (y_pos y <= k)%nat -> 2048 <= v_orc v k) -> (700 <= f)%nat ->
  exists y' g' u' mm', ul_process f v y g u mm b = Ok (y', g', u', mm', []) /\ keeps y g y' g' /\
    exists base' cur' ms' r' exp' lost', strm y' g' u' base' cur' ms' r' exp' lost' /\
     exp' = (if ahead exp (ul_seq p) <? 32768 then after (ul_seq p) else exp) /\
     ((base' = base /\ runs exp lost cur (p :: ps) = runs exp' lost' cur' ps) \/
      (base' = base ++ concat ms /\ runs exp lost cur (p :: ps) = cur :: runs exp' lost' cur' ps)).
Proof.
  intros f v y g u mm b p ps base cur ms r exp lost ST HO WF (SZ & OFF) N1 N2 FS R F.
  pose proof (holds_seq _ _ _ HO) as HS. pose proof HO as (BM & LM & _). pose proof (seq_range p WF) as SR.
  assert (SB : is_byte (ul_size p) /\ is_byte (ul_offset p)) by (split; apply nth_byte, ul_fields_bytes; auto). unfold is_byte in SB.
  destruct ST as [I HD A W P X LS CUT NIL]. pose proof (ui_exp u I) as XR.
  unfold ul_process. rewrite !rd_Ok by lia. cbn [bind]. rewrite HS. rewrite seq_cases; auto; try congruence. rewrite X.
  set (ux := set_exp u (after (ul_seq p))).
  assert (IX : ul_inv ux).
  { destruct I as [B XX FI HI]. unfold ux. split; cbn [set_exp u_exp u_hdr u_first u_len u_idx u_plen]; auto.
    - destruct B; split; cbn [set_exp u_buf u_part u_len u_idx u_plen]; auto.
    - apply Z.mod_pos_bound. lia. }
  (* beginning a new run *)
  assert (BEGIN : forall y1 g1 u1 base1, ul_inv u1 -> u_hdr u1 = false -> u_first u1 = true -> u_plen u1 = 0 -> u_exp u1 = after (ul_seq p) -> at_end y1 g1 base1 -> (y_pos y <= y_pos y1)%nat ->
     (ul_offset p <> 255 -> streamable (skipn (Z.to_nat (ul_offset p)) (ul_bytes p))) ->
     exists y' g' u' mm', ul_data f v y1 g1 u1 mm b false = Ok (y', g', u', mm') /\ keeps y1 g1 y' g' /\
       exists cur' ms' r' lost', strm y' g' u' base1 cur' ms' r' (after (ul_seq p)) lost' /\
         (if ul_offset p =? 255 then runs (after (ul_seq p)) true [] ps else runs (after (ul_seq p)) false (skipn (Z.to_nat (ul_offset p)) (ul_bytes p)) ps) = runs (after (ul_seq p)) lost' cur' ps).
  { intros y1 g1 u1 base1 I1 HD1 F1 P1 X1 A1 POS SS. destruct (ui_first u1 I1 F1) as [L0 _]. destruct (Z.eqb_spec (ul_offset p) 255) as [O|O].
    - rewrite (data_wait_step f v y1 g1 u1 mm b p I1 F1 HO SZ O). eexists _, _, _, _. split; [reflexivity|]. split; [apply keeps_refl|].
      exists [], [], [], true. split; auto. split; auto. cbn [concat]. rewrite app_nil_r. auto. apply window_nil; auto. apply stream_nil.
    - destruct (SS O) as (ms2 & r2 & S2).
      destruct (data_append_step f v y1 g1 u1 mm b p base1 [] [] [] (skipn (Z.to_nat (ul_offset p)) (ul_bytes p)) ms2 r2) as (y' & g' & u' & mm' & E & K & ms' & r' & S'); auto.
      + lia.
      + intros _. destruct OFF; auto. congruence.
      + rewrite F1. reflexivity.
      + apply window_nil; auto.
      + cbn [concat]. rewrite app_nil_r. auto.
      + apply stream_nil.
      + intros k KK. apply R. lia.
      + exists y', g', u', mm'. split; auto. split; auto. cbn [app] in S'. rewrite X1 in S'. eexists _, ms', r', false. split; [exact S'|reflexivity]. }
  cbn [runs] in FS |- *. destruct (Z.eqb_spec (ahead exp (ul_seq p)) 0) as [A0|A0]; [rewrite A0; change (0 <? 32768) with true; cbv iota|].
  - assert (HDX : u_hdr ux = false) by exact HD. rewrite HDX. destruct lost.
    + destruct (BEGIN y g ux base) as (y' & g' & u' & mm' & E & K & cur' & ms' & r' & lost' & S' & RR); auto.
      * rewrite (NIL eq_refl) in CUT. destruct CUT as (CE & _). symmetry in CE. apply app_eq_nil in CE. destruct CE as [CE _]. rewrite CE, app_nil_r in A. auto.
      * intros NO. apply Z.eqb_neq in NO. rewrite NO in FS. eapply runs_streamable; [|exact FS]. discriminate.
      * rewrite E. cbn [bind]. exists y', g', u', mm'. split; auto. split; auto. eexists base, cur', ms', r', _, lost'. split; [exact S'|]. auto.
    + assert (SQ : streamable (cur ++ ul_bytes p)) by (eapply runs_streamable; [|exact FS]; discriminate). destruct SQ as (ms' & r' & S2).
      destruct (stream_extend _ _ _ _ _ _ CUT S2) as (ms2 & -> & S3).
      destruct (data_append_step f v y g ux mm b p base cur ms r (ul_bytes p) ms2 r') as (y' & g' & u' & mm' & E & K & ms3 & r3 & S'); auto.
      * lia.
      * unfold ux. cbn [set_exp u_first]. rewrite LS. discriminate.
      * unfold ux. cbn [set_exp u_first]. rewrite LS. discriminate.
      * unfold ux. cbn [set_exp u_first]. rewrite LS. reflexivity.
      * rewrite E. cbn [bind]. exists y', g', u', mm'. split; auto. split; auto. eexists base, _, ms3, r3, _, false. split; [exact S'|]. auto.
  - destruct (Z.ltb_spec (ahead exp (ul_seq p)) 32768).
    + assert (HDX : u_hdr ux = false) by exact HD. rewrite HDX. rewrite ul_data_drops. inversion FS as [|? ? FS1 FS2]; subst x l.
      destruct (ul_flush_complete [] f v y g ux (base ++ concat ms) r (ui_buf _ IX)) as (y1 & g1 & u1 & EF & K1 & A1 & W1 & P1); auto.
      { apply CUT. }
      destruct (flush_flags _ _ _ _ _ _ _ _ _ (ui_buf _ IX) EF) as (B1 & X1 & H1 & F1). rewrite EF. cbn [bind].
      unfold ux in A1. cbn [set_exp u_plen u_part] in A1. rewrite P in A1. cbn [Z.to_nat firstn app concat] in A1. rewrite app_nil_r in A1.
      destruct (BEGIN y1 g1 (set_wait (set_buf u1 (u_buf u1) 0 0) (u_hdr u1) true) (base ++ concat ms)) as (y' & g' & u' & mm' & E & K & cur' & ms' & r' & lost' & S' & RR);
        cbn [set_wait set_buf u_exp u_hdr u_first u_buf u_len u_idx u_plen u_part]; auto; try congruence.
      * destruct B1 as [Q1 QB Q2 Q3 Q4 Q5 Q6]. split; cbn [set_wait set_buf u_exp u_hdr u_first u_buf u_len u_idx u_plen u_part]; try congruence; try lia.
        -- split; cbn [set_wait set_buf u_exp u_hdr u_first u_buf u_len u_idx u_plen u_part]; auto; lia.
        -- rewrite X1. apply IX.
      * destruct K1; lia.
      * intros NO. apply Z.eqb_neq in NO. rewrite NO in FS2. eapply runs_streamable; [|exact FS2]. discriminate.
      * rewrite E. cbn [bind]. exists y', g', u', mm'. split; auto. split; [eapply keeps_trans; eauto|].
        eexists _, cur', ms', r', _, lost'. split; [exact S'|]. split; auto. right. split; auto. congruence.
    + eexists _, _, _, _. split; [reflexivity|]. split; [apply keeps_refl|]. exists base, cur, ms, r, exp, lost. split; [split; auto|]. auto.
Qed.
