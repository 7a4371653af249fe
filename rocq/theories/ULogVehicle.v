(* ULog: a vehicle's log under losses, repetitions and any results of the writes. *)
From Verif Require Import Base Mav SpecFrame Frame FrameProofs Names NamesProofs Sys LogFile LogFileProofs ULog Loggers LogInv LogStep
  SpecLog SpecULog LogRun LogModes LogModes2 BinProofs ULogProofs ULogStream ULogRun ULogMore SpecVehicle.

(* ---- lists -------------------------------------------------------------------------------------------------- *)

Lemma part_refl_app : forall A (a b c : list A), part_of a b -> part_of a (b ++ c).
Proof. induction 1; cbn; [apply po_nil|apply po_skip; auto|apply po_take; auto]. Qed.
Lemma part_snoc : forall A (a b : list A) m, part_of a b -> part_of (a ++ [m]) (b ++ [m]).
Proof.
  induction 1; cbn.
  - induction b; cbn. + apply po_take. apply po_nil. + apply po_skip. auto.
  - apply po_skip. auto.
  - apply po_take. auto.
Qed.

Lemma firstn_more : forall A (l : list A) a b, (a <= b)%nat -> exists c, firstn b l = firstn a l ++ c.
Proof.
  intros A l a. revert l. induction a; intros l b L. { exists (firstn b l). reflexivity. }
  destruct b; [lia|]. destruct l as [|h l]. { exists []. reflexivity. } cbn [firstn]. destruct (IHa l b ltac:(lia)) as (c & ->). exists c. reflexivity.
Qed.
Lemma part_firstn : forall A (a l : list A) i j, (i <= j)%nat -> part_of a (firstn i l) -> part_of a (firstn j l).
Proof. intros A a l i j L P. destruct (firstn_more A l i j L) as (c & ->). apply part_refl_app. auto. Qed.
Lemma part_whole : forall A (a l : list A) i, part_of a (firstn i l) -> part_of a l.
Proof. intros A a l i P. rewrite <- (firstn_skipn i l). apply part_refl_app. auto. Qed.

Lemma firstn_S : forall A (l : list A) k m, nth_error l k = Some m -> firstn (Datatypes.S k) l = firstn k l ++ [m].
Proof. intros A l. induction l; intros [|k] m N; cbn in *; try discriminate. - inversion N. reflexivity. - f_equal. apply IHl. auto. Qed.

(* the bytes from position a to position b *)
Definition seg (s : list Z) (a b : nat) : list Z := firstn (b - a) (skipn a s).

Lemma seg_length : forall s a b, (a <= b)%nat -> (b <= length s)%nat -> length (seg s a b) = (b - a)%nat.
Proof. intros. unfold seg. rewrite firstn_length, skipn_length. lia. Qed.
Lemma seg_app : forall s a b c, (a <= b)%nat -> (b <= c)%nat -> seg s a c = seg s a b ++ seg s b c.
Proof.
  intros s a b c L M. unfold seg. replace (c - a)%nat with ((b - a) + (c - b))%nat by lia. rewrite firstn_skipn_add, skipn_skipn_add.
  replace (a + (b - a))%nat with b by lia. reflexivity.
Qed.
Lemma seg_mid : forall (a b c : list Z), seg (a ++ b ++ c) (length a) (length a + length b) = b.
Proof.
  intros. unfold seg. rewrite skipn_app, skipn_all, Nat.sub_diag. cbn [app skipn]. replace (length a + length b - length a)%nat with (length b) by lia.
  rewrite firstn_app, firstn_all, Nat.sub_diag. cbn [firstn]. apply app_nil_r.
Qed.
Lemma seg_nil : forall s a, seg s a a = [].
Proof. intros. unfold seg. rewrite Nat.sub_diag. reflexivity. Qed.
Lemma seg_skip : forall s a b n, (a + n <= b)%nat -> skipn n (seg s a b) = seg s (a + n) b.
Proof. intros s a b n L. unfold seg. rewrite skipn_firstn_comm, skipn_skipn_add. f_equal. lia. Qed.

(* ---- messages of the stream ---------------------------------------------------------------------------------- *)

Definition good (ms : list (list Z)) : Prop := Forall (fun m => ulog_message m /\ Z.of_nat (length m) < 65536) ms.

Lemma good_bytes : forall m, ulog_message m /\ Z.of_nat (length m) < 65536 -> exists lo hi ty bd, m = lo :: hi :: ty :: bd /\
  u16 (lo + 256 * hi + 3) = Z.of_nat (length m) /\ 3 <= Z.of_nat (length m).
Proof.
  intros m ((lo & hi & ty & bd & E & L & H & S) & M). exists lo, hi, ty, bd. split; auto. subst m. cbn [length] in *. unfold is_byte in *.
  split; [|lia]. rewrite u16_small; lia.
Qed.

Lemma begins_S : forall ms k m, nth_error ms k = Some m -> begins ms (Datatypes.S k) = (begins ms k + length m)%nat.
Proof. intros ms k m N. unfold begins. rewrite (firstn_S _ _ _ _ N), concat_app, app_length. cbn [concat]. rewrite app_nil_r. reflexivity. Qed.
Lemma begins_all : forall ms k, (length ms <= k)%nat -> begins ms k = length (concat ms).
Proof. intros. unfold begins. rewrite firstn_all2; auto. Qed.
Lemma begins_le : forall ms k, (begins ms k <= length (concat ms))%nat.
Proof. intros. unfold begins. rewrite <- (firstn_skipn k ms) at 2. rewrite concat_app, app_length. lia. Qed.

Lemma begins_mono : forall ms i j, good ms -> (i <= length ms)%nat -> (begins ms i <= begins ms j)%nat -> (i <= j)%nat.
Proof.
  intros ms i j G LJ L. destruct (le_lt_dec i j) as [|C]; auto. exfalso.
  destruct (nth_error ms j) as [m|] eqn:N. 2:{ apply nth_error_None in N. lia. }
  pose proof (begins_S _ _ _ N) as BS. assert (G1 := proj1 (Forall_forall _ _) G m (nth_error_In _ _ N)). destruct (good_bytes _ G1) as (? & ? & ? & ? & _ & _ & P).
  destruct (firstn_more _ ms (Datatypes.S j) i C) as (c & E). assert (begins ms (Datatypes.S j) <= begins ms i)%nat. { unfold begins. rewrite E, concat_app, app_length. lia. } lia.
Qed.

Lemma seg_message : forall ms k m, nth_error ms k = Some m -> seg (concat ms) (begins ms k) (begins ms (Datatypes.S k)) = m.
Proof.
  intros ms k m N. rewrite (begins_S _ _ _ N). destruct (nth_error_split ms k N) as (l1 & l2 & -> & L). unfold begins.
  rewrite firstn_app, <- L, firstn_all, Nat.sub_diag. cbn [firstn]. rewrite app_nil_r, concat_app. cbn [concat]. apply seg_mid.
Qed.

(* ---- flushing ------------------------------------------------------------------------------------------------- *)

(* the file and the unwritten rest of the last message *)
Record filed (hd : list Z) (ms : list (list Z)) (y : sys) (g : lg) (u : ulst) (k : nat) : Prop := mkFiled {
  fd_data : exists d some, at_end y g d /\ d ++ firstn (Z.to_nat (u_plen u)) (u_part u) = hd ++ concat some /\
    part_of some (firstn k ms) /\ u_plen u <= Z.of_nat (length (last some hd));
  fd_k : (k <= length ms)%nat }.

Lemma filed_same : forall hd ms y g u k y' g' u', filed hd ms y g u k -> y_fs y' = y_fs y -> l_open g' = l_open g -> l_name g' = l_name g -> l_off g' = l_off g ->
  u_part u' = u_part u -> u_plen u' = u_plen u -> filed hd ms y' g' u' k.
Proof.
  intros hd ms y g u k y' g' u' [(d & some & A & D) K] E1 E2 E3 E4 E5 E6. split; auto. exists d, some. rewrite E5, E6. split; auto. eapply at_end_same; eauto.
Qed.
Lemma filed_later : forall hd ms y g u k j, filed hd ms y g u k -> (k <= j <= length ms)%nat -> filed hd ms y g u j.
Proof.
  intros hd ms y g u k j [(d & some & A & E & P & L) K] [J1 J2]. split; auto. exists d, some. split; auto. split; auto. split; auto. eapply part_firstn; eauto.
Qed.

Lemma flush_part_len : forall f v y g u y' g' u' r, ubuf_ok u -> flush_part f v y g u = Ok (y', g', u', r) -> u_plen u' <= u_plen u.
Proof.
  induction f; intros v y g u y' g' u' r B H; cbn [flush_part] in H; destruct (Z.eqb_spec (u_plen u) 0) as [Z0|Z0]; try discriminate.
  1,2: inversion H; subst; lia.
  destruct B as [B1 BB B2 B3 B4 B5 B6]. unfold UPART in *. rewrite slice_Ok in H by lia. cbn [bind skipn] in H.
  set (bs := firstn (Z.to_nat (u_plen u)) (u_part u)) in *.
  assert (LB : length bs = Z.to_nat (u_plen u)) by (unfold bs; rewrite firstn_length; lia).
  destruct (file_write v y g (l_off g) bs) as [[q y1] g1] eqn:FW. pose proof (file_write_bound _ _ _ _ _ _ _ _ FW) as RB.
  destruct ((q =? 0) || (q =? - EAGAIN)) eqn:C1. { inversion H; subst. lia. }
  destruct (Z.ltb_spec q 0). { inversion H; subst. lia. }
  rewrite u16_small in H by lia. rewrite memmove_Ok in H by lia. cbn [bind firstn app] in H. apply IHf in H.
  - cbn [set_part u_plen] in H. lia.
  - split; cbn [set_part u_buf u_part u_len u_idx u_plen]; auto; try lia. rewrite app_length, firstn_length, !skipn_length. unfold UPART. lia.
Qed.

Lemma last_snoc : forall A (l : list A) m d, last (l ++ [m]) d = m.
Proof. intros. apply last_last. Qed.

Lemma mild_later : forall v y y' ms, mild_writes v y ms -> (y_pos y <= y_pos y')%nat -> mild_writes v y' ms.
Proof. intros v y y' ms M L k m K. apply M. lia. Qed.

Lemma flush_msgs_filed : forall f hd ms v y g u k n, good ms -> ubuf_ok u -> filed hd ms y g u k -> mild_writes v y ms ->
  window u = seg (concat ms) (begins ms k) n -> (begins ms k <= n <= length (concat ms))%nat -> u_len u < Z.of_nat f ->
  exists y' g' u' ok k', flush_msgs f v y g u = Ok (y', g', u', ok) /\ keeps y g y' g' /\ filed hd ms y' g' u' k' /\ (k <= k')%nat /\
    window u' = seg (concat ms) (begins ms k') n /\ (begins ms k' <= n)%nat.
Proof.
  induction f; intros hd ms v y g u k n G B FD MW W RN F. { destruct B. lia. }
  assert (SAME : forall ok : bool, exists y' g' u' ok' k', Ok (y, g, u, ok) = Ok (y', g', u', ok') /\ keeps y g y' g' /\ filed hd ms y' g' u' k' /\ (k <= k')%nat /\
    window u' = seg (concat ms) (begins ms k') n /\ (begins ms k' <= n)%nat).
  { intros ok. exists y, g, u, ok, k. split; auto. split; [apply keeps_refl|]. split; auto. split; auto. split; auto. lia. }
  cbn [flush_msgs]. destruct (negb ((3 <=? u_len u) && (u_plen u =? 0))) eqn:C0; [apply SAME|].
  apply negb_false_iff, andb_prop in C0. destruct C0 as [C1 C2]. apply Z.leb_le in C1. apply Z.eqb_eq in C2.
  pose proof (window_length u B) as WL. pose proof (nth_win u 0 B ltac:(lia)) as N0. pose proof (nth_win u 1 B ltac:(lia)) as N1. rewrite Nat.add_0_r in N0.
  pose proof WL as WN. rewrite W, seg_length in WN by lia.
  destruct (nth_error ms k) as [m|] eqn:NM. 2:{ apply nth_error_None in NM. rewrite (begins_all ms k NM) in *. lia. }
  assert (GM := proj1 (Forall_forall _ _) G m (nth_error_In _ _ NM)). destruct (good_bytes _ GM) as (lo & hi & ty & bd & EM & SZ & L3).
  pose proof (begins_S _ _ _ NM) as BS. pose proof (seg_message _ _ _ NM) as SM.
  (* the first two bytes of the window are those of the message *)
  assert (HDW : exists w, window u = lo :: hi :: w).
  { destruct (le_lt_dec (begins ms (Datatypes.S k)) n) as [L|L].
    - rewrite W, (seg_app _ _ (begins ms (Datatypes.S k)) n) by lia. rewrite SM, EM. cbn [app]. eauto.
    - rewrite (seg_app _ _ n _) in SM by lia. rewrite W. destruct (seg (concat ms) (begins ms k) n) as [|a [|c w]] eqn:SS.
      + rewrite W in WL. cbn [length] in WL. lia.
      + rewrite W in WL. cbn [length] in WL. lia.
      + cbn [app] in SM. rewrite EM in SM. inversion SM. eauto. }
  destruct HDW as (w & HDW). rewrite HDW in N0, N1. cbn [nth] in N0, N1.
  pose proof B as B'. destruct B as [B1 BB B2 B3 B4 B5 B6]. unfold UBUF, UPART in *. rewrite !rd_Ok by lia. cbn [bind]. rewrite N0, N1, SZ.
  destruct (Z.ltb_spec (u_len u) (Z.of_nat (length m))) as [SH|SH]; [apply SAME|].
  rewrite slice_Ok by lia. cbn [bind].
  pose proof (window_split u (Z.of_nat (length m)) B' ltac:(lia)) as WS. set (bs := firstn _ _) in *.
  assert (LB : length bs = length m) by (unfold bs; rewrite firstn_length, skipn_length; lia).
  assert (EB : bs = m /\ window (set_buf u (u_buf u) (u_len u - Z.of_nat (length m)) (u_idx u + Z.of_nat (length m))) = seg (concat ms) (begins ms (Datatypes.S k)) n).
  { rewrite W, (seg_app _ _ (begins ms (Datatypes.S k)) n), SM in WS by lia.
    pose proof (f_equal (firstn (length m)) WS) as E1. rewrite (firstn_app_le _ _ _ eq_refl), (firstn_app_le _ _ _ LB) in E1.
    split; [symmetry; exact E1|]. rewrite <- E1 in WS. apply app_inv_head in WS. symmetry. exact WS. }
  destruct EB as [EB WR]. clear WS. clearbody bs. subst bs. clear LB.
  destruct (file_write v y g (l_off g) m) as [[q y1] g1] eqn:FW.
  destruct FD as [(d & some & A & D & PO & PL) KM].
  destruct (write_end _ _ _ _ _ _ _ _ A FW) as (K1 & P1 & OUT).
  assert (KN : (Datatypes.S k <= length ms)%nat) by (apply nth_error_Some; congruence).
  rewrite C2 in D. cbn [Z.to_nat firstn] in D. rewrite app_nil_r in D.
  assert (POS : part_of (some ++ [m]) (firstn (Datatypes.S k) ms)) by (rewrite (firstn_S _ _ _ _ NM); apply part_snoc; auto).
  destruct (Z.eqb_spec q (Z.of_nat (length m))) as [RF|RF].
  - rewrite !u16_small by lia. destruct OUT as [(Q & RR & _)|(Q & RR & A1)]; [lia|]. rewrite firstn_all2 in A1 by lia.
    edestruct (IHf hd ms v y1 g1 (set_buf u (u_buf u) (u_len u - Z.of_nat (length m)) (u_idx u + Z.of_nat (length m))) (Datatypes.S k) n) as (y2 & g2 & u2 & ok & k2 & E & K2 & FD2 & KK & W2 & R2); auto.
    + split; cbn [set_buf u_buf u_part u_len u_idx u_plen]; auto; lia.
    + split; auto. exists (d ++ m), (some ++ [m]). split; auto. cbn [set_buf u_plen u_part]. rewrite C2. cbn [Z.to_nat firstn].
      rewrite app_nil_r, D, concat_app. cbn [concat]. rewrite app_nil_r, app_assoc. split; auto. split; auto. lia.
    + eapply mild_later; eauto. lia.
    + lia.
    + cbn [set_buf u_len]. lia.
    + exists y2, g2, u2, ok, k2. split; [exact E|]. split; [eapply keeps_trans; eauto|]. split; auto. split; [lia|]. auto.
  - assert (FAIL : at_end y1 g1 d -> forall ok : bool, exists y' g' u' ok' k', Ok (y1, g1, u, ok) = Ok (y', g', u', ok') /\ keeps y g y' g' /\ filed hd ms y' g' u' k' /\ (k <= k')%nat /\
      window u' = seg (concat ms) (begins ms k') n /\ (begins ms k' <= n)%nat).
    { intros A1 ok. exists y1, g1, u, ok, k. split; auto. split; auto. split; [|split; auto; split; auto; lia].
      split; auto. exists d, some. split; auto. rewrite C2. cbn [Z.to_nat firstn]. rewrite app_nil_r. split; auto. split; auto. lia. }
    destruct ((q =? 0) || (q =? - EAGAIN)) eqn:CC.
    { apply FAIL. destruct OUT as [(_ & _ & A1)|(Q & RR & A1)]; auto.
      assert (Q0 : q = 0) by (unfold EAGAIN in CC; lia). rewrite Q0 in A1. cbn [Z.to_nat firstn] in A1. rewrite app_nil_r in A1. auto. }
    destruct (Z.ltb_spec q 0).
    { apply FAIL. destruct OUT as [(_ & _ & A1)|(Q & RR & A1)]; auto. lia. }
    destruct OUT as [(Q & RR & _)|(Q & RR & A1)]; [lia|].
    pose proof (MW (y_pos y) m ltac:(lia) (nth_error_In _ _ NM) ltac:(lia)) as MQ.
    rewrite (u16_small (Z.of_nat (length m) - q)) by lia. change (Z.of_nat 1024) with 1024. destruct (Z.ltb_spec 1024 (Z.of_nat (length m) - q)). { lia. }
    rewrite slice_Ok by lia. cbn [bind]. rewrite blit_Ok by (rewrite firstn_length, skipn_length; lia). cbn [bind]. rewrite !u16_small by lia.
    assert (LM : firstn (Z.to_nat (Z.of_nat (length m) - q)) (skipn (Z.to_nat (u_idx u + q)) (u_buf u)) = skipn (Z.to_nat q) m).
    { assert (MM : m = firstn (length m) (skipn (Z.to_nat (u_idx u)) (u_buf u))).
      { pose proof (window_split u (Z.of_nat (length m)) B' ltac:(lia)) as WS. rewrite Nat2Z.id in WS.
        rewrite W, (seg_app _ _ (begins ms (Datatypes.S k)) n), SM in WS by lia.
        pose proof (f_equal (firstn (length m)) WS) as E1. rewrite (firstn_app_le _ _ _ eq_refl) in E1. rewrite firstn_app_le in E1; auto. rewrite firstn_length, skipn_length. lia. }
      rewrite MM at 2. rewrite skipn_firstn_comm, skipn_skipn_add. f_equal; [lia|]. f_equal. lia. }
    rewrite LM. assert (LS : length (skipn (Z.to_nat q) m) = Z.to_nat (Z.of_nat (length m) - q)) by (rewrite skipn_length; lia).
    eexists _, _, _, _, (Datatypes.S k). split; [reflexivity|]. split; auto. split; [|split; [lia|split; [exact WR|lia]]].
    split; auto. exists (d ++ firstn (Z.to_nat q) m), (some ++ [m]). split; auto. cbn [set_buf set_part u_plen u_part].
    cbn [firstn app Nat.add]. rewrite (firstn_app_le _ _ _ LS). rewrite <- app_assoc, firstn_skipn, D, concat_app. cbn [concat]. rewrite app_nil_r, app_assoc.
    split; auto. split; auto. rewrite last_snoc. lia.
Qed.

Lemma ul_flush_filed : forall f hd ms v y g u k n, good ms -> ubuf_ok u -> filed hd ms y g u k -> mild_writes v y ms ->
  window u = seg (concat ms) (begins ms k) n -> (begins ms k <= n <= length (concat ms))%nat -> (2049 <= f)%nat ->
  exists y' g' u' ok k', ul_flush f v y g u = Ok (y', g', u', ok) /\ keeps y g y' g' /\ filed hd ms y' g' u' k' /\ (k <= k')%nat /\
    window u' = seg (concat ms) (begins ms k') n /\ (begins ms k' <= n)%nat.
Proof.
  intros f hd ms v y g u k n G B FD MW W RN F. unfold ul_flush.
  assert (PT : u_plen u < Z.of_nat f) by (destruct B; lia). pose proof (flush_part_term f v y g u B PT) as T.
  destruct (flush_part_safe f v y g u B) as [X|(y1 & g1 & u1 & r & E & B1 & _ & _ & _ & BU & LU & IU & _)]; [congruence|].
  rewrite E. cbn [bind]. destruct FD as [(d & some & A & D & PO & PL) KM].
  destruct (flush_part_conserve _ _ _ _ _ _ _ _ _ _ B A E) as (K1 & d1 & A1 & E1). pose proof (flush_part_len _ _ _ _ _ _ _ _ _ B E) as LE.
  assert (W1 : window u1 = window u) by (unfold window; rewrite BU, LU, IU; reflexivity).
  unfold staged in E1. rewrite W1, !app_assoc in E1. apply app_inv_tail in E1.
  assert (FD1 : filed hd ms y1 g1 u1 k). { split; auto. exists d1, some. split; auto. rewrite E1. split; auto. split; auto. lia. }
  destruct r as [b|].
  - exists y1, g1, u1, b, k. split; auto. split; auto. split; auto. split; auto. split; [congruence|lia].
  - destruct (flush_msgs_filed f hd ms v y1 g1 u1 k n) as (y2 & g2 & u2 & ok & k2 & E2 & K2 & FD2 & KK & W2 & R2); auto.
    + eapply mild_later; eauto. apply K1.
    + congruence.
    + destruct B1. lia.
    + exists y2, g2, u2, ok, k2. split; auto. split; [eapply keeps_trans; eauto|]. auto.
Qed.

(* ---- packets ---------------------------------------------------------------------------------------------------- *)

(* the logger when packet number e is the next new one *)
Record following (hd : list Z) (ms : list (list Z)) (x : list Z) (ps : list packet) (y : sys) (g : lg) (u : ulst) (e : nat) : Prop := mkFollowing {
  fo_inv : ul_inv u;
  fo_hdr : u_hdr u = false;
  fo_exp : u_exp u = (Z.of_nat e + 1) mod 65536;
  fo_file : exists k, filed hd ms y g u k /\ (begins ms k <= packet_at x ps e)%nat /\
    (u_first u = false -> window u = seg (concat ms) (begins ms k) (packet_at x ps e)) }.

Lemma following_same : forall hd ms x ps y g u e y' g', following hd ms x ps y g u e -> y_fs y' = y_fs y -> l_open g' = l_open g -> l_name g' = l_name g -> l_off g' = l_off g ->
  following hd ms x ps y' g' u e.
Proof.
  intros hd ms x ps y g u e y' g' [I H X (k & FD & R)] E1 E2 E3 E4. split; auto. exists k. split; auto. eapply filed_same; eauto.
Qed.

Lemma packet_at_S : forall x ps i p, nth_error ps i = Some p -> packet_at x ps (Datatypes.S i) = (packet_at x ps i + length (ul_bytes p))%nat.
Proof.
  intros x ps i p N. unfold packet_at. rewrite (firstn_S _ _ _ _ N), map_app, concat_app, !app_length. cbn [map concat]. rewrite app_nil_r. lia.
Qed.

Lemma packet_seg : forall ms x ps i p, vehicle ms x ps -> nth_error ps i = Some p ->
  ul_bytes p = seg (concat ms) (packet_at x ps i) (packet_at x ps (Datatypes.S i)) /\ (packet_at x ps (Datatypes.S i) <= length (concat ms))%nat.
Proof.
  intros ms x ps i p V N. rewrite (packet_at_S _ _ _ _ N). destruct (ve_stream _ _ _ V) as (more & <-).
  destruct (nth_error_split ps i N) as (l1 & l2 & -> & L). unfold packet_at. rewrite firstn_app, <- L, firstn_all, Nat.sub_diag. cbn [firstn]. rewrite app_nil_r.
  rewrite map_app, concat_app. cbn [map concat]. rewrite <- !app_assoc, (app_assoc x). split; [symmetry; apply seg_mid|]. rewrite !app_length. lia.
Qed.

Lemma packet_at_mono : forall x ps i j, (i <= j)%nat -> (packet_at x ps i <= packet_at x ps j)%nat.
Proof.
  intros x ps i j L. destruct (firstn_more _ ps i j L) as (c & E). unfold packet_at. rewrite E, map_app, concat_app, !app_length. lia.
Qed.

Lemma next_exp : forall i, ((Z.of_nat i + 1) mod 65536 + 1) mod 65536 = (Z.of_nat (Datatypes.S i) + 1) mod 65536.
Proof. intros. rewrite Nat2Z.inj_succ. Z.div_mod_to_equations. lia. Qed.

(* data taken into the buffer, then flushed *)
Lemma data_taken : forall f hd ms x ps v y g u mm b p i k, vehicle ms x ps -> nth_error ps i = Some p -> holds mm b p -> mild_writes v y ms -> (2049 <= f)%nat ->
  ul_inv u -> u_hdr u = false -> u_exp u = (Z.of_nat (Datatypes.S i) + 1) mod 65536 -> u_len u + ul_size p <= 2048 ->
  (u_first u = true -> ul_offset p <> 255) -> filed hd ms y g u k -> (begins ms k <= packet_at x ps (Datatypes.S i))%nat ->
  window u ++ skipn (Z.to_nat (if u_first u then ul_offset p else 0)) (ul_bytes p) = seg (concat ms) (begins ms k) (packet_at x ps (Datatypes.S i)) ->
  exists y' g' u' mm', ul_data f v y g u mm b false = Ok (y', g', u', mm') /\ keeps y g y' g' /\ following hd ms x ps y' g' u' (Datatypes.S i).
Proof.
  intros f hd ms x ps v y g u mm b p i k V N HO MW F I HD X ROOM NO FD BK W.
  destruct (ve_packets _ _ _ V i p N) as (_ & (WF & _) & (SZ & OF) & _ & _). pose proof (packet_seg _ _ _ _ _ V N) as (_ & PB).
  assert (SB : is_byte (ul_size p) /\ is_byte (ul_offset p)) by (split; apply nth_byte, ul_fields_bytes; auto). unfold is_byte in SB.
  pose proof (holds_nth mm b p 4 HO ltac:(lia)) as N4. pose proof (holds_nth mm b p 5 HO ltac:(lia)) as N5. fold (ul_size p) in N4. fold (ul_offset p) in N5.
  pose proof HO as (BM & LM & HE).
  destruct (Z.eq_dec (ul_size p) 0) as [Z0|Z0].
  - assert (XN : ul_bytes p = []). { unfold ul_bytes. rewrite Z0. reflexivity. } rewrite XN, skipn_nil, app_nil_r in W.
    unfold ul_data. cbn [bind]. rewrite !rd_Ok by lia. cbn [bind]. rewrite N4, N5, Z0. change (Z.of_nat UBUF) with 2048.
    destruct (ui_buf u I) as [K1 KB K2 K3 K4 K5 K6]. rewrite (proj2 (Z.ltb_ge 2048 (u_len u + 0))) by lia. rewrite (proj2 (Z.ltb_ge 2048 (u_idx u + u_len u + 0))) by lia. cbn [bind].
    assert (CF : u_first u && (ul_offset p =? 255) = false).
    { destruct (u_first u); cbn; auto. apply Z.eqb_neq. auto. }
    rewrite CF. cbn [Z.eqb]. eexists _, _, _, _. split; [reflexivity|]. split; [apply keeps_refl|].
    split; cbn [set_wait u_hdr u_plen u_exp u_first]; auto; try discriminate.
    + destruct I as [B XX FI HI]. split; cbn [set_wait set_buf u_exp u_hdr u_first u_buf u_len u_idx u_plen u_part]; auto; try discriminate.
      destruct B; split; cbn [set_wait set_buf u_exp u_hdr u_first u_buf u_len u_idx u_plen u_part]; auto.
    + exists k. split; [|split; auto]. eapply filed_same; eauto.
  - destruct (ul_data_append f v y g u mm b I HD BM) as (u4 & mm4 & E & B4 & H4 & F4 & X4 & P4 & PA4 & W4); rewrite ?N4, ?N5 in *; try lia; auto.
    rewrite (holds_bytes _ _ _ HO ltac:(lia)), W in W4.
    destruct (ul_flush_filed f hd ms v y g u4 k (packet_at x ps (Datatypes.S i))) as (y' & g' & u' & ok & k' & EF & K & FD' & KK & W' & R'); auto.
    + apply V.
    + eapply filed_same; eauto.
    + destruct (flush_flags _ _ _ _ _ _ _ _ _ B4 EF) as (B' & X' & H' & F').
      rewrite E, EF. cbn [bind]. eexists _, _, _, _. split; [reflexivity|]. split; auto. split; try congruence.
      * split; auto; try congruence. rewrite X', X4. apply I.
      * exists k'. auto.
Qed.

(* a packet while waiting for the beginning of a message *)
Lemma data_begin : forall f hd ms x ps v y g u mm b p i k, vehicle ms x ps -> nth_error ps i = Some p -> holds mm b p -> mild_writes v y ms -> (2049 <= f)%nat ->
  ul_inv u -> u_hdr u = false -> u_first u = true -> u_exp u = (Z.of_nat (Datatypes.S i) + 1) mod 65536 ->
  filed hd ms y g u k -> (begins ms k <= packet_at x ps i)%nat ->
  exists y' g' u' mm', ul_data f v y g u mm b false = Ok (y', g', u', mm') /\ keeps y g y' g' /\ following hd ms x ps y' g' u' (Datatypes.S i).
Proof.
  intros f hd ms x ps v y g u mm b p i k V N HO MW F I HD FF X FD BK.
  destruct (ve_packets _ _ _ V i p N) as (_ & (WF & _) & (SZ & OF) & _ & BO). pose proof (packet_seg _ _ _ _ _ V N) as (PS & PB).
  assert (SB : is_byte (ul_size p) /\ is_byte (ul_offset p)) by (split; apply nth_byte, ul_fields_bytes; auto). unfold is_byte in SB.
  destruct (ui_first u I FF) as [L0 _]. pose proof (ul_bytes_length p SZ) as LB. pose proof (packet_at_S x ps i p N) as PAS.
  destruct (Z.eq_dec (ul_offset p) 255) as [O|O].
  - rewrite (data_wait_step f v y g u mm b p I FF HO SZ O). eexists _, _, _, _. split; [reflexivity|]. split; [apply keeps_refl|].
    split; auto. exists k. split; auto. split; [lia|]. congruence.
  - destruct BO as [BO|(j & JL & BJ)]; [congruence|].
    assert (KJ : (k <= j)%nat). { apply (begins_mono ms k j (ve_messages _ _ _ V)); [apply FD|lia]. }
    apply (data_taken f hd ms x ps v y g u mm b p i j); auto; try lia.
    + eapply filed_later; eauto.
    + rewrite FF, (window_nil u L0), PS. cbn [app]. rewrite seg_skip; [rewrite BJ; reflexivity|]. lia.
Qed.

(* any packet of the vehicle *)
Lemma vehicle_step : forall f hd ms x ps v y g u mm b p i e, vehicle ms x ps -> nth_error ps i = Some p -> holds mm b p -> mild_writes v y ms -> (2049 <= f)%nat ->
  - 32767 < Z.of_nat i - Z.of_nat e < 32768 -> following hd ms x ps y g u e ->
  exists y' g' u' mm', ul_process f v y g u mm b = Ok (y', g', u', mm', []) /\ keeps y g y' g' /\ following hd ms x ps y' g' u' (Nat.max e (Datatypes.S i)).
Proof.
  intros f hd ms x ps v y g u mm b p i e V N HO MW F RI FO. pose proof FO as [I HD X (k & FD & BK & WK)].
  destruct (ve_packets _ _ _ V i p N) as (_ & (WF & _) & (SZ & OF) & SQ & BO). pose proof (packet_seg _ _ _ _ _ V N) as (PS & PB).
  pose proof (holds_seq _ _ _ HO) as HS. pose proof HO as (BM & LM & _). pose proof (seq_range p WF) as SR. pose proof (ui_exp u I) as XR.
  assert (SB : is_byte (ul_size p) /\ is_byte (ul_offset p)) by (split; apply nth_byte, ul_fields_bytes; auto). unfold is_byte in SB.
  assert (AH : ahead (u_exp u) (ul_seq p) = (Z.of_nat i - Z.of_nat e) mod 65536). { unfold ahead. rewrite X, SQ. Z.div_mod_to_equations. lia. }
  unfold ul_process. rewrite !rd_Ok by lia. cbn [bind]. rewrite HS. rewrite seq_cases; auto; [|rewrite AH; Z.div_mod_to_equations; lia..].
  rewrite AH. set (ux := set_exp u (after (ul_seq p))).
  assert (XX : u_exp ux = (Z.of_nat (Datatypes.S i) + 1) mod 65536). { unfold ux, after. cbn [set_exp u_exp]. rewrite SQ. apply next_exp. }
  assert (IX : ul_inv ux).
  { destruct I as [B XI FI HI]. unfold ux. split; cbn [set_exp u_exp u_hdr u_first u_len u_idx u_plen]; auto.
    - destruct B; split; cbn [set_exp u_buf u_part u_len u_idx u_plen]; auto.
    - apply Z.mod_pos_bound. lia. }
  assert (HDX : u_hdr ux = false) by exact HD.
  destruct (lt_eq_lt_dec i e) as [[L|L]|L].
  - (* a repetition *)
    destruct (Z.eqb_spec ((Z.of_nat i - Z.of_nat e) mod 65536) 0) as [A0|A0]; [exfalso; Z.div_mod_to_equations; lia|].
    destruct (Z.ltb_spec ((Z.of_nat i - Z.of_nat e) mod 65536) 32768) as [A1|A1]; [exfalso; Z.div_mod_to_equations; lia|].
    eexists _, _, _, _. split; [reflexivity|]. split; [apply keeps_refl|]. rewrite Nat.max_l by lia. auto.
  - (* the expected packet *)
    subst e. rewrite Z.sub_diag. cbn [Z.modulo Z.div_eucl Z.eqb]. rewrite HDX, Nat.max_r by lia.
    assert (FDX : filed hd ms y g ux k) by (eapply filed_same; eauto).
    destruct (u_first ux) eqn:FF.
    + destruct (data_begin f hd ms x ps v y g ux mm b p i k) as (y' & g' & u' & mm' & E & K & FO'); auto.
      rewrite E. cbn [bind]. eauto 10.
    + destruct (Z.le_gt_cases (u_len ux + ul_size p) 2048) as [R|R].
      * destruct (data_taken f hd ms x ps v y g ux mm b p i k) as (y' & g' & u' & mm' & E & K & FO'); auto; try congruence.
        -- rewrite (packet_at_S _ _ _ _ N). lia.
        -- rewrite FF. cbn [Z.to_nat skipn]. change (window ux) with (window u). rewrite (WK FF), PS. symmetry. apply seg_app; auto. apply packet_at_mono. lia.
        -- rewrite E. cbn [bind]. eauto 10.
      * pose proof (holds_nth mm b p 4 HO ltac:(lia)) as N4. fold (ul_size p) in N4.
        rewrite ul_data_overflow by (rewrite ?N4; lia).
        destruct (data_begin f hd ms x ps v y g (set_wait (set_buf ux (u_buf ux) 0 (u_idx ux)) (u_hdr ux) true) mm b p i k) as (y' & g' & u' & mm' & E & K & FO'); auto.
        -- destruct IX as [[Q1 QB Q2 Q3 Q4 Q5 Q6] XI FI HI]. split; cbn [set_wait set_buf u_exp u_hdr u_first u_buf u_len u_idx u_plen u_part]; try congruence; try lia.
           split; cbn [set_wait set_buf u_exp u_hdr u_first u_buf u_len u_idx u_plen u_part]; auto; lia.
        -- eapply filed_same; eauto.
        -- rewrite E. cbn [bind]. eauto 10.
  - (* packets were lost *)
    destruct (Z.eqb_spec ((Z.of_nat i - Z.of_nat e) mod 65536) 0) as [A0|A0]; [exfalso; Z.div_mod_to_equations; lia|].
    destruct (Z.ltb_spec ((Z.of_nat i - Z.of_nat e) mod 65536) 32768) as [A1|A1]; [|exfalso; Z.div_mod_to_equations; lia].
    rewrite HDX, ul_data_drops, Nat.max_r by lia.
    assert (FLUSH : exists y1 g1 u1 o k1, ul_flush f v y g ux = Ok (y1, g1, u1, o) /\ keeps y g y1 g1 /\ filed hd ms y1 g1 u1 k1 /\ (begins ms k1 <= packet_at x ps i)%nat).
    { pose proof (packet_at_mono x ps e i ltac:(lia)) as PM. destruct (u_first ux) eqn:FF.
      - destruct (ui_first _ IX FF) as [L0 _].
        assert (WX : window ux = seg (concat ms) (begins ms k) (begins ms k)) by (rewrite window_nil, seg_nil; auto).
        destruct (ul_flush_filed f hd ms v y g ux k (begins ms k)) as (y1 & g1 & u1 & o & k1 & EF & K & FD1 & KK & _ & R1); auto.
        + apply V. + apply IX. + eapply filed_same; eauto. + pose proof (begins_le ms k). lia.
        + exists y1, g1, u1, o, k1. split; auto. split; auto. split; auto. lia.
      - destruct (ul_flush_filed f hd ms v y g ux k (packet_at x ps e)) as (y1 & g1 & u1 & o & k1 & EF & K & FD1 & KK & _ & R1); auto.
        + apply V. + apply IX. + eapply filed_same; eauto. + pose proof (packet_at_mono x ps e (Datatypes.S i) ltac:(lia)). lia.
        + exists y1, g1, u1, o, k1. split; auto. split; auto. split; auto. lia. }
    destruct FLUSH as (y1 & g1 & u1 & o & k1 & EF & K1 & FD1 & BK1).
    destruct (flush_flags _ _ _ _ _ _ _ _ _ (ui_buf _ IX) EF) as (B1 & X1 & H1 & F1). rewrite EF. cbn [bind].
    destruct (data_begin f hd ms x ps v y1 g1 (set_wait (set_buf u1 (u_buf u1) 0 0) (u_hdr u1) true) mm b p i k1) as (y' & g' & u' & mm' & E & K & FO'); auto.
    + eapply mild_later; eauto. apply K1.
    + destruct B1 as [Q1 QB Q2 Q3 Q4 Q5 Q6]. split; cbn [set_wait set_buf u_exp u_hdr u_first u_buf u_len u_idx u_plen u_part]; try congruence; try lia.
      * split; cbn [set_wait set_buf u_exp u_hdr u_first u_buf u_len u_idx u_plen u_part]; auto; lia.
    + cbn [set_wait u_hdr]. congruence.
    + cbn [set_wait set_buf u_exp]. congruence.
    + eapply filed_same; eauto.
    + rewrite E. cbn [bind]. exists y', g', u', mm'. split; auto. split; auto. eapply keeps_trans; eauto.
Qed.

(* ---- events -------------------------------------------------------------------------------------------------------- *)

Lemma vehicle_event : forall f hd ms x ps v y g u ev e e' r, vehicle ms x ps -> mild_writes v y ms -> (2049 <= f)%nat ->
  (forall id, id = 266 \/ id = 267 -> exists ent, v_tbl v id = Some ent /\ e_max_len ent = 255) -> l_mode g = MAlways ->
  (ul_event_ok v ev /\ ulogs [ev] = [] /\ e' = e \/
   exists i p tail, ev = LMsg p tail /\ nth_error ps i = Some p /\ bytes tail /\ - 32767 < Z.of_nat i - Z.of_nat e < 32768 /\ e' = Nat.max e (Datatypes.S i)) ->
  following hd ms x ps y g u e -> arrives v ps e' r ->
  exists y' g' u' cs, levent f v y g (BULog u) ev = Ok (y', g', BULog u', cs) /\ keeps y g y' g' /\ following hd ms x ps y' g' u' e'.
Proof.
  intros f hd ms x ps v y g u ev e e' r V MW F T M C FO _.
  assert (O : l_open g = true). { destruct FO as [_ _ _ (k & [(d & s & A & _) _] & _)]. apply A. }
  destruct C as [(OK & UN & ->)|(i & p & tail & -> & N & BT & RI & ->)].
  - destruct ev as [p tail| |]; [| |destruct OK].
    + cbn [levent]. unfold lwrite. destruct (learn_same g (info_of (v_tbl v) p)) as (Q1 & Q2 & Q3 & Q4 & Q5). set (g0 := learn_target g (info_of (v_tbl v) p)) in *.
      rewrite auto_idle by congruence. cbn [bind]. unfold ulogs in UN. cbn [offered filter] in UN. destruct (is_ulog p) eqn:IU; [discriminate|].
      destruct OK as [_ N77]. rewrite IU in N77. unfold ul_write. cbn [m_id info_of]. unfold is_ulog in IU.
      assert (C : negb ((p_id p =? 77) || (p_id p =? 266) || (p_id p =? 267)) = true) by lia. rewrite C. cbn [bind].
      eexists _, _, _, _. split; [reflexivity|]. split. { split; auto. } eapply following_same; eauto.
    + cbn [levent]. destruct (l_tstart g) eqn:TS.
      * cbn [lcb_start]. unfold send_command, send_ctl. eexists _, _, _, _. split; [reflexivity|]. split. { split; cbn; auto. } eapply following_same; eauto.
      * eexists _, _, _, _. split; [reflexivity|]. split; [apply keeps_refl|]. auto.
  - destruct (ve_packets _ _ _ V i p N) as (IU & UP & _).
    cbn [levent]. unfold lwrite. destruct (learn_same g (info_of (v_tbl v) p)) as (Q1 & Q2 & Q3 & Q4 & Q5). set (g0 := learn_target g (info_of (v_tbl v) p)) in *.
    rewrite auto_idle by congruence. cbn [bind].
    destruct (T (p_id p)) as (ent & TE & ML). { unfold is_ulog in IU. lia. }
    destruct (ul_write_packet f v y g0 u p tail ent UP IU TE ML BT) as (mm & b & y1 & g1 & HO & _ & CALM & E1 & E2 & E3 & E4 & E5 & E6 & cs0 & kk & W).
    assert (FO1 : following hd ms x ps y1 g1 u e) by (eapply following_same; eauto; congruence).
    destruct (vehicle_step f hd ms x ps v y1 g1 u mm b p i e V N HO) as (y2 & g2 & u2 & mm2 & EP & K & FO2); auto.
    { eapply mild_later; eauto. lia. }
    rewrite W, EP. cbn [bind]. eexists _, _, _, _. split; [reflexivity|].
    split. { destruct K. split; cbn [count_write set_counts l_name l_mode]; congruence || lia. }
    eapply following_same; [exact FO2| | | |]; reflexivity.
Qed.

Lemma vehicle_run : forall f hd ms x ps v evs e y g u, vehicle ms x ps -> (2049 <= f)%nat ->
  (forall id, id = 266 \/ id = 267 -> exists ent, v_tbl v id = Some ent /\ e_max_len ent = 255) ->
  arrives v ps e evs -> mild_writes v y ms -> l_mode g = MAlways -> following hd ms x ps y g u e ->
  exists y' g' u' cs e', lrun f v y g (BULog u) evs = Ok (y', g', BULog u', cs) /\ keeps y g y' g' /\ following hd ms x ps y' g' u' e'.
Proof.
  intros f hd ms x ps v evs e y g u V F T AR. revert y g u. induction AR as [e|e ev r OK UN AR IH|e i p tail r N BT RI AR IH]; intros y g u MW M FO.
  - cbn [lrun]. exists y, g, u, [], e. split; auto. split; auto. apply keeps_refl.
  - destruct (vehicle_event f hd ms x ps v y g u ev e e r V MW F T M) as (y1 & g1 & u1 & c1 & E1 & K1 & FO1); auto.
    destruct (IH y1 g1 u1) as (y2 & g2 & u2 & c2 & e2 & E2 & K2 & FO2); auto. { eapply mild_later; eauto. apply K1. } { destruct K1; congruence. }
    cbn [lrun]. rewrite E1. cbn [bind]. rewrite E2. cbn [bind]. exists y2, g2, u2, (c1 ++ c2), e2. split; auto. split; auto. eapply keeps_trans; eauto.
  - destruct (vehicle_event f hd ms x ps v y g u (LMsg p tail) e (Nat.max e (Datatypes.S i)) r V MW F T M) as (y1 & g1 & u1 & c1 & E1 & K1 & FO1); auto.
    { right. exists i, p, tail. auto. }
    destruct (IH y1 g1 u1) as (y2 & g2 & u2 & c2 & e2 & E2 & K2 & FO2); auto. { eapply mild_later; eauto. apply K1. } { destruct K1; congruence. }
    cbn [lrun]. rewrite E1. cbn [bind]. rewrite E2. cbn [bind]. exists y2, g2, u2, (c1 ++ c2), e2. split; auto. split; auto. eapply keeps_trans; eauto.
Qed.

(* a packet with log data, in any log mode *)
Lemma auto_data : forall f v y g b mem m, l_open g = true -> m_id m <> 0 -> auto_start_stop f v y g b mem m = Ok (y, g, b, []).
Proof.
  intros f v y g b mem m O N. unfold auto_start_stop. rewrite O, (proj2 (Z.eqb_neq _ _) N). cbn [andb]. destruct (l_target g =? -1), (l_mode g); reflexivity.
Qed.
Lemma vehicle_data : forall f hd ms x ps v y g u i p tail e, vehicle ms x ps -> mild_writes v y ms -> (2049 <= f)%nat ->
  (forall id, id = 266 \/ id = 267 -> exists ent, v_tbl v id = Some ent /\ e_max_len ent = 255) ->
  nth_error ps i = Some p -> bytes tail -> - 32767 < Z.of_nat i - Z.of_nat e < 32768 -> following hd ms x ps y g u e ->
  exists y' g' u' cs, levent f v y g (BULog u) (LMsg p tail) = Ok (y', g', BULog u', cs) /\ keeps y g y' g' /\ following hd ms x ps y' g' u' (Nat.max e (Datatypes.S i)).
Proof.
  intros f hd ms x ps v y g u i p tail e V MW F T N BT RI FO.
  assert (O : l_open g = true). { destruct FO as [_ _ _ (k & [(d & s & A & _) _] & _)]. apply A. }
  destruct (ve_packets _ _ _ V i p N) as (IU & UP & _).
  cbn [levent]. unfold lwrite. destruct (learn_same g (info_of (v_tbl v) p)) as (Q1 & Q2 & Q3 & Q4 & Q5). set (g0 := learn_target g (info_of (v_tbl v) p)) in *.
  rewrite auto_data; [|congruence|cbn [m_id info_of]; unfold is_ulog in IU; lia]. cbn [bind].
  destruct (T (p_id p)) as (ent & TE & ML). { unfold is_ulog in IU. lia. }
  destruct (ul_write_packet f v y g0 u p tail ent UP IU TE ML BT) as (mm & b & y1 & g1 & HO & _ & CALM & E1 & E2 & E3 & E4 & E5 & E6 & cs0 & kk & W).
  assert (FO1 : following hd ms x ps y1 g1 u e) by (eapply following_same; eauto; congruence).
  destruct (vehicle_step f hd ms x ps v y1 g1 u mm b p i e V N HO) as (y2 & g2 & u2 & mm2 & EP & K & FO2); auto.
  { eapply mild_later; eauto. lia. }
  rewrite W, EP. cbn [bind]. eexists _, _, _, _. split; [reflexivity|].
  split. { destruct K. split; cbn [count_write set_counts l_name l_mode]; congruence || lia. }
  eapply following_same; [exact FO2| | | |]; reflexivity.
Qed.

(* the packet with the header *)
Lemma vehicle_header : forall f hd ms x ps v y g u p0 tail0, vehicle ms x ps -> (2049 <= f)%nat -> mild_writes v y ms ->
  (forall id, id = 266 \/ id = 267 -> exists ent, v_tbl v id = Some ent /\ e_max_len ent = 255) ->
  ul_inv u -> u_hdr u = true -> u_first u = false -> u_len u = 0 -> u_exp u = 0 -> ul_seq p0 = 0 ->
  at_end y g [] -> is_ulog p0 = true -> ul_packet p0 -> bytes tail0 ->
  17 <= ul_size p0 <= 249 -> (ul_size p0 <= 233 \/ length (p_payload p0) = 255%nat /\ (14 <= length tail0)%nat) ->
  ul_bytes p0 = hd ++ x -> length hd = 16%nat -> firstn 7 hd = ulog_magic ->
  exists y' g' u' cs, levent f v y g (BULog u) (LMsg p0 tail0) = Ok (y', g', BULog u', cs) /\ keeps y g y' g' /\ following hd ms x ps y' g' u' 0.
Proof.
  intros f hd ms x ps v y g u p0 tail0 V F MW T I HD FF L0 X SQ A IU UP BT SZ ROOM EB LH MG.
  cbn [levent]. unfold lwrite. destruct (learn_same g (info_of (v_tbl v) p0)) as (Q1 & Q2 & Q3 & Q4 & Q5). set (g0 := learn_target g (info_of (v_tbl v) p0)) in *.
  rewrite auto_data; [|rewrite Q1; apply A|cbn [m_id info_of]; unfold is_ulog in IU; lia]. cbn [bind].
  destruct (T (p_id p0)) as (ent & TE & ML). { unfold is_ulog in IU. lia. }
  destruct (ul_write_packet f v y g0 u p0 tail0 ent UP IU TE ML BT) as (mm & b & y1 & g1 & HO & WH & CALM & E1 & E2 & E3 & E4 & E5 & E6 & cs0 & kk & W).
  assert (A1 : at_end y1 g1 []) by (eapply at_end_same; [exact A| | | |]; congruence).
  destruct (header_data f v y1 g1 u mm b p0 hd x) as (u4 & mm4 & E & B4 & H4 & F4 & X4 & P4 & PA4 & W4); auto; try congruence.
  - apply UP.
  - destruct ROOM as [ROOM|[ROOM TL]].
    + destruct HO as (_ & L & _). lia.
    + destruct WH as [(-> & -> & LP)|(L255 & -> & LL)].
      * rewrite app_length, encode_length. unfold hlen. destruct (p_ver p0); lia.
      * congruence.
  - assert (P0 : packet_at x ps 0 = length x) by (unfold packet_at; cbn [firstn map concat]; rewrite app_nil_r; reflexivity).
    assert (SX : seg (concat ms) 0 (length x) = x /\ (length x <= length (concat ms))%nat).
    { destruct (ve_stream _ _ _ V) as (more & <-). split; [|rewrite app_length; lia]. unfold seg. cbn [skipn]. rewrite Nat.sub_0_r. apply firstn_app_le. reflexivity. }
    destruct (ul_flush_filed f hd ms v y1 g1 u4 0 (length x)) as (y2 & g2 & u2 & ok & k & EF & K & FD & _ & W2 & R2); auto.
    + apply V.
    + split; [|lia]. exists [], []. split; auto. rewrite P4. change (Z.to_nat 16) with 16%nat. rewrite PA4. cbn [concat app]. rewrite app_nil_r. split; auto.
      split; [constructor|]. cbn [last]. lia.
    + eapply mild_later; eauto. lia.
    + change (begins ms 0) with 0%nat. rewrite (proj1 SX). auto.
    + change (begins ms 0) with 0%nat. lia.
    + destruct (flush_flags _ _ _ _ _ _ _ _ _ B4 EF) as (B' & X' & H' & F').
      rewrite W, E, EF. cbn [bind]. eexists _, _, _, _. split; [reflexivity|].
      split. { destruct K. split; cbn [count_write set_counts l_name l_mode]; congruence || lia. }
      assert (XE : u_exp u2 = (Z.of_nat 0 + 1) mod 65536). { rewrite X', X4, SQ. reflexivity. }
      assert (FO : following hd ms x ps y2 g2 u2 0).
      { split; try congruence.
        - split; auto; try congruence. rewrite XE. apply Z.mod_pos_bound. lia.
        - exists k. split; [exact FD|]. rewrite P0. auto. }
      eapply following_same; [exact FO| | | |]; reflexivity.
Qed.
