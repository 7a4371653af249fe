(* Binary log: contents of the file and acknowledgements. *)
From Verif Require Import Base Mav SpecFrame Frame FrameProofs Names NamesProofs Sys LogFile LogFileProofs ULog Loggers LogInv LogStep
  SpecLog LogRun LogModes LogModes2 SpecOwn Pack.

(* ---- files ------------------------------------------------------------------------------------- *)

Lemma file_put_length : forall d off bs, length (file_put d off bs) = Nat.max (length d) (off + length bs).
Proof. intros. unfold file_put. rewrite !app_length, firstn_length, skipn_length, app_length, repeat_length. lia. Qed.

Lemma nth_repeat0 : forall n p, nth p (repeat 0 n) 0 = 0.
Proof. induction n; destruct p; cbn; auto. Qed.
Lemma nth_firstn_lt : forall (l : list Z) n p d, (p < n)%nat -> nth p (firstn n l) d = nth p l d.
Proof. induction l; destruct n, p; cbn; intros; auto; try lia. apply IHl. lia. Qed.
Lemma nth_skipn0 : forall n (l : list Z) p d, nth p (skipn n l) d = nth (n + p) l d.
Proof. induction n; destruct l; cbn; intros; auto. destruct p; auto. Qed.

Lemma file_put_nth : forall d off bs p, nth p (file_put d off bs) 0 =
  if (off <=? p)%nat && (p <? off + length bs)%nat then nth (p - off) bs 0 else nth p d 0.
Proof.
  intros. unfold file_put.
  assert (LF : length (firstn off (d ++ repeat 0 (off - length d))) = off).
  { rewrite firstn_length, app_length, repeat_length. lia. }
  destruct (Nat.leb_spec off p) as [A|A]; cbn [andb].
  - rewrite app_nth2 by lia. rewrite LF. destruct (Nat.ltb_spec p (off + length bs)) as [B|B].
    + apply app_nth1. lia.
    + rewrite app_nth2 by lia. rewrite nth_skipn0. f_equal. lia.
  - rewrite app_nth1 by lia. rewrite nth_firstn_lt by lia. destruct (Nat.lt_ge_cases p (length d)).
    + apply app_nth1; auto.
    + rewrite app_nth2 by lia. rewrite nth_repeat0. symmetry. apply nth_overflow. lia.
Qed.

(* the file called [name] exists and holds [data] *)
Definition content (y : sys) (name data : list Z) : Prop :=
  exists l, y_fs y = Some l /\ (exists e, In e l /\ d_name e = name) /\ (forall e, In e l -> d_name e = name -> d_data e = data).

Lemma content_fs : forall y y' n d, y_fs y' = y_fs y -> content y n d -> content y' n d.
Proof. unfold content. intros y y' n d E. rewrite E. auto. Qed.

Lemma content_unique : forall y n d d', content y n d -> content y n d' -> d = d'.
Proof. intros y n d d' (l & F & (e & I & N) & D) (l' & F' & _ & D'). rewrite F in F'. inversion F'; subst. rewrite <- (D e I eq_refl). auto. Qed.

Lemma content_put : forall l y n d off bs, y_fs y = Some l -> content y n d ->
  content (set_fs y (Some (fs_upd l n (d_put off bs)))) n (file_put d off bs).
Proof.
  intros l y n d off bs F (l' & F' & (e & I & N) & D). rewrite F in F'. inversion F'; subst l'; clear F'.
  exists (fs_upd l n (d_put off bs)). split; [reflexivity|]. split.
  - exists (d_put off bs e). split; [|exact N]. unfold fs_upd. apply in_map_iff. exists e. split; auto.
    rewrite (proj2 (beqs_eq _ _) N). reflexivity.
  - intros e' I' N'. unfold fs_upd in I'. apply in_map_iff in I'. destruct I' as (e0 & E0 & I0).
    destruct (beqs (d_name e0) n) eqn:B.
    + apply beqs_eq in B. subst e'. cbn. f_equal. auto.
    + subst e'. apply (proj2 (beqs_eq _ _)) in N'. congruence.
Qed.

(* a complete write *)
Lemma file_write_full : forall v y g off bs d, l_open g = true -> content y (l_name g) d -> Z.of_nat (length bs) <= v_orc v (y_pos y) ->
  exists y', file_write v y g off bs = (Z.of_nat (length bs), y', set_file g true (l_name g) (off + length bs)) /\
    content y' (l_name g) (file_put d off bs) /\ y_pos y' = Datatypes.S (y_pos y) /\ y_timers y' = y_timers y /\ y_next y' = y_next y /\ y_seq y' = y_seq y.
Proof.
  intros v y g off bs d O C R. unfold file_write. rewrite O. unfold ask.
  assert (E : v_orc v (y_pos y) <? 0 = false) by (apply Z.ltb_ge; lia). rewrite E.
  assert (M : Nat.min (Z.to_nat (v_orc v (y_pos y))) (length bs) = length bs) by lia. rewrite M, firstn_all.
  destruct C as (l & F & C). cbn [set_pos y_fs]. rewrite F. eexists. split; [reflexivity|]. split.
  - apply content_put; auto. exists l. split; auto.
  - cbn. auto.
Qed.

(* ---- status messages ------------------------------------------------------------------------------ *)

Lemma restored_trim : forall p, p <> [] -> restored (length p) (trim_payload p) = p.
Proof.
  intros p N. destruct (trim_spec p N) as (k & E & L). unfold restored.
  assert (LP : length p = (length (trim_payload p) + k)%nat) by (rewrite E at 1; rewrite app_length, repeat_length; lia).
  rewrite firstn_app. rewrite firstn_all2 by lia.
  replace (length p - length (trim_payload p))%nat with k by lia.
  assert (R : firstn k (repeat (0:Z) (length p)) = repeat 0 k).
  { rewrite LP. replace (length (trim_payload p) + k)%nat with (k + length (trim_payload p))%nat by lia.
    rewrite repeat_app, firstn_app, repeat_length, Nat.sub_diag, firstn_O, app_nil_r. apply firstn_all2. rewrite repeat_length. lia. }
  rewrite R. auto.
Qed.

Lemma trim_length : forall p, p <> [] -> (length (trim_payload p) <= length p)%nat.
Proof. intros p N. destruct (trim_spec p N) as (k & E & _). rewrite E at 2. rewrite app_length. lia. Qed.

Lemma pack2_payload : forall seq id x p, p <> [] -> (length p < 256)%nat ->
  restored (length p) (firstn (Z.to_nat (nth 1 (pack2 seq id x p) 0)) (skipn 10 (pack2 seq id x p))) = p.
Proof.
  intros seq id x p N L. unfold pack2. cbn [app nth skipn]. rewrite Nat2Z.id.
  rewrite firstn_app, Nat.sub_diag, firstn_all, firstn_O, app_nil_r. apply restored_trim; auto.
Qed.

Lemma le32_field : forall n r, 0 <= n < 4294967296 -> field32 (le32 n ++ r) 0 = n.
Proof.
  intros n r H. unfold le32, field32, u8. cbn [app nth Nat.add].
  assert (A : n / 65536 = n / 256 / 256) by (rewrite Z.div_div by lia; reflexivity).
  assert (B : n / 16777216 = n / 256 / 256 / 256) by (rewrite !Z.div_div by lia; reflexivity).
  rewrite ?A, ?B. clear A B. Z.div_mod_to_equations. lia.
Qed.

Lemma status_block : forall seq n t st, 0 <= n < 4294967296 ->
  status_of (pack2 seq 185 186 (le32 n ++ [t; 0; st])) = (n, st).
Proof.
  intros. unfold status_of. change 7%nat with (length (le32 n ++ [t; 0; st])). rewrite pack2_payload.
  - f_equal. apply le32_field; auto.
  - discriminate.
  - cbn. lia.
Qed.

(* what a status message says, as sent by the logger *)
Definition statuses (cs : list ctl) : list (Z * Z) := map (fun c => status_of (fst c)) cs.

Lemma send_block_status_spec : forall y g n st y' g' c, 0 <= n < 4294967296 -> send_block_status y g n st = (y', g', c) ->
  status_of (fst c) = (n, st) /\ calm y g y' g' /\ y_fs y' = y_fs y /\ y_pos y' = y_pos y /\ l_off g' = l_off g.
Proof.
  intros y g n st y' g' c N H. pose proof (calm_block_status _ _ _ _ _ _ _ H) as C. unfold send_block_status, send_ctl in H.
  pose proof (f_equal snd H) as A. pose proof (f_equal (fun t => fst (fst t)) H) as B. pose proof (f_equal (fun t => snd (fst t)) H) as D.
  cbn [fst snd] in A, B, D. split; [|split; auto].
  - rewrite <- A. cbn [fst]. apply status_block; auto.
  - rewrite <- B, <- D. cbn. auto.
Qed.

Lemma send_nacks_spec : forall k y g n y' g' cs, 0 <= n < 4294967296 -> send_nacks k y g n = (y', g', cs) ->
  statuses cs = repeat (n, 0) k /\ calm y g y' g' /\ y_fs y' = y_fs y /\ y_pos y' = y_pos y /\ l_off g' = l_off g.
Proof.
  induction k; intros y g n y' g' cs N H; cbn [send_nacks] in H.
  - inversion H; subst. cbn. repeat split; auto; apply calm_refl.
  - destruct (send_block_status y g n BLOCK_NACK) as [[y1 g1] c1] eqn:E. destruct (send_nacks k y1 g1 n) as [[y2 g2] c2] eqn:F.
    inversion H; subst. destruct (send_block_status_spec _ _ _ _ _ _ _ N E) as (A1 & A2 & A3 & A4 & A5).
    destruct (IHk _ _ _ _ _ _ N F) as (B1 & B2 & B3 & B4 & B5). split.
    + unfold statuses in *. cbn [map repeat]. rewrite A1, B1. reflexivity.
    + split; [eapply calm_trans; eauto|]. repeat split; congruence.
Qed.

(* number of NACKs: the blocks between the last acknowledged one and this one *)
Definition nack_count (acked n : Z) : nat := if n <? acked then 0%nat else Z.to_nat (n - u32 (acked + 1)).

Lemma send_ack_spec : forall y g a n y' g' a' cs, 0 <= n < 4294967296 -> send_ack y g a n = (y', g', a', cs) ->
  statuses cs = repeat (n, 0) (nack_count a n) ++ [(n, 1)] /\ calm y g y' g' /\ y_fs y' = y_fs y /\ y_pos y' = y_pos y /\
  l_off g' = l_off g /\ a' = Z.max a n.
Proof.
  intros y g a n y' g' a' cs N H. unfold send_ack, nack_count in *. destruct (Z.ltb_spec n a).
  - destruct (send_block_status y g n BLOCK_ACK) as [[y1 g1] c1] eqn:E. inversion H; subst.
    destruct (send_block_status_spec _ _ _ _ _ _ _ N E) as (A1 & A2 & A3 & A4 & A5).
    unfold statuses. cbn [map repeat app]. rewrite A1. repeat split; auto; try apply A2. lia.
  - destruct (send_nacks (Z.to_nat (n - u32 (a + 1))) y g n) as [[y1 g1] c1] eqn:E.
    destruct (send_block_status y1 g1 n BLOCK_ACK) as [[y2 g2] c2] eqn:F. inversion H; subst.
    destruct (send_nacks_spec _ _ _ _ _ _ _ N E) as (B1 & B2 & B3 & B4 & B5).
    destruct (send_block_status_spec _ _ _ _ _ _ _ N F) as (A1 & A2 & A3 & A4 & A5).
    split.
    { unfold statuses in *. etransitivity; [apply map_app|]. f_equal; [exact B1|]. cbn [map]. rewrite A1. reflexivity. }
    split; [eapply calm_trans; eauto|]. repeat split; try congruence. lia.
Qed.

(* ---- reading a data block --------------------------------------------------------------------------- *)

Definition block_ok (p : packet) : Prop :=
  p_id p = 184 /\ wf_packet p /\ (p_ver p = V1 -> (206 <= length (p_payload p))%nat).

Lemma restored_long : forall n l, (n <= length l)%nat -> restored n l = firstn n l.
Proof. intros. unfold restored. rewrite firstn_app. replace (n - length l)%nat with 0%nat by lia. rewrite firstn_O, app_nil_r. auto. Qed.
Lemma restored_short : forall n l, (length l <= n)%nat -> restored n l = l ++ repeat 0 (n - length l).
Proof.
  intros. unfold restored. rewrite firstn_app, firstn_all2 by lia. f_equal.
  replace n with ((n - length l) + length l)%nat at 2 by lia. rewrite repeat_app, firstn_app, repeat_length, Nat.sub_diag, firstn_O, app_nil_r.
  apply firstn_all2. rewrite repeat_length. lia.
Qed.
Lemma restored_length : forall n l, length (restored n l) = n.
Proof. intros. unfold restored. rewrite firstn_length, app_length, repeat_length. lia. Qed.

Lemma rd32_field : forall l i, (i + 4 <= length l)%nat -> rd32 l i = Ok (field32 l i).
Proof. intros. unfold rd32. rewrite !rd_Ok by lia. cbn [bind]. reflexivity. Qed.

Lemma encode_first : forall p tail, rd (encode p ++ tail) 0 = Ok (match p_ver p with V1 => 254 | _ => 253 end) /\
  rd (encode p ++ tail) 1 = Ok (plen p).
Proof. intros. unfold encode, body. destruct (p_ver p); cbn; auto. Qed.

Lemma encode_payload_nth : forall p tail i, (i < length (p_payload p))%nat -> nth (hlen p + i) (encode p ++ tail) 0 = nth i (p_payload p) 0.
Proof.
  intros. pose proof (payload_byte p tail i H) as E. apply rd_inv in E. symmetry. apply E.
Qed.

Lemma bin_read : forall v e p tail, block_ok p -> v_tbl v 184 = Some e -> e_max_len e = 206 ->
  exists pl tz mm b, payload_dims e (encode p ++ tail) (info_of (v_tbl v) p) = Ok (pl, tz) /\
    (if tz =? 0 then Ok (encode p ++ tail, m_poff (info_of (v_tbl v) p))
     else let* loc := local_copy 206 (encode p ++ tail) (info_of (v_tbl v) p) pl tz in Ok (loc, O)) = Ok (mm, b) /\
    rd32 mm b = Ok (block_number p) /\ slice mm (b + 6) 200 = Ok (block_data p).
Proof.
  intros v e p tail (ID & W & V) T ML. destruct (encode_first p tail) as (R0 & R1).
  assert (LP : (length (p_payload p) < 256)%nat) by apply W.
  unfold payload_dims. rewrite R0, R1. cbn [bind]. rewrite ML. cbn [m_plen m_poff info_of].
  assert (INPLACE : (206 <= length (p_payload p))%nat ->
     rd32 (encode p ++ tail) (hlen p) = Ok (block_number p) /\ slice (encode p ++ tail) (hlen p + 6) 200 = Ok (block_data p)).
  { intros L. split.
    - destruct (payload_at p tail) as (pre & post & E & LL & _). rewrite rd32_field by (rewrite E, !app_length; lia). f_equal.
      unfold block_number. rewrite restored_long by auto. unfold field32.
      rewrite !nth_firstn_lt by lia. rewrite <- (encode_payload_nth p tail 0), <- (encode_payload_nth p tail (0+1)), <- (encode_payload_nth p tail (0+2)), <- (encode_payload_nth p tail (0+3)) by lia.
      rewrite Nat.add_0_r. reflexivity.
    - rewrite payload_slice by lia. f_equal. unfold block_data. rewrite restored_long by auto. rewrite skipn_firstn_comm. reflexivity. }
  destruct (p_ver p) as [|fl cf sg] eqn:VV.
  - assert (X : 254 =? STX2 = false) by reflexivity. rewrite X.
    eexists. exists 0, (encode p ++ tail), (hlen p). split; [reflexivity|]. split; [reflexivity|]. apply INPLACE; auto.
  - assert (X : 253 =? STX2 = true) by reflexivity. rewrite X. cbn [bind].
    unfold plen. destruct (Z.ltb_spec 206 (Z.of_nat (length (p_payload p)))) as [B|B].
    + exists 206, 0, (encode p ++ tail), (hlen p). split; [reflexivity|]. split; [reflexivity|]. apply INPLACE; lia.
    + destruct (Z.eqb_spec (206 - Z.of_nat (length (p_payload p))) 0) as [Z0|Z0].
      * eexists. eexists. exists (encode p ++ tail), (hlen p). split; [reflexivity|]. rewrite Z0. cbn [Z.eqb]. split; [reflexivity|]. apply INPLACE; lia.
      * eexists. eexists. exists (restored 206 (p_payload p)), 0%nat. split; [reflexivity|].
        rewrite (proj2 (Z.eqb_neq _ _) Z0). unfold local_copy. cbn [m_poff info_of]. rewrite Nat2Z.id.
        pose proof (payload_slice p tail 0 (length (p_payload p))) as PS. rewrite Nat.add_0_r in PS. rewrite PS by lia. cbn [bind skipn].
        rewrite firstn_all. rewrite restored_short by lia.
        replace (Z.to_nat (206 - Z.of_nat (length (p_payload p)))) with (206 - length (p_payload p))%nat by lia.
        assert (L206 : length (p_payload p ++ repeat 0 (206 - length (p_payload p))) = 206%nat) by (rewrite app_length, repeat_length; lia).
        rewrite L206. cbn [Nat.leb bind]. split; [reflexivity|]. split.
        -- rewrite rd32_field by lia. f_equal. unfold block_number. rewrite restored_short by lia. reflexivity.
        -- rewrite slice_Ok by lia. f_equal. unfold block_data. rewrite restored_short by lia. cbn [Nat.add].
           apply firstn_all2. rewrite skipn_length. lia.
Qed.

Lemma block_data_length : forall p, length (block_data p) = 200%nat.
Proof. intros. unfold block_data. rewrite skipn_length, restored_length. reflexivity. Qed.

Lemma Forall_firstn_z : forall (P : Z -> Prop) n l, Forall P l -> Forall P (firstn n l).
Proof. induction n; destruct l; cbn; intros H; auto. inversion H; constructor; auto. Qed.

Lemma block_number_range : forall p, wf_packet p -> 0 <= block_number p < 4294967296.
Proof.
  intros p W. unfold block_number, field32.
  assert (B : bytes (restored 206 (p_payload p))).
  { unfold restored, bytes. apply Forall_firstn_z. apply Forall_app. split; [apply W|]. clear. generalize 206%nat as k. induction k; cbn; constructor; auto. unfold is_byte; lia. }
  pose proof (nth_byte _ 0 B). pose proof (nth_byte _ (0+1) B). pose proof (nth_byte _ (0+2) B). pose proof (nth_byte _ (0+3) B). unfold is_byte in *. lia.
Qed.

(* ---- one event ---------------------------------------------------------------------------------------- *)

Definition waiting (g : lg) : bool := match l_tstart g with Some _ => true | None => false end.

Lemma latest_snoc : forall n bs k d acc, latest n (bs ++ [(k, d)]) acc = if k =? n then Some d else latest n bs acc.
Proof. induction bs as [|[k' d'] bs IH]; intros; cbn [app latest]; auto. Qed.

Lemma fold_max_snoc : forall bs (b : Z * list Z), fold_right (fun b m => Nat.max (Z.to_nat (200 * (fst b + 1))) m) 0%nat (bs ++ [b]) =
  Nat.max (fold_right (fun b m => Nat.max (Z.to_nat (200 * (fst b + 1))) m) 0%nat bs) (Z.to_nat (200 * (fst b + 1))).
Proof. induction bs; intros; cbn [app fold_right]; try rewrite IHbs; lia. Qed.

Lemma image_put : forall bs data n d, log_image bs data -> 0 <= n -> length d = 200%nat ->
  log_image (bs ++ [(n, d)]) (file_put data (Z.to_nat (200 * n)) d).
Proof.
  intros bs data n d [I L] N D. split.
  - intros k i K I'. rewrite latest_snoc, file_put_nth, D. destruct (Z.eqb_spec n k) as [->|NE].
    + assert (X : ((Z.to_nat (200 * k) <=? Z.to_nat (200 * k) + i) && (Z.to_nat (200 * k) + i <? Z.to_nat (200 * k) + 200) = true)%nat).
      { apply andb_true_intro. split; [apply Nat.leb_le|apply Nat.ltb_lt]; lia. }
      rewrite X. f_equal. lia.
    + assert (X : ((Z.to_nat (200 * n) <=? Z.to_nat (200 * k) + i) && (Z.to_nat (200 * k) + i <? Z.to_nat (200 * n) + 200) = false)%nat).
      { apply andb_false_iff. destruct (Z.lt_ge_cases n k); [right; apply Nat.ltb_ge|left; apply Nat.leb_gt]; lia. }
      rewrite X. apply I; auto.
  - rewrite file_put_length, fold_max_snoc, L, D. cbn [fst]. lia.
Qed.

Lemma remove_start_ok : forall y g, sys_ok y -> linv y g -> l_tstart g <> None -> exists y' g', remove_start_timeout y g = Ok (y', g').
Proof.
  intros y g S L N. unfold remove_start_timeout. pose proof (li_start _ _ L) as P. destruct (l_tstart g) as [id|] eqn:T; [|congruence].
  destruct (drop_timer_spec y (Some id) (CbLogStart (l_ep g)) (l_ep g) S P eq_refl) as (y' & E & _). cbn [drop_timer] in E. rewrite E. cbn [bind]. eauto.
Qed.

Lemma auto_idle : forall f v y g b mem m, l_mode g = MAlways -> l_open g = true -> auto_start_stop f v y g b mem m = Ok (y, g, b, []).
Proof. intros. unfold auto_start_stop. rewrite H, H0. destruct (l_target g =? -1); reflexivity. Qed.

(* the acknowledgements of data blocks, among all status messages *)
Definition acks (cs : list ctl) : list (Z * Z) := filter (fun s => (fst s <? 21474836) && (snd s =? 1)) (statuses cs).

Lemma acks_app : forall a b, acks (a ++ b) = acks a ++ acks b.
Proof. intros. unfold acks, statuses. rewrite map_app, filter_app. reflexivity. Qed.

Lemma acks_ack : forall cs n k, 0 <= n < 21474836 -> statuses cs = repeat (n, 0) k ++ [(n, 1)] -> acks cs = [(n, 1)].
Proof.
  intros cs n k N E. unfold acks. rewrite E. clear E. induction k; cbn [repeat app filter fst snd].
  - assert (X : (n <? 21474836) && (1 =? 1) = true) by (rewrite (proj2 (Z.ltb_lt _ _)) by lia; reflexivity). rewrite X. reflexivity.
  - change (0 =? 1) with false. rewrite andb_false_r. auto.
Qed.

Lemma bin_process_full32 : forall v y g a n d data, l_open g = true -> content y (l_name g) data ->
  (forall k, (y_pos y <= k)%nat -> 200 <= v_orc v k) -> 0 <= n < 4294967296 -> length d = 200%nat ->
  exists y' g' cs, bin_process v y g a n d = Ok (y', g', Z.max a n, cs) /\ l_open g' = true /\ l_name g' = l_name g /\
    content y' (l_name g') (file_put data (Z.to_nat (u32 (n * 200))) d) /\ l_mode g' = l_mode g /\ l_tstart g' = l_tstart g /\
    (y_pos y <= y_pos y')%nat /\ statuses cs = repeat (n, 0) (nack_count a n) ++ [(n, 1)].
Proof.
  intros v y g a n d data O C R N D. unfold bin_process. rewrite O. cbn [negb]. unfold ask at 1.
  assert (S0 : v_orc v (y_pos y) <? 0 = false) by (apply Z.ltb_ge; specialize (R (y_pos y)); lia). rewrite S0.
  destruct (file_write_full v (set_pos y (Datatypes.S (y_pos y))) g (Z.to_nat (u32 (n * 200))) d data O C) as (y1 & FW & C1 & P1 & _).
  { rewrite D. cbn [set_pos y_pos]. apply (R (Datatypes.S (y_pos y))). lia. }
  rewrite FW, D.
  assert (X1 : (200 <? 0) && negb (200 =? - EAGAIN) = false) by reflexivity.
  change (Z.of_nat 200) with 200. rewrite X1. cbn [Z.eqb negb Pos.eqb].
  destruct (send_ack y1 (set_file g true (l_name g) (Z.to_nat (u32 (n * 200)) + 200)) a n) as [[[y2 g2] a2] cs] eqn:SA.
  assert (N32 : 0 <= n < 4294967296) by lia.
  destruct (send_ack_spec _ _ _ _ _ _ _ _ N32 SA) as (B1 & B2 & B3 & B4 & B5 & ->).
  exists y2, g2, cs. split; [reflexivity|]. destruct B2. cbn in *. repeat split; auto.
  - rewrite ca_name. eapply content_fs; eauto.
  - apply ca_cfg.
  - lia.
Qed.

Lemma bin_process_full : forall v y g a n d data, l_open g = true -> content y (l_name g) data ->
  (forall k, (y_pos y <= k)%nat -> 200 <= v_orc v k) -> 0 <= n < 21474836 -> length d = 200%nat ->
  exists y' g' cs, bin_process v y g a n d = Ok (y', g', Z.max a n, cs) /\ l_open g' = true /\ l_name g' = l_name g /\
    content y' (l_name g') (file_put data (Z.to_nat (200 * n)) d) /\ l_mode g' = l_mode g /\ l_tstart g' = l_tstart g /\
    (y_pos y <= y_pos y')%nat /\ statuses cs = repeat (n, 0) (nack_count a n) ++ [(n, 1)].
Proof.
  intros v y g a n d data O C R N D. assert (N32 : 0 <= n < 4294967296) by lia.
  destruct (bin_process_full32 v y g a n d data O C R N32 D) as (y' & g' & cs & H). exists y', g', cs.
  assert (U : u32 (n * 200) = 200 * n) by (rewrite u32_small; lia). rewrite U in H. exact H.
Qed.

(* what is reported about data blocks (as opposed to the start and stop requests) *)
Definition reports (cs : list ctl) : list (Z * Z) := filter (fun s => fst s <? 21474836) (statuses cs).
Lemma reports_app : forall a b, reports (a ++ b) = reports a ++ reports b.
Proof. intros. unfold reports, statuses. rewrite map_app, filter_app. reflexivity. Qed.
Lemma reports_block : forall cs a n d, 0 <= n < 21474836 -> 0 <= a < 21474836 -> statuses cs = repeat (n, 0) (nack_count a n) ++ [(n, 1)] -> reports cs = block_reports a [(n, d)].
Proof.
  intros cs a n d N A E. unfold reports. rewrite E. cbn [block_reports]. assert (C : nack_count a n = Z.to_nat (n - a - 1)).
  { unfold nack_count. rewrite u32_small by lia. destruct (Z.ltb_spec n a); lia. }
  rewrite C. assert (L : n <? 21474836 = true) by (apply Z.ltb_lt; lia). generalize (Z.to_nat (n - a - 1)). intros k. rewrite filter_app. cbn [filter fst]. rewrite L. f_equal.
  induction k; cbn [repeat filter fst]; auto. rewrite L. f_equal. auto.
Qed.
Lemma block_reports_app : forall x a y, block_reports a (x ++ y) = block_reports a x ++ block_reports (fold_left (fun m b => Z.max m (fst b)) x a) y.
Proof. induction x as [|[n d] x IH]; intros a y; auto. cbn [app block_reports fold_left fst]. rewrite IH, <- app_assoc. reflexivity. Qed.
Lemma start_alive_pos : forall v y g y' g', start_alive v y g = (y', g') -> (y_pos y <= y_pos y')%nat.
Proof. intros v y g y' g' H. unfold start_alive, add_timer in H. destruct (negb _); inversion H; subst; cbn; lia. Qed.

Definition binrun (v : env) (y : sys) (g : lg) (data : list Z) : Prop :=
  sys_ok y /\ linv y g /\ l_open g = true /\ l_mode g = MAlways /\ content y (l_name g) data /\
  (forall k, (y_pos y <= k)%nat -> 200 <= v_orc v k).

Lemma learn_same : forall g m, l_open (learn_target g m) = l_open g /\ l_mode (learn_target g m) = l_mode g /\
  l_name (learn_target g m) = l_name g /\ l_tstart (learn_target g m) = l_tstart g /\ l_off (learn_target g m) = l_off g.
Proof. intros. unfold learn_target. destruct (_ && _); cbn; auto. Qed.

Lemma bin_event : forall f v y g a e data ent, binrun v y g data -> e <> LAlive ->
  v_tbl v 184 = Some ent -> e_max_len ent = 206 ->
  (forall p tail, e = LMsg p tail -> p_id p = 184 -> block_ok p /\ block_number p < 21474836) ->
  exists y' g' a' cs data', levent f v y g (BBin a) e = Ok (y', g', BBin a', cs) /\ binrun v y' g' data' /\ l_name g' = l_name g /\
    let bs := accepted (waiting g) (blocks (offered [e])) in
    (waiting g' = waiting g && (match bs with [] => true | _ => false end)) /\
    acks cs = map (fun b => (fst b, 1)) bs /\ (forall bs0, log_image bs0 data -> log_image (bs0 ++ bs) data') /\
    (0 <= a < 21474836 -> reports cs = block_reports a bs /\ 0 <= a' < 21474836 /\ a' = fold_left (fun m b => Z.max m (fst b)) bs a).
Proof.
  intros f v y g a e data ent (S & L & O & M & C & R) NA T ML OKB.
  assert (FIN : forall y' g' a' cs data', levent f v y g (BBin a) e = Ok (y', g', BBin a', cs) ->
            l_open g' = true -> l_mode g' = MAlways -> l_name g' = l_name g -> content y' (l_name g') data' -> (y_pos y <= y_pos y')%nat -> binrun v y' g' data').
  { intros y' g' a' cs data' E O' M' N' C' P'. destruct (levent_step _ _ _ _ _ _ _ _ _ _ E S L) as (S1 & L1 & _).
    unfold binrun. repeat (split; auto). intros k K. apply R. lia. }
  destruct e as [p tail| |]; [| |congruence].
  - pose proof (learn_inv _ _ (info_of (v_tbl v) p) L) as L'. destruct (learn_same g (info_of (v_tbl v) p)) as (Q1 & Q2 & Q3 & Q4 & Q5).
    cbn [levent] in FIN |- *. unfold lwrite in FIN |- *. rewrite auto_idle in FIN |- * by congruence. cbn [bind] in FIN |- *.
    set (g0 := learn_target g (info_of (v_tbl v) p)) in *. unfold bin_write in FIN |- *. cbn [m_id info_of] in FIN |- *.
    cbn [offered blocks filter]. unfold blocks. cbn [filter map]. destruct (Z.eqb_spec (p_id p) 184) as [ID|ID]; cbn [negb map] in FIN |- *.
    + rewrite ID, T in FIN |- *. destruct (OKB p tail eq_refl ID) as [B BN].
      destruct (bin_read v ent p tail B T ML) as (pl & tz & mm & b & PD & LC & R32 & SL).
      assert (BR : 0 <= block_number p < 4294967296) by (apply block_number_range; apply B).
      rewrite PD in FIN |- *. cbn [bind] in FIN |- *. rewrite LC in FIN |- *. cbn [bind] in FIN |- *. rewrite R32 in FIN |- *. cbn [bind] in FIN |- *.
      cbn [accepted]. unfold waiting. rewrite Q4 in FIN |- *. destruct (l_tstart g) as [id|] eqn:TS; cbn [andb bind] in FIN |- *.
      * destruct (Z.eqb_spec (block_number p) 0) as [Z0|Z0]; cbn [negb] in FIN |- *.
        -- destruct (remove_start_ok y g0 S L') as (y1 & g1 & RS). { rewrite Q4. discriminate. }
           rewrite RS in FIN |- *. cbn [bind] in FIN |- *. destruct (start_alive v y1 g1) as [y2 g2] eqn:SA. cbn [bind] in FIN |- *.
           destruct (step_started _ _ _ _ _ _ _ RS SA) as (ST & O2 & N2 & _ & T2 & F2 & M2 & _).
           rewrite SL in FIN |- *. cbn [bind] in FIN |- *.
           assert (P2 : (y_pos y <= y_pos y2)%nat) by (destruct ST; destruct (so_own S L') as (_ & _ & PO); exact PO).
           destruct (bin_process_full v y2 g2 a (block_number p) (block_data p) data) as (y3 & g3 & cs3 & BP & O3 & N3 & C3 & M3 & T3 & P3 & A3); auto.
           { congruence. } { rewrite N2, Q3. eapply content_fs; eauto. } { intros k K. apply R. lia. } { lia. } { apply block_data_length. }
           rewrite BP in FIN |- *. cbn [bind app] in FIN |- *.
           eexists y3, (count_write g3 _), _, cs3, _. split; [reflexivity|]. split.
           { eapply FIN; [reflexivity| | | | |]; cbn [l_open l_mode l_name count_write set_counts]; try congruence; try lia. exact C3. }
           split. { cbn [l_name count_write set_counts]. congruence. }
           split. { cbn [l_tstart count_write set_counts]. rewrite T3, T2. reflexivity. }
           split. { cbn [map fst]. eapply acks_ack; eauto. lia. }
           split. { intros bs0 I. apply image_put; auto. lia. apply block_data_length. }
           intros AR. split. { eapply reports_block; eauto. lia. } cbn [fold_left fst]. lia.
        -- destruct (send_block_status y g0 BLOCK_STOP 1) as [[y1 g1] c] eqn:SB. cbn [bind app] in FIN |- *.
           assert (BB : 0 <= BLOCK_STOP < 4294967296) by (unfold BLOCK_STOP; lia).
           destruct (send_block_status_spec _ _ _ _ _ _ _ BB SB) as (A1 & A2 & A3 & A4 & A5). destruct A2.
           eexists y1, g1, _, [c], data. split; [reflexivity|]. split.
           { eapply FIN; [reflexivity| | | | |]; try congruence; try lia. destruct ca_cfg as (_ & _ & _ & _ & _ & X). congruence.
             rewrite ca_name, Q3. eapply content_fs; eauto. }
           split; [congruence|]. split. { rewrite ca_ts, Q4. reflexivity. }
           split. { unfold acks, statuses. cbn [map filter]. rewrite A1. reflexivity. }
           split. { intros bs0 I. rewrite app_nil_r. auto. }
           intros AR. split. { unfold reports, statuses. cbn [map filter]. rewrite A1. reflexivity. } cbn [accepted fold_left]. lia.
      * rewrite SL in FIN |- *. cbn [bind] in FIN |- *.
        destruct (bin_process_full v y g0 a (block_number p) (block_data p) data) as (y3 & g3 & cs3 & BP & O3 & N3 & C3 & M3 & T3 & P3 & A3); auto.
        { congruence. } { rewrite Q3. auto. } { lia. } { apply block_data_length. }
        rewrite BP in FIN |- *. cbn [bind app] in FIN |- *.
        eexists y3, (count_write g3 _), _, cs3, _. split; [reflexivity|]. split.
        { eapply FIN; [reflexivity| | | | |]; cbn [l_open l_mode l_name count_write set_counts]; try congruence; try lia. exact C3. }
        split. { cbn [l_name count_write set_counts]. congruence. }
        split. { cbn [l_tstart count_write set_counts]. rewrite T3, Q4. reflexivity. }
        split. { cbn [map fst]. eapply acks_ack; eauto. lia. }
        split. { intros bs0 I. apply image_put; auto. lia. apply block_data_length. }
        intros AR. split. { eapply reports_block; eauto. lia. } cbn [fold_left fst]. lia.
    + cbn [bind app accepted] in FIN |- *. eexists y, g0, a, [], data. split; [reflexivity|]. split.
      { eapply FIN; [reflexivity| | | | |]; try congruence; try lia. }
      split; auto. split. { unfold waiting. rewrite Q4. rewrite andb_true_r. reflexivity. } split; auto.
      split. { intros bs0 I. rewrite app_nil_r. auto. } intros AR. split; [reflexivity|]. cbn [fold_left]. lia.
  - destruct (levent f v y g (BBin a) LStart) as [[[[y1 g1] b1] c1]| |] eqn:E.
    2,3: cbn [levent lcb_start] in E; destruct (l_tstart g); [destruct (send_block_status _ _ _ _) as [[? ?] ?]|]; discriminate.
    destruct (start_tick _ _ _ _ _ _ _ _ _ E) as (O1 & M1 & B1 & F1).
    assert (X : l_name g1 = l_name g /\ l_tstart g1 = l_tstart g /\ (y_pos y <= y_pos y1)%nat /\ acks c1 = [] /\ reports c1 = []).
    { cbn [levent lcb_start] in E. destruct (l_tstart g) eqn:TS.
      - destruct (send_block_status y g BLOCK_START 1) as [[y2 g2] c] eqn:SB. inversion E; subst.
        assert (BB : 0 <= BLOCK_START < 4294967296) by (unfold BLOCK_START; lia).
        destruct (send_block_status_spec _ _ _ _ _ _ _ BB SB) as (A1 & A2 & A3 & A4 & A5). destruct A2.
        repeat split; try congruence; try lia; unfold acks, reports, statuses; cbn [map filter]; rewrite A1; reflexivity.
      - inversion E; subst. repeat split; auto. }
    destruct X as (N1 & T1 & P1 & A1 & R1). subst b1. exists y1, g1, a, c1, data. split; auto. split.
    { eapply FIN; try congruence; eauto. rewrite N1. eapply content_fs; eauto. }
    split; auto. cbn [offered blocks filter map accepted]. split. { unfold waiting. rewrite T1, andb_true_r. reflexivity. }
    split; auto. split. { intros bs0 I. rewrite app_nil_r. auto. } intros AR. split; auto.
Qed.

Lemma bin_run : forall f v ent evs y g a data, binrun v y g data -> ~ In LAlive evs ->
  v_tbl v 184 = Some ent -> e_max_len ent = 206 ->
  (forall p, In p (offered evs) -> p_id p = 184 -> block_ok p /\ block_number p < 21474836) ->
  exists y' g' a' cs data', lrun f v y g (BBin a) evs = Ok (y', g', BBin a', cs) /\ binrun v y' g' data' /\ l_name g' = l_name g /\
    let bs := accepted (waiting g) (blocks (offered evs)) in
    acks cs = map (fun b => (fst b, 1)) bs /\ (forall bs0, log_image bs0 data -> log_image (bs0 ++ bs) data') /\
    (0 <= a < 21474836 -> reports cs = block_reports a bs /\ 0 <= a' < 21474836 /\ a' = fold_left (fun m b => Z.max m (fst b)) bs a).
Proof.
  intros f v ent. induction evs as [|e evs IH]; intros y g a data B NA T ML OKB.
  - exists y, g, a, [], data. split; [reflexivity|]. split; auto. split; auto. split; [reflexivity|]. split; [intros; rewrite app_nil_r; auto|]. intros AR. split; auto.
  - cbn [lrun].
    destruct (bin_event f v y g a e data ent B) as (y1 & g1 & a1 & c1 & d1 & E & B1 & N1 & W1 & A1 & I1 & R1); auto.
    { intros ->. apply NA. left; auto. }
    { intros p tail -> ID. apply OKB; auto. left; auto. }
    destruct (IH y1 g1 a1 d1 B1) as (y2 & g2 & a2 & c2 & d2 & R & B2 & N2 & A2 & I2 & R2); auto.
    { intros I. apply NA. right; auto. }
    { intros p I. apply OKB. destruct e; cbn [offered]; auto. right; auto. }
    rewrite E. cbn [bind]. rewrite R. cbn [bind]. eexists y2, g2, a2, (c1 ++ c2), d2. split; [reflexivity|]. split; auto. split; [congruence|].
    assert (X : accepted (waiting g) (blocks (offered (e :: evs))) = accepted (waiting g) (blocks (offered [e])) ++ accepted (waiting g1) (blocks (offered evs))).
    { rewrite W1. destruct e as [p tail| |]; cbn [offered]; unfold blocks; cbn [filter map]; try rewrite andb_true_r; auto.
      destruct (p_id p =? 184); cbn [map accepted app].
      - destruct (waiting g); cbn [andb]; auto. destruct (block_number p =? 0); cbn [negb andb app]; auto.
      - rewrite andb_true_r. auto. }
    rewrite X. split.
    + rewrite acks_app, A1, A2, map_app. reflexivity.
    + split. { intros bs0 I. rewrite app_assoc. auto. } intros AR. destruct (R1 AR) as (X1 & X2 & X3). destruct (R2 X2) as (Y1 & Y2 & Y3).
      rewrite reports_app, X1, Y1, block_reports_app, fold_left_app, <- X3. auto.
Qed.

(* ---- arbitrary outcomes of the system calls ------------------------------------------------------------ *)

Lemma restart_statuses : forall v y g a y' g' a' cs, bin_restart v y g a = Ok (y', g', a', cs) ->
  statuses cs = [] \/ statuses cs = [(BLOCK_STOP, 1)].
Proof.
  intros v y g a y' g' a' cs H. unfold bin_restart in H. inv_bind H. inv_bind H. inversion H; subst. unfold bin_stop in E.
  destruct (negb (l_open g)). { inversion E; subst; auto. }
  destruct (send_block_status y g BLOCK_STOP 1) as [[y1 g1] c] eqn:SB. inv_bind E. inversion E; subst. right.
  assert (BB : 0 <= BLOCK_STOP < 4294967296) by (unfold BLOCK_STOP; lia).
  destruct (send_block_status_spec _ _ _ _ _ _ _ BB SB) as (A1 & _). unfold statuses. cbn [map]. rewrite A1. reflexivity.
Qed.

Lemma bin_process_cases : forall v y g a n d y' g' a' cs data, bin_process v y g a n d = Ok (y', g', a', cs) ->
  0 <= n < 4294967296 -> length d = 200%nat -> (l_open g = true -> content y (l_name g) data) ->
  (statuses cs = [] \/ statuses cs = [(BLOCK_STOP, 1)]) \/
  (statuses cs = repeat (n, 0) (nack_count a n) ++ [(n, 1)] /\ content y' (l_name g) (file_put data (Z.to_nat (u32 (n * 200))) d)).
Proof.
  intros v y g a n d y' g' a' cs data H N D C. unfold bin_process in H. destruct (l_open g) eqn:O; cbn [negb] in H.
  2:{ left. eapply restart_statuses; eauto. }
  specialize (C eq_refl). unfold ask at 1 in H. destruct (_ <? 0). { left. eapply restart_statuses; eauto. }
  destruct (file_write v (set_pos y (Datatypes.S (y_pos y))) g (Z.to_nat (u32 (n * 200))) d) as [[r y1] g1] eqn:FW.
  destruct ((r <? 0) && negb (r =? - EAGAIN)). { left. eapply restart_statuses; eauto. }
  destruct (Z.eqb_spec r 200) as [->|NE]; cbn [negb] in H. 2:{ inversion H; subst. left. auto. }
  right. pose proof (f_equal (fun r => match r with Ok t => t | _ => (y, g, a, []) end) H) as H'. cbn beta iota in H'.
  destruct (send_ack_spec _ _ _ _ _ _ _ _ N H') as (B1 & B2 & B3 & B4 & B5 & B6). split; auto.
  eapply content_fs; eauto. unfold file_write, ask in FW. rewrite O in FW. destruct (Z.ltb_spec (v_orc v (y_pos (set_pos y (S (y_pos y))))) 0).
  { pose proof (f_equal (fun t => fst (fst t)) FW) as X. cbn [fst] in X. lia. }
  set (k := Nat.min (Z.to_nat (v_orc v (y_pos (set_pos y (S (y_pos y)))))) (length d)) in *.
  pose proof (f_equal (fun t => fst (fst t)) FW) as X. pose proof (f_equal (fun t => snd (fst t)) FW) as Y. cbn [fst snd] in X, Y. subst y1.
  assert (K : k = length d) by lia. rewrite K, firstn_all. destruct C as (l & F & C). cbn [set_pos y_fs]. rewrite F.
  apply content_put; auto. exists l. split; auto.
Qed.
