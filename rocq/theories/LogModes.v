(* When logs are open: lemmas for C47-C49 and C60. *)
From Verif Require Import Base Mav SpecFrame Frame FrameProofs Names NamesProofs Sys LogFile LogFileProofs ULog Loggers LogInv LogStep
  SpecLog LogRun.

(* ---- packets in memory ------------------------------------------------------------------- *)

Lemma payload_at : forall p tail, exists pre post, encode p ++ tail = pre ++ p_payload p ++ post /\ length pre = hlen p /\
  (length (encode p) = hlen p + length (p_payload p) + (length post - length tail))%nat /\ (2 + length tail <= length post)%nat.
Proof.
  intros. unfold encode, body, hlen. destruct (p_ver p) as [|fl cf sg].
  - exists [254; plen p; p_seq p; p_sys p; p_comp p; p_id p], ([p_crc0 p; p_crc1 p] ++ tail).
    split. { cbn [app]. rewrite <- !app_assoc. reflexivity. }
    split; [reflexivity|]. repeat (rewrite ?app_length; cbn [app length]). lia.
  - exists [253; plen p; fl; cf; p_seq p; p_sys p; p_comp p; p_id p mod 256; (p_id p / 256) mod 256; p_id p / 65536],
           ([p_crc0 p; p_crc1 p] ++ sg ++ tail).
    split. { cbn [app]. rewrite <- !app_assoc. cbn [app]. rewrite <- ?app_assoc. reflexivity. }
    split; [reflexivity|]. repeat (rewrite ?app_length; cbn [app length]). lia.
Qed.

Lemma payload_byte : forall p tail i, (i < length (p_payload p))%nat ->
  rd (encode p ++ tail) (hlen p + i) = Ok (nth i (p_payload p) 0).
Proof.
  intros p tail i H. destruct (payload_at p tail) as (pre & post & E & L & _). rewrite E, <- L.
  rewrite rd_Ok by (rewrite !app_length; lia). f_equal. rewrite app_nth2 by lia.
  replace (length pre + i - length pre)%nat with i by lia. apply app_nth1; auto.
Qed.

Lemma payload_slice : forall p tail i n, (i + n <= length (p_payload p))%nat ->
  slice (encode p ++ tail) (hlen p + i) n = Ok (firstn n (skipn i (p_payload p))).
Proof.
  intros p tail i n H. destruct (payload_at p tail) as (pre & post & E & L & _). rewrite E, <- L.
  rewrite slice_Ok by (rewrite !app_length; lia). f_equal.
  rewrite skipn_app. rewrite skipn_all2 by lia. cbn [app].
  replace (length pre + i - length pre)%nat with i by lia.
  rewrite skipn_app, firstn_app, skipn_length.
  replace (n - (length (p_payload p) - i))%nat with 0%nat by lia. rewrite firstn_O, app_nil_r. reflexivity.
Qed.

Lemma testbit7 : forall b, is_byte b -> Z.testbit b 7 = (128 <=? b).
Proof.
  intros b H. unfold is_byte in H. destruct (Z.leb_spec 128 b).
  - rewrite Z.testbit_true by lia. replace (2 ^ 7) with 128 by reflexivity.
    assert (b / 128 = 1) by (Z.div_mod_to_equations; lia). rewrite H1. reflexivity.
  - rewrite Z.testbit_false by lia. replace (2 ^ 7) with 128 by reflexivity. rewrite Z.div_small by lia. reflexivity.
Qed.

Lemma nth_byte : forall l i, bytes l -> is_byte (nth i l 0).
Proof.
  intros l i H. destruct (Nat.lt_ge_cases i (length l)).
  - unfold bytes in H. rewrite Forall_forall in H. apply H. apply nth_In; auto.
  - rewrite nth_overflow by lia. unfold is_byte. lia.
Qed.

(* ---- start and stop ------------------------------------------------------------------------ *)

Inductive kind : Type := KBin | KULog | KTele.
Definition kind_of (b : backend) : kind := match b with BBin _ => KBin | BULog _ => KULog | BTele => KTele end.

(* message types whose data goes to the log, for which the flight stack loggers may restart *)
Definition data_packet (k : kind) (p : packet) : bool :=
  match k with
  | KBin => p_id p =? 184
  | KULog => (p_id p =? 266) || (p_id p =? 267)
  | KTele => false
  end.

Lemma lstart_open : forall v y g b y' g' b' ok, lstart v y g b = Ok (y', g', b', ok) -> sys_ok y -> linv y g ->
  l_open g' = (l_open g || ok) /\ l_mode g' = l_mode g /\ kind_of b' = kind_of b.
Proof.
  intros v y g b y' g' b' ok H S L. destruct (log_start_spec v y g S L) as (y1 & g1 & o1 & E & _ & _ & _ & SC & _ & _ & O & _).
  destruct SC as (_ & _ & _ & _ & _ & M).
  destruct b; cbn [lstart] in H; unfold bin_start, ul_start in H; rewrite E in H; cbn [bind] in H; inversion H; subst; cbn [kind_of]; auto.
Qed.

Lemma lstop_open : forall f v y g b y' g' b' cs, lstop f v y g b = Ok (y', g', b', cs) -> sys_ok y -> linv y g ->
  l_open g' = false /\ l_mode g' = l_mode g /\ kind_of b' = kind_of b.
Proof.
  intros f v y g b y' g' b' cs H S L.
  assert (X : forall y g y' g', log_stop v y g = Ok (y', g') -> sys_ok y -> linv y g -> l_open g' = false /\ l_mode g' = l_mode g).
  { intros. destruct (log_stop_spec v y0 g0 H1 H2) as (y2 & g2 & E & _ & _ & _ & SC & _ & O & _). rewrite H0 in E. inversion E; subst.
    split; auto. apply SC. }
  destruct b; cbn [lstop] in H.
  - inv_bind H. inversion H; subst. unfold bin_stop in E. destruct (l_open g) eqn:OP; cbn [negb] in E.
    2:{ inversion E; subst. cbn; auto. }
    destruct (send_block_status y g BLOCK_STOP 1) as [[y1 g1] c] eqn:C. inv_bind E. inversion E; subst.
    apply calm_block_status in C. edestruct X; eauto using calm_sys, calm_linv. split; auto. split; auto. rewrite H1. apply C.
  - inv_bind H. inversion H; subst. unfold ul_stop in E. destruct (l_open g) eqn:OP; cbn [negb] in E.
    2:{ inversion E; subst. cbn; auto. }
    destruct (send_command y g CMD_LOGGING_STOP) as [[y1 g1] c] eqn:C. inv_bind E. inv_bind E. inversion E; subst.
    apply calm_send_ctl in C. apply calm_stop_flush in E0. assert (D := calm_trans _ _ _ _ _ _ C E0).
    edestruct X; eauto using calm_sys, calm_linv. split; auto. split; auto. rewrite H1. apply D.
  - destruct (l_open g) eqn:OP; cbn [negb] in H. 2:{ inversion H; subst. cbn; auto. }
    inv_bind H. inversion H; subst. edestruct X; eauto.
Qed.

(* outcome of _handle_auto_start_stop *)
Lemma auto_spec : forall f v y g b mem m y' g' b' cs, auto_start_stop f v y g b mem m = Ok (y', g', b', cs) -> sys_ok y -> linv y g ->
  kind_of b' = kind_of b /\
  (l_mode g = MDisabled \/ l_target g = -1 -> y' = y /\ g' = g /\ b' = b /\ cs = []) /\
  (l_mode g = MAlways -> l_target g <> -1 -> l_open g' = true /\ l_mode g' = MAlways \/ l_open g' = false /\ l_mode g' = MDisabled) /\
  (l_mode g = MAlways -> l_open g = true -> y' = y /\ g' = g /\ b' = b /\ cs = []) /\
  (l_mode g = MWhileArmed ->
     if (m_id m =? 0) && (m_ssys m =? l_target g) && (m_scomp m =? 1) && negb (l_target g =? -1)
     then exists bm, rd mem (m_poff m + 6) = Ok bm /\
          (l_open g' = (128 <=? bm) /\ l_mode g' = MWhileArmed \/ l_open g' = false /\ l_mode g' = MDisabled /\ 128 <= bm) /\
          (l_open g = (128 <=? bm) -> y' = y /\ g' = g /\ b' = b /\ cs = [])
     else y' = y /\ g' = g /\ b' = b /\ cs = []).
Proof.
  intros f v y g b mem m y' g' b' cs H S L. unfold auto_start_stop in H.
  destruct (Z.eqb_spec (l_target g) (-1)) as [T|T].
  { inversion H; subst. rewrite andb_false_r. repeat split; auto; congruence. }
  rewrite andb_true_r.
  destruct (l_mode g) eqn:M.
  - destruct (l_open g) eqn:OP.
    { inversion H; subst. repeat split; auto; congruence. }
    inv_bind H. inversion H; subst. destruct (lstart_open _ _ _ _ _ _ _ _ E S L) as (O & MD & K). rewrite OP in O. cbn in O.
    split; auto. split; [intros [|]; congruence|]. split.
    { intros _ _. destruct b0; cbn; rewrite ?O, ?MD; auto. }
    split; congruence.
  - destruct ((m_id m =? 0) && (m_ssys m =? l_target g) && (m_scomp m =? 1)) eqn:C.
    2:{ inversion H; subst. repeat split; auto; congruence. }
    inv_bind H. destruct (negb (l_open g) && (128 <=? a)) eqn:D1.
    + apply andb_prop in D1. destruct D1 as [D1 D2]. apply negb_true_iff in D1.
      inv_bind H. inversion H; subst. destruct (lstart_open _ _ _ _ _ _ _ _ E0 S L) as (O & MD & K). rewrite D1 in O. cbn in O.
      split; auto. split; [intros [|]; congruence|]. split; [congruence|]. split; [congruence|]. intros _.
      exists a. split; auto. split; [|congruence]. rewrite D2. apply Z.leb_le in D2. destruct b0; cbn; rewrite ?O, ?MD; auto.
    + destruct (l_open g && negb (128 <=? a)) eqn:D2.
      * apply andb_prop in D2. destruct D2 as [D2 D3]. apply negb_true_iff in D3.
        destruct (lstop_open _ _ _ _ _ _ _ _ _ H S L) as (O & MD & K).
        split; auto. split; [intros [|]; congruence|]. split; [congruence|]. split; [congruence|]. intros _.
        exists a. split; auto. rewrite D3, O, MD, M. split; auto. congruence.
      * inversion H; subst. split; auto. split; [intros [|]; congruence|]. split; [congruence|]. split; [congruence|]. intros _.
        exists a. split; auto. split; auto. left. split; auto. destruct (l_open g'), (128 <=? a); cbn in *; congruence.
  - inversion H; subst. repeat split; auto; congruence.
Qed.

(* the rest of write_msg for a message that carries no log data *)
Definition lwrite_rest (f : nat) (v : env) (y : sys) (g : lg) (b : backend) (mem : list Z) (m : minfo)
  : res (sys * lg * backend * list Z * list ctl) :=
  match b with
  | BBin a => let* (y, g, a, cs') := bin_write v y g a mem m in Ok (y, g, BBin a, mem, cs')
  | BULog u => let* (y, g, u, mem, cs') := ul_write f v y g u mem m in Ok (y, g, BULog u, mem, cs')
  | BTele => let* (y, g) := tele_write v y g mem m in Ok (y, g, BTele, mem, [])
  end.

Lemma lwrite_split : forall f v y g b mem m y' g' b' mem' cs, lwrite f v y g b mem m = Ok (y', g', b', mem', cs) ->
  exists y1 g1 b1 cs1 cs2, auto_start_stop f v y (learn_target g m) b mem m = Ok (y1, g1, b1, cs1) /\
    lwrite_rest f v y1 g1 b1 mem m = Ok (y', g', b', mem', cs2) /\ cs = cs1 ++ cs2.
Proof.
  intros f v y g b mem m y' g' b' mem' cs H. unfold lwrite in H. inv_bind H.
  exists s, l0, b0, l. destruct b0; cbn [lwrite_rest].
  - inv_bind H. inversion H; subst. exists l1. rewrite E0. auto.
  - inv_bind H. inversion H; subst. exists l1. rewrite E0. auto.
  - inv_bind H. inversion H; subst. exists []. rewrite E0, app_nil_r. auto.
Qed.

Lemma file_write_closed : forall v y g off bs, l_open g = false -> file_write v y g off bs = (-9, y, g).
Proof. intros. unfold file_write. rewrite H. reflexivity. Qed.

Lemma ask_bytes_fs : forall n v y r y', ask_bytes n v y = (r, y') -> y_fs y' = y_fs y.
Proof.
  induction n; intros v y r y' H; cbn [ask_bytes] in H.
  - inversion H; subst. auto.
  - destruct (ask v y) as [b y1] eqn:A. destruct (ask_bytes n v y1) as [r1 y2] eqn:B. inversion H; subst.
    rewrite (IHn _ _ _ _ B). unfold ask in A. inversion A; reflexivity.
Qed.

Lemma rest_quiet : forall f v y g b p tail y' g' b' mem' cs,
  lwrite_rest f v y g b (encode p ++ tail) (info_of (v_tbl v) p) = Ok (y', g', b', mem', cs) ->
  data_packet (kind_of b) p = false -> sys_ok y -> linv y g ->
  l_open g' = l_open g /\ l_mode g' = l_mode g /\ kind_of b' = kind_of b /\ (l_open g = false -> y_fs y' = y_fs y /\ cs = []).
Proof.
  intros f v y g b p tail y' g' b' mem' cs H D S L. destruct b as [a|u|]; cbn [lwrite_rest kind_of data_packet] in *.
  - inv_bind H. inversion H; subst. unfold bin_write in E. cbn [m_id info_of] in E. rewrite D in E. cbn [negb] in E. inversion E; subst. auto.
  - inv_bind H. inversion H; subst. unfold ul_write in E. cbn [m_id info_of] in E. apply orb_false_iff in D. destruct D as [D1 D2].
    rewrite D1, D2, !orb_false_r in E. destruct (p_id p =? 77); cbn [negb] in E. 2:{ inversion E; subst. auto. }
    destruct (v_tbl v (p_id p)) as [e|]. 2:{ inversion E; subst. auto. }
    inv_bind E. inv_bind E. destruct (ask_bytes (3 - length a) v y) as [junk y1] eqn:J0. pose proof (calm_ask_bytes _ _ _ g _ _ J0) as J.
    pose proof (ask_bytes_fs _ _ _ _ _ J0) as YF.
    inv_bind E. inv_bind E. inv_bind E.
    assert (NC : l_tstart g <> None -> l_open g = true).
    { intros X. destruct (l_open g) eqn:OP; auto. destruct (li_closed _ _ L OP). congruence. }
    destruct (l_tstart g) as [ts|] eqn:TS. 2:{ inversion E; subst. auto. }
    rewrite NC by congruence. 
    destruct (_ =? CMD_LOGGING_START). 2:{ inversion E; subst. rewrite NC by congruence. repeat split; auto; congruence. }
    destruct (_ =? 0).
    + inv_bind E. destruct (start_alive v s l) as [y2 g2] eqn:A. inversion E; subst.
      destruct (step_started _ _ _ _ _ _ _ E5 A) as (_ & O & _ & _ & _ & _ & M & _). cbn. rewrite O, M, NC by congruence. repeat split; auto; congruence.
    + inversion E; subst. cbn. rewrite NC by congruence. repeat split; auto; congruence.
  - inv_bind H. inversion H; subst. pose proof (calm_tele_write _ _ _ _ _ _ _ E) as C. split; [apply C|]. split; [apply C|]. split; auto.
    intros O. split; auto. unfold tele_write in E. destruct (ask v y) as [now y1] eqn:A. inv_bind E.
    rewrite (file_write_closed v y1) in E by auto. rewrite file_write_closed in E by auto. inversion E; subst. unfold ask in A. inversion A; reflexivity.
Qed.
