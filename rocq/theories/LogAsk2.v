(* What a message does to the logger's timers and counters. *)
From Verif Require Import Base Mav SpecFrame Frame FrameProofs Names Sys LogFile LogFileProofs ULog Loggers LogInv LogStep SpecLog LogRun LogModes LogModes2
  BinProofs Prop_BinLog SpecAsk LogAsk.

Definition kept (g g' : lg) : Prop := l_open g' = l_open g /\ l_tstart g' = l_tstart g /\ l_talive g' = l_talive g /\ l_target g' = l_target g.
Lemma calm_kept : forall y g y' g', calm y g y' g' -> kept g g'.
Proof. intros y g y' g' C. pose proof (ca_cfg _ _ _ _ C) as X. unfold same_cfg in X. split; [apply C|]. split; [apply C|]. split; [apply C|]. tauto. Qed.
Lemma kept_refl : forall g, kept g g. Proof. unfold kept; auto. Qed.
Lemma kept_trans : forall a b c, kept a b -> kept b c -> kept a c. Proof. unfold kept; intuition congruence. Qed.

Definition stopped (k : protocol) (t : Z) (cs : list ctl) : Prop := exists c, In c cs /\ stop_request k (t mod 256) (fst c).
Definition no_start (k : protocol) (cs : list ctl) : Prop := forall c t, In c cs -> ~ start_request k t (fst c).
Definition fresh (k : protocol) (g : lg) (cs : list ctl) (g' : lg) : Prop :=
  (l_open g' = true -> l_tstart g' <> None) /\ (k <> NoProtocol -> l_open g = true -> stopped k (l_target g) cs) /\ l_target g' = l_target g.
Lemma no_start_nil : forall k, no_start k []. Proof. intros k c t []. Qed.
Lemma no_start_app : forall k a b, no_start k a -> no_start k b -> no_start k (a ++ b).
Proof. intros k a b A B c t I. apply in_app_or in I. destruct I; eauto. Qed.
Lemma no_start_one : forall k c, (forall t, ~ start_request k t (fst c)) -> no_start k [c].
Proof. intros k c H c' t [<-|[]]. auto. Qed.

Lemma lstop_fresh : forall f v y g b y' g' b' cs, lstop f v y g b = Ok (y', g', b', cs) -> cnt g g' /\ fresh (proto b) g cs g' /\ l_open g' = false /\ no_start (proto b) cs /\ proto b' = proto b.
Proof.
  intros f v y g b y' g' b' cs H. destruct (lstop_ask _ _ _ _ _ _ _ _ _ H) as (A & B & C & D & E). split; auto.
  assert (NS : no_start (proto b) cs).
  { destruct (l_open g); [|subst; apply no_start_nil]. destruct b; [| |subst; apply no_start_nil]; destruct E as (c & -> & R); apply no_start_one; intros t R';
    cbn [start_request stop_request request proto] in R, R'; destruct R as (_ & R & _), R' as (_ & R' & _); rewrite R in R'; lia. }
  split; [|auto]. split; [congruence|]. split; auto. intros N O. rewrite O in E. destruct b; [| |exfalso; apply N; reflexivity]; destruct E as (c & -> & R); exists c; cbn; auto.
Qed.
Lemma restart_fresh : forall f v y g b y1 g1 b1 cs y' g' b' ok, lstop f v y g b = Ok (y1, g1, b1, cs) -> lstart v y1 g1 b1 = Ok (y', g', b', ok) ->
  cnt g g' /\ fresh (proto b) g cs g' /\ no_start (proto b) cs /\ proto b' = proto b.
Proof.
  intros f v y g b y1 g1 b1 cs y' g' b' ok H1 H2. destruct (lstop_fresh _ _ _ _ _ _ _ _ _ H1) as (A & (F1 & F2 & F3) & B & C & D).
  destruct (lstart_ask _ _ _ _ _ _ _ _ H2 B) as (E & G & I & J & K). split; [eapply cnt_trans; eauto|].
  split. { split; [rewrite G; auto|]. split; auto. congruence. } split; auto. congruence.
Qed.
Lemma bin_restart_fresh : forall v y g a y' g' a' cs, bin_restart v y g a = Ok (y', g', a', cs) -> cnt g g' /\ fresh Blocks g cs g' /\ no_start Blocks cs.
Proof.
  intros v y g a y' g' a' cs H. unfold bin_restart in H. inv_bind H. inv_bind H. inversion H; subst.
  assert (X : lstop 0 v y g (BBin a) = Ok (s, l0, BBin a, cs)) by (cbn [lstop]; rewrite E; reflexivity).
  assert (X2 : lstart v s l0 (BBin a) = Ok (y', g', BBin a', b)) by (cbn [lstart]; rewrite E0; reflexivity).
  destruct (restart_fresh _ _ _ _ _ _ _ _ _ _ _ _ _ X X2) as (A & B & C & _). auto.
Qed.
Lemma ul_restart_fresh : forall f v y g u y' g' u' cs, ul_restart f v y g u = Ok (y', g', u', cs) -> cnt g g' /\ fresh Streaming g cs g' /\ no_start Streaming cs.
Proof.
  intros f v y g u y' g' u' cs H. unfold ul_restart in H. inv_bind H. inv_bind H. inversion H; subst.
  assert (X : lstop f v y g (BULog u) = Ok (s, l0, BULog u0, cs)) by (cbn [lstop]; rewrite E; reflexivity).
  assert (X2 : lstart v s l0 (BULog u0) = Ok (y', g', BULog u', b)) by (cbn [lstart]; rewrite E0; reflexivity).
  destruct (restart_fresh _ _ _ _ _ _ _ _ _ _ _ _ _ X X2) as (A & B & C & _). auto.
Qed.

Lemma nacks_no_start : forall n y g s y' g' cs, 0 <= s < 4294967296 -> send_nacks n y g s = (y', g', cs) -> no_start Blocks cs.
Proof.
  induction n; intros y g s y' g' cs S H; cbn [send_nacks] in H. { inversion H; subst. apply no_start_nil. }
  destruct (send_block_status y g s BLOCK_NACK) as [[y1 g1] c1] eqn:E. destruct (send_nacks n y1 g1 s) as [[y2 g2] c2] eqn:F. inversion H; subst.
  apply (no_start_app _ [c1]); [|eauto]. apply no_start_one. intros t R. destruct (block_request _ _ _ _ _ _ _ S E) as (_ & R2 & _).
  cbn [start_request request] in R. destruct R as (_ & _ & _ & R). rewrite R2 in R. cbn [le32 app nth] in R. discriminate R.
Qed.
Lemma ack_no_start : forall y g a s y' g' a' cs, 0 <= s < 4294967296 -> s <> BLOCK_START -> send_ack y g a s = (y', g', a', cs) -> no_start Blocks cs.
Proof.
  intros y g a s y' g' a' cs S NS H. assert (K : forall y g y' g' c, send_block_status y g s BLOCK_ACK = (y', g', c) -> no_start Blocks [c]).
  { clear - S NS. intros y g y' g' c E. apply no_start_one. intros t R. destruct (block_request _ _ _ _ _ _ _ S E) as (_ & _ & R3).
    cbn [start_request request] in R. destruct R as (_ & R & _). unfold BLOCK_START in NS. congruence. }
  unfold send_ack in H. destruct (s <? a).
  - destruct (send_block_status y g s BLOCK_ACK) as [[y1 g1] c] eqn:E. inversion H; subst. eauto.
  - destruct (send_nacks _ y g s) as [[y1 g1] c1] eqn:E. destruct (send_block_status y1 g1 s BLOCK_ACK) as [[y2 g2] c2] eqn:F. inversion H; subst.
    apply no_start_app; eauto. eapply nacks_no_start; eauto.
Qed.

Lemma bin_process_ask : forall v y g a n d y' g' a' cs, bin_process v y g a n d = Ok (y', g', a', cs) -> 0 <= n < 4294967296 ->
  cnt g g' /\ (kept g g' \/ fresh Blocks g cs g') /\ (n <> BLOCK_START -> no_start Blocks cs).
Proof.
  intros v y g a n d y' g' a' cs H N. unfold bin_process in H. destruct (negb _). { apply bin_restart_fresh in H. intuition. }
  destruct (ask v y) as [r y1] eqn:A. destruct (r <? 0). { apply bin_restart_fresh in H. intuition. }
  destruct (file_write v y1 g _ d) as [[q y2] g2] eqn:W. pose proof (calm_kept _ _ _ _ (calm_file_write _ _ _ _ _ _ _ _ W)) as K. apply cnt_file_write in W.
  destruct (_ && _).
  { apply bin_restart_fresh in H. destruct H as (C & (F1 & F2 & F3) & S). destruct K as (K1 & K2 & K3 & K4).
    split; [eapply cnt_trans; eauto|]. split; auto. right. unfold fresh. rewrite <- K4, <- K1. auto. }
  destruct (negb _). { inversion H; subst. auto using no_start_nil. }
  destruct (send_ack y2 g2 a n) as [[[y3 g3] a3] c] eqn:SA. inversion H; subst. pose proof (calm_kept _ _ _ _ (calm_send_ack _ _ _ _ _ _ _ _ SA)) as K'.
  split; [eapply cnt_trans; eauto using cnt_send_ack|]. split. { left. eapply kept_trans; eauto. } intros NS. eapply ack_no_start; eauto.
Qed.
Lemma ul_process_ask : forall f v y g u mm b y' g' u' mm' cs, ul_process f v y g u mm b = Ok (y', g', u', mm', cs) ->
  cnt g g' /\ (kept g g' \/ fresh Streaming g cs g') /\ no_start Streaming cs.
Proof.
  intros f v y g u mm b y' g' u' mm' cs H. unfold ul_process in H. inv_bind H. inv_bind H.
  destruct (logging_seq u _) as [[u1 drops]|]. 2:{ inversion H; subst. auto using kept_refl, cnt_refl, no_start_nil. }
  assert (DD : forall u1 m y' g' u' mm' cs, (let* (y, g, u, mm) := ul_data f v y g u1 m b drops in Ok (y, g, u, mm, [])) = Ok (y', g', u', mm', cs) ->
    cnt g g' /\ (kept g g' \/ fresh Streaming g cs g') /\ no_start Streaming cs).
  { clear. intros u1 m y' g' u' mm' cs H. inv_bind H. inversion H; subst. pose proof (calm_kept _ _ _ _ (calm_ul_data _ _ _ _ _ _ _ _ _ _ _ _ E)).
    apply cnt_ul_data in E. auto using no_start_nil. }
  destruct (u_hdr u1); [|eapply DD; eauto].
  inv_bind H. destruct (_ <? 16). { inv_bind H. inversion H; subst. apply ul_restart_fresh in E2. intuition. }
  inv_bind H. destruct (negb _). { inv_bind H. inversion H; subst. apply ul_restart_fresh in E3. intuition. }
  inv_bind H. inv_bind H. inv_bind H. inv_bind H. eapply DD; eauto.
Qed.

(* ---- reading a COMMAND_ACK ------------------------------------------------------------------------------ *)

Definition ack_ok (p : packet) : Prop := wf_packet p /\ (p_ver p = V1 -> (3 <= length (p_payload p))%nat).

Lemma restored_nth : forall n l i, (i < n)%nat -> nth i (restored n l) 0 = nth i l 0.
Proof.
  intros n l i I. unfold restored. rewrite nth_firstn_lt by auto. destruct (Nat.lt_ge_cases i (length l)) as [A|A].
  - apply app_nth1; auto.
  - rewrite app_nth2 by auto. rewrite nth_repeat. symmetry. apply nth_overflow; auto.
Qed.
Lemma ack_read : forall v e p tail pl tz loc, ack_ok p -> 3 <= e_max_len e ->
  payload_dims e (encode p ++ tail) (info_of (v_tbl v) p) = Ok (pl, tz) -> local_copy 10 (encode p ++ tail) (info_of (v_tbl v) p) pl tz = Ok loc ->
  (3 <= length loc)%nat /\ forall i, (i < 3)%nat -> nth i loc 0 = nth i (restored 3 (p_payload p)) 0.
Proof.
  intros v e p tail pl tz loc (W & V) ML PD LC. destruct (encode_first p tail) as (R0 & R1).
  assert (LP : (length (p_payload p) < 256)%nat) by apply W.
  unfold payload_dims in PD. rewrite R0, R1 in PD. cbn [bind] in PD. cbn [m_plen m_poff info_of] in PD.
  unfold local_copy in LC. cbn [m_poff info_of] in LC. inv_bind LC. destruct (_ <=? 10)%nat; [|discriminate]. inversion LC; subst loc; clear LC.
  assert (FN : (Z.to_nat pl <= length (p_payload p))%nat -> a = firstn (Z.to_nat pl) (p_payload p)).
  { intros LE. pose proof (payload_slice p tail 0 (Z.to_nat pl) ltac:(lia)) as PS. rewrite Nat.add_0_r in PS. rewrite PS in E. inversion E. reflexivity. }
  assert (FIN : (Z.to_nat pl <= length (p_payload p))%nat -> (3 <= Z.to_nat pl \/ (Z.to_nat pl = length (p_payload p) /\ 3 <= Z.to_nat pl + Z.to_nat tz))%nat ->
    (3 <= length (a ++ repeat 0%Z (Z.to_nat tz)))%nat /\ (forall i, (i < 3)%nat -> nth i (a ++ repeat 0 (Z.to_nat tz)) 0 = nth i (restored 3 (p_payload p)) 0)).
  { intros LE C. rewrite (FN LE). rewrite app_length, repeat_length, firstn_length. split; [lia|]. intros i I. rewrite restored_nth by lia.
    destruct (Nat.lt_ge_cases i (Z.to_nat pl)).
    - rewrite app_nth1 by (rewrite firstn_length; lia). apply nth_firstn_lt; lia.
    - destruct C as [C|[C _]]; [lia|]. rewrite app_nth2 by (rewrite firstn_length; lia). rewrite nth_repeat. symmetry. apply nth_overflow. lia. }
  destruct (p_ver p) as [|fl cf sg] eqn:VV.
  - assert (X : 254 =? STX2 = false) by reflexivity. rewrite X in PD. specialize (V eq_refl). unfold plen in PD.
    destruct (Z.ltb_spec (e_max_len e) (Z.of_nat (length (p_payload p)))); inversion PD; subst pl tz; apply FIN; lia.
  - assert (X : 253 =? STX2 = true) by reflexivity. rewrite X in PD. cbn [bind] in PD. unfold plen in PD.
    destruct (Z.ltb_spec (e_max_len e) (Z.of_nat (length (p_payload p)))); inversion PD; subst pl tz; apply FIN; lia.
Qed.

(* ---- a message after the automatic start or stop ------------------------------------------------------- *)

(* the dialect knows the messages of the protocol, and MAVLink 1 messages are not cut short *)
Definition ask_dialect (v : env) (k : protocol) (ps : list packet) : Prop :=
  match k with
  | Blocks => log_dialect v ps
  | Streaming => (exists e, v_tbl v 77 = Some e /\ 3 <= e_max_len e) /\ v_tbl v 266 <> None /\ v_tbl v 267 <> None /\
      (forall p, In p ps -> p_id p = 77 -> ack_ok p)
  | NoProtocol => True
  end.
(* no block has the number that means "start" in a status message *)
Definition no_start_number (k : protocol) (ps : list packet) : Prop :=
  k = Blocks -> forall p, In p ps -> p_id p = 184 -> block_number p <> 2147483646.

Record asked (k : protocol) (p : packet) (g : lg) (cs : list ctl) (g' : lg) : Prop := {
  as_mark : l_mark g' = l_mark g;
  as_total : l_wtotal g' = l_wtotal g \/ l_wtotal g' = u32 (l_wtotal g + 1);
  as_idle : (log_data k p = false /\ (l_tstart g = None \/ p_id p <> 77) -> l_wtotal g' = l_wtotal g);
  as_data : (log_data k p = true -> l_tstart g = None -> l_wtotal g' = u32 (l_wtotal g + 1));
  as_target : l_target g' = l_target g;
  as_case : kept g g' \/ fresh k g cs g' \/
    (answer k p = true /\ l_tstart g <> None /\ l_open g' = l_open g /\ l_tstart g' = None /\ l_wtotal g' = u32 (l_wtotal g + 1));
  as_answer : answer k p = true -> l_tstart g' = None \/ fresh k g cs g' }.


(* a fresh log stays one, whatever the counters say *)
Lemma fresh_counts : forall k g cs g' a b c d, fresh k g cs g' -> fresh k g cs (set_counts g' a b c d).
Proof. intros k g cs g' a b c d F. exact F. Qed.
Lemma kept_counts : forall g g' a b c d, kept g g' -> kept g (set_counts g' a b c d).
Proof. intros g g' a b c d F. exact F. Qed.

Lemma rest_ask : forall f v y g b p tail y' g' b' mem' cs,
  lwrite_rest f v y g b (encode p ++ tail) (info_of (v_tbl v) p) = Ok (y', g', b', mem', cs) -> sys_ok y -> linv y g ->
  ask_dialect v (proto b) [p] -> asked (proto b) p g cs g' /\ proto b' = proto b /\ (no_start_number (proto b) [p] -> no_start (proto b) cs).
Proof.
  intros f v y g b p tail y' g' b' mem' cs H S L D. destruct b as [a|u|]; cbn [lwrite_rest proto] in *.
  - inv_bind H. inversion H; subst. unfold bin_write in E. cbn [m_id info_of] in E.
    destruct (Z.eqb_spec (p_id p) 184) as [ID|ID]; cbn [negb] in E.
    2:{ inversion E; subst. split; [|split; auto using no_start_nil]. split; cbn [answer log_data]; rewrite ?(proj2 (Z.eqb_neq _ _) ID); auto using kept_refl; try discriminate. }
    destruct D as ((e & T & ML) & WV). destruct (WV p (or_introl eq_refl) ID) as (W & V). assert (B : block_ok p) by (split; auto).
    rewrite ID, T in E. destruct (bin_read v e p tail B T ML) as (pl & tz & mm & bb & PD & LC & R32 & SL).
    assert (BR : 0 <= block_number p < 4294967296) by (apply block_number_range; apply W).
    rewrite PD in E. cbn [bind] in E. rewrite LC in E. cbn [bind] in E. rewrite R32 in E. cbn [bind] in E.
    assert (NSN : no_start_number Blocks [p] -> block_number p <> BLOCK_START). { intros N. apply (N eq_refl p); cbn; auto. }
    assert (LD : log_data Blocks p = true) by (cbn [log_data]; apply Z.eqb_eq; auto).
    assert (AN : answer Blocks p = (block_number p =? 0)) by (cbn [answer]; rewrite (proj2 (Z.eqb_eq _ _) ID); reflexivity).
    destruct (l_tstart g) as [id|] eqn:TS.
    + destruct (Z.eqb_spec (block_number p) 0) as [Z0|Z0].
      * destruct (remove_start_ok y g S L) as (y1 & g1 & RS). { rewrite TS. discriminate. }
        rewrite RS in E. cbn [bind] in E. destruct (start_alive v y1 g1) as [y2 g2] eqn:SA. cbn [bind] in E.
        destruct (step_started _ _ _ _ _ _ _ RS SA) as (ST & O2 & N2 & _ & T2 & F2 & M2 & SC1 & _ & _ & SC4).
        assert (KT : l_target g2 = l_target g) by apply (so_cfg _ _ _ _ ST S L).
        rewrite SL in E. cbn [bind] in E. match type of E with bind ?q _ = _ => destruct q as [[[[y3 g3] a3] c3]| |] eqn:E0; cbn [bind] in E; try discriminate end. inversion E; subst.
        destruct (bin_process_ask _ _ _ _ _ _ _ _ _ _ E0 BR) as ((C1 & C2) & KF & NS). cbn [app].
        assert (KF' : kept g2 (count_write g3 (info_of (v_tbl v) p)) \/ fresh Blocks g cs (count_write g3 (info_of (v_tbl v) p))).
        { destruct KF as [K|(F3 & F4 & F5)]; [left; apply kept_counts; auto|right]. unfold fresh. cbn [count_write set_counts l_open l_tstart l_target]. rewrite <- KT, <- O2. auto. }
        assert (TT : l_target (count_write g3 (info_of (v_tbl v) p)) = l_target g).
        { destruct KF' as [(_ & _ & _ & X)|(_ & _ & X)]; congruence. }
        assert (WT : l_wtotal (count_write g3 (info_of (v_tbl v) p)) = u32 (l_wtotal g + 1)). { cbn [count_write set_counts l_wtotal]. congruence. }
        split; [|split; auto]. split; auto; try congruence.
        -- cbn [count_write set_counts l_mark]. congruence.
        -- intros [X _]; congruence.
        -- destruct KF' as [(X1 & X2 & X3 & X4)|X]; [right; right|auto]. split; auto. split; [congruence|]. repeat split; congruence.
        -- intros _. destruct KF' as [(X1 & X2 & X3 & X4)|X]; auto. left. congruence.
      * destruct (send_block_status y g BLOCK_STOP 1) as [[y1 g1] c] eqn:SB. cbn [bind] in E. inversion E; subst.
        assert (C1 := SB). unfold send_block_status in C1. pose proof (calm_kept _ _ _ _ (calm_send_ctl _ _ _ _ _ _ _ _ C1)) as K. apply cnt_send_ctl in C1. destruct C1.
        assert (R := block_request y g BLOCK_STOP 1 _ _ _ ltac:(unfold BLOCK_STOP; lia) SB).
        split; [|split; auto]. 
        -- split; auto; try congruence. apply K.
        -- intros _. apply no_start_one. intros t X. destruct X as (_ & X & _), R as (_ & _ & R). rewrite R in X. discriminate X.
    + cbn [bind] in E. rewrite SL in E. cbn [bind] in E. inv_bind E. inversion E; subst. cbn [app].
      destruct (bin_process_ask _ _ _ _ _ _ _ _ _ _ E0 BR) as ((C1 & C2) & KF & NS). split; [|split; auto].
      split; auto; try congruence.
      * cbn [count_write set_counts l_wtotal]. rewrite C1. auto.
      * cbn [count_write set_counts l_wtotal]. intros [X _]; congruence.
      * cbn [count_write set_counts l_wtotal]. rewrite C1. auto.
      * destruct KF as [(_ & _ & _ & X)|(_ & _ & X)]; auto.
      * destruct KF as [X|X]; auto.
      * intros _. destruct KF as [(_ & X & _)|X]; auto. left. cbn [count_write set_counts l_tstart]. congruence.
  - inv_bind H. inversion H; subst. unfold ul_write in E. cbn [m_id info_of] in E. destruct D as ((e & T & ML) & T266 & T267 & WV).
    assert (AN : p_id p <> 77 -> answer Streaming p = false). { intros X. cbn [answer]. rewrite (proj2 (Z.eqb_neq _ _) X). reflexivity. }
    destruct ((p_id p =? 77) || (p_id p =? 266) || (p_id p =? 267)) eqn:ID; cbn [negb] in E.
    2:{ inversion E; subst. apply orb_false_iff in ID. destruct ID as [ID I3]. apply orb_false_iff in ID. destruct ID as [I1 I2]. apply Z.eqb_neq in I1.
        split; [|split; auto using no_start_nil]. split; cbn [log_data]; rewrite ?I2, ?I3, ?(AN I1); auto using kept_refl; try discriminate. }
    destruct (Z.eqb_spec (p_id p) 77) as [I1|I1].
    + rewrite I1, T in E. inv_bind E. inv_bind E. destruct (ask_bytes (3 - length a) v y) as [junk y1] eqn:J0.
      pose proof (calm_ask_bytes _ _ _ g _ _ J0) as J. pose proof (WV p (or_introl eq_refl) I1) as AK.
      destruct (ack_read v e p tail _ _ _ AK ML E0 E1) as (LL & RR).
      inv_bind E. inv_bind E. inv_bind E. apply rd_inv in E2, E3, E4. destruct E2 as [_ E2], E3 as [_ E3], E4 as [_ E4].
      rewrite app_nth1, RR in E2, E3, E4 by lia.
      assert (LD : log_data Streaming p = false) by (cbn [log_data]; rewrite I1; reflexivity).
      assert (AN' : answer Streaming p = (a0 + 256 * a1 =? CMD_LOGGING_START) && (a2 =? 0)).
      { cbn [answer]. rewrite I1. cbn [Z.eqb Pos.eqb andb]. unfold field16. rewrite E2, E3, E4. reflexivity. }
      destruct (l_tstart g) as [id|] eqn:TS.
      2:{ inversion E; subst. split; [|split; auto using no_start_nil]. split; auto using kept_refl; try congruence. }
      destruct (a0 + 256 * a1 =? CMD_LOGGING_START).
      2:{ inversion E; subst. split; [|split; auto using no_start_nil]. split; auto using kept_refl; try congruence. cbn [andb] in AN'. congruence. }
      destruct (a2 =? 0).
      * inv_bind E. destruct (start_alive v s l) as [y2 g2] eqn:SA. inversion E; subst.
        destruct (step_started _ _ _ _ _ _ _ E5 SA) as (ST & O2 & N2 & _ & T2 & F2 & M2 & SC1 & _ & _ & SC4).
        assert (KT : l_target g2 = l_target g) by apply (so_cfg _ _ _ _ ST (calm_sys _ _ _ _ J S) (calm_linv _ _ _ _ J L)).
        split; [|split; auto using no_start_nil]. split; cbn [count_write set_counts l_mark l_wtotal l_open l_tstart l_target]; auto; try congruence.
        -- rewrite SC1; auto.
        -- intros [_ [X|X]]; congruence.
        -- right. right. split; [rewrite AN'; reflexivity|]. split; [congruence|]. repeat split; congruence.
      * inversion E; subst. split; [|split; auto using no_start_nil]. split; cbn [count_write set_counts l_mark l_wtotal l_open l_tstart l_target]; auto using kept_refl, kept_counts; try congruence.
        -- intros [_ [X|X]]; congruence.
        -- left. apply kept_counts, kept_refl.
        -- cbn [andb] in AN'. congruence.
    + specialize (AN I1). cbn [orb] in ID. assert (LD : log_data Streaming p = true) by exact ID.
      destruct (v_tbl v (p_id p)) as [e'|] eqn:TE.
      2:{ apply orb_true_iff in ID. destruct ID as [ID|ID]; apply Z.eqb_eq in ID; congruence. }
      inv_bind E. match type of E with bind ?q _ = _ => destruct q as [[[yz gz] cz]| |] eqn:E1; cbn [bind] in E; try discriminate end.
      assert (C : kept g gz /\ cnt g gz /\ no_start Streaming cz /\ cz = cz).
      { destruct (p_id p =? 267).
        - inv_bind E1. inv_bind E1. destruct (send_ctl y g 268 14 _) as [[y1 g1] c] eqn:SC. inversion E1; subst. split; [eapply calm_kept; eapply calm_send_ctl; eauto|].
          split; [eapply cnt_send_ctl; eauto|]. split; auto. apply no_start_one. intros t (X & _). unfold send_ctl in SC.
          pose proof (f_equal snd SC) as A. cbn [snd] in A. subst c. cbn [fst] in X. rewrite pack2_raw in X by lia. discriminate X.
        - inversion E1; subst. auto using kept_refl, cnt_refl, no_start_nil. }
      destruct C as (K & (C1 & C2) & NS & _).
      assert (FIN : forall y1 u1 mm1 g1 cs1 y2 mm bb, ul_process f v y2 gz u mm bb = Ok (y1, g1, u1, mm1, cs1) ->
        asked Streaming p g (cz ++ cs1) (count_write g1 (info_of (v_tbl v) p)) /\ no_start Streaming (cz ++ cs1)).
      { intros y1 u1 mm1 g1 cs1 y2 mm bb H'. destruct (ul_process_ask _ _ _ _ _ _ _ _ _ _ _ _ H') as ((X1 & X2) & KF & NS1).
        assert (KF' : kept g g1 \/ fresh Streaming g (cz ++ cs1) g1).
        { destruct KF as [K'|(F3 & F4 & F5)]; [left; eapply kept_trans; eauto|right]. destruct K as (K1 & K2 & K3 & K4). unfold fresh.
          split; auto. split; [|congruence]. intros N O. rewrite <- K1 in O. destruct (F4 N O) as (c & I & R). exists c. rewrite <- K4. split; auto. apply in_or_app; auto. }
        split; [|apply no_start_app; auto]. split; cbn [count_write set_counts l_mark l_wtotal]; auto; try congruence.
        - rewrite X1, C1. auto.
        - intros [X _]; congruence.
        - destruct KF' as [(_ & _ & _ & X)|(_ & _ & X)]; auto.
        - destruct KF' as [X|X]; auto. }
      destruct (_ =? 0).
      * inv_bind E. inversion E; subst. match goal with X : ul_process _ _ _ gz _ _ _ = _ |- _ => destruct (FIN _ _ _ _ _ _ _ _ X) end. auto.
      * inv_bind E. inv_bind E. inversion E; subst. match goal with X : ul_process _ _ _ gz _ _ _ = _ |- _ => destruct (FIN _ _ _ _ _ _ _ _ X) end. auto.
  - inv_bind H. inversion H; subst. unfold tele_write in E. destruct (ask v y) as [now y1] eqn:A. inv_bind E.
    destruct (file_write v y1 g _ _) as [[q1 y2] g2] eqn:W1. destruct (file_write v y2 g2 _ _) as [[q2 y3] g3] eqn:W2. inversion E; subst.
    pose proof (kept_trans _ _ _ (calm_kept _ _ _ _ (calm_file_write _ _ _ _ _ _ _ _ W1)) (calm_kept _ _ _ _ (calm_file_write _ _ _ _ _ _ _ _ W2))) as K.
    apply cnt_file_write in W1, W2. destruct W1, W2. split; [|split; auto using no_start_nil].
    split; cbn [log_data answer]; auto; try congruence. left. congruence. apply K.
Qed.
