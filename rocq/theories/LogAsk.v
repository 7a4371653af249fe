(* What every event does to the logger's timers and counters. *)
From Verif Require Import Base Mav SpecFrame Frame FrameProofs Names Sys LogFile LogFileProofs ULog Loggers LogInv LogStep SpecLog LogRun LogModes LogModes2
  BinProofs Prop_BinLog SpecAsk.

Definition proto (b : backend) : protocol := match b with BBin _ => Blocks | BULog _ => Streaming | BTele => NoProtocol end.

Definition cnt (g g' : lg) : Prop := l_wtotal g' = l_wtotal g /\ l_mark g' = l_mark g.
Lemma cnt_refl : forall g, cnt g g. Proof. split; auto. Qed.
Lemma cnt_trans : forall a b c, cnt a b -> cnt b c -> cnt a c. Proof. unfold cnt. intros a b c [] []; split; congruence. Qed.
#[local] Hint Resolve cnt_refl : core.

Lemma cnt_send_ctl : forall y g i x p y' g' c, send_ctl y g i x p = (y', g', c) -> cnt g g'.
Proof. intros y g i x p y' g' c H. unfold send_ctl in H. pose proof (f_equal (fun t => snd (fst t)) H) as A. cbn [fst snd] in A. subst g'. split; reflexivity. Qed.
Lemma cnt_file_write : forall v y g off bs r y' g', file_write v y g off bs = (r, y', g') -> cnt g g'.
Proof.
  intros v y g off bs r y' g' H. unfold file_write in H. destruct (l_open g). 2:{ inversion H; subst; auto. }
  destruct (ask v y) as [q y1]. destruct (q <? 0). { inversion H; subst; auto. }
  inversion H; subst; auto; split; reflexivity.
Qed.
Lemma cnt_flush_part : forall f v y g u y' g' u' r, flush_part f v y g u = Ok (y', g', u', r) -> cnt g g'.
Proof.
  induction f; intros v y g u y' g' u' r H; cbn [flush_part] in H; destruct (u_plen u =? 0); try discriminate; try (inversion H; subst; auto).
  inv_bind H. destruct (file_write v y g (l_off g) a) as [[r0 y1] g1] eqn:W. apply cnt_file_write in W.
  destruct ((r0 =? 0) || (r0 =? - EAGAIN)). { inversion H; subst; auto. }
  destruct (r0 <? 0). { inversion H; subst; auto. }
  inv_bind H. eapply cnt_trans; eauto.
Qed.
Lemma cnt_flush_msgs : forall f v y g u y' g' u' r, flush_msgs f v y g u = Ok (y', g', u', r) -> cnt g g'.
Proof.
  induction f; intros v y g u y' g' u' r H; cbn [flush_msgs] in H; destruct (negb _); try discriminate; try (inversion H; subst; auto).
  inv_bind H. inv_bind H. destruct (u_len u <? _). { inversion H; subst; auto. }
  inv_bind H. destruct (file_write v y g (l_off g) a1) as [[r0 y1] g1] eqn:W. apply cnt_file_write in W.
  destruct (r0 =? _). { eapply cnt_trans; eauto. }
  destruct ((r0 =? 0) || (r0 =? - EAGAIN)). { inversion H; subst; auto. }
  destruct (r0 <? 0). { inversion H; subst; auto. }
  destruct (_ <? _). { inversion H; subst; auto. }
  inv_bind H. inv_bind H. inversion H; subst; auto.
Qed.
Lemma cnt_flush : forall f v y g u y' g' u' r, ul_flush f v y g u = Ok (y', g', u', r) -> cnt g g'.
Proof.
  intros f v y g u y' g' u' r H. unfold ul_flush in H. inv_bind H. apply cnt_flush_part in E.
  destruct o. { inversion H; subst; auto. } eapply cnt_trans; eauto. eapply cnt_flush_msgs; eauto.
Qed.
Lemma cnt_stop_flush : forall n f v y g u y' g' u', stop_flush n f v y g u = Ok (y', g', u') -> cnt g g'.
Proof.
  induction n; intros f v y g u y' g' u' H; cbn [stop_flush] in H; destruct (u_plen u =? 0); try discriminate; try (inversion H; subst; auto).
  inv_bind H. apply cnt_flush in E. destruct b. { eapply cnt_trans; eauto. } inversion H; subst; auto.
Qed.
Lemma cnt_ul_data : forall f v y g u mm b d y' g' u' mm', ul_data f v y g u mm b d = Ok (y', g', u', mm') -> cnt g g'.
Proof.
  intros f v y g u mm b d y' g' u' mm' H. unfold ul_data in H. inv_bind H.
  assert (C : cnt g l). { destruct d. - inv_bind E. apply cnt_flush in E0. inversion E; subst; auto. - inversion E; subst. auto. }
  inv_bind H. inv_bind H. inv_bind H. destruct (_ && _). { inversion H; subst; auto. }
  destruct (a =? 0). { inversion H; subst; auto. }
  inv_bind H. inv_bind H. inv_bind H. inv_bind H. inversion H; subst. eapply cnt_trans; eauto. eapply cnt_flush; eauto.
Qed.
Lemma cnt_nacks : forall n y g s y' g' cs, send_nacks n y g s = (y', g', cs) -> cnt g g'.
Proof.
  induction n; intros y g s y' g' cs H; cbn [send_nacks] in H. { inversion H; subst; auto. }
  destruct (send_block_status y g s BLOCK_NACK) as [[y1 g1] c1] eqn:E. destruct (send_nacks n y1 g1 s) as [[y2 g2] c2] eqn:F.
  inversion H; subst. unfold send_block_status in E. apply cnt_send_ctl in E. eapply cnt_trans; eauto.
Qed.
Lemma cnt_send_ack : forall y g a s y' g' a' cs, send_ack y g a s = (y', g', a', cs) -> cnt g g'.
Proof.
  intros y g a s y' g' a' cs H. unfold send_ack in H. destruct (s <? a).
  - destruct (send_block_status y g s BLOCK_ACK) as [[y1 g1] c] eqn:E. inversion H; subst. eapply cnt_send_ctl; eauto.
  - destruct (send_nacks _ y g s) as [[y1 g1] c1] eqn:E. destruct (send_block_status y1 g1 s BLOCK_ACK) as [[y2 g2] c2] eqn:F. inversion H; subst.
    apply cnt_nacks in E. unfold send_block_status in F. apply cnt_send_ctl in F. eapply cnt_trans; eauto.
Qed.

(* start() and stop() *)
Lemma log_start_ask : forall v y g y' g' ok, log_start v y g = Ok (y', g', ok) -> l_open g = false ->
  cnt g g' /\ l_open g' = ok /\ (ok = true -> l_tstart g' <> None) /\ l_target g' = l_target g.
Proof.
  intros v y g y' g' ok H O. unfold log_start in H. rewrite O in H. destruct (get_file v _ g) as [[name|] y2].
  2:{ inversion H; subst. repeat split; auto. discriminate. }
  destruct (add_timer v y2 1000 _) as [[ts|] y3].
  2:{ inversion H; subst. repeat split; auto. discriminate. }
  destruct (add_timer v y3 1000 _) as [[tf|] y4].
  - inversion H; subst. repeat split; auto. discriminate.
  - inv_bind H. inversion H; subst. repeat split; auto. discriminate.
Qed.
Lemma lstart_ask : forall v y g b y' g' b' ok, lstart v y g b = Ok (y', g', b', ok) -> l_open g = false ->
  cnt g g' /\ l_open g' = ok /\ (ok = true -> l_tstart g' <> None) /\ l_target g' = l_target g /\ proto b' = proto b.
Proof.
  intros v y g b y' g' b' ok H O. destruct b; cbn [lstart] in H; unfold bin_start, ul_start in H; inv_bind H; try (inv_bind E); inversion H; subst;
  try (inversion E; subst); match goal with X : log_start v y g = Ok _ |- _ => destruct (log_start_ask _ _ _ _ _ _ X O) as (A & B & C & D) end; auto.
Qed.
Lemma log_stop_ask : forall v y g y' g', log_stop v y g = Ok (y', g') -> cnt g g' /\ l_open g' = false /\ l_target g' = l_target g.
Proof.
  intros v y g y' g' H. unfold log_stop in H. inv_bind H. inv_bind H. inv_bind H. destruct (ask v _) as [ch y4].
  inversion H; subst. repeat split.
Qed.

Lemma pack2_raw : forall seq id x p, 0 <= id < 16777216 -> raw_id (pack2 seq id x p) = id.
Proof.
  intros seq id x p I. unfold raw_id, pack2. cbn [app nth]. unfold u8.
  assert (A : id / 65536 = id / 256 / 256) by (rewrite Z.div_div by lia; reflexivity). rewrite ?A. Z.div_mod_to_equations. lia.
Qed.
Lemma block_request : forall y g n st y' g' c, 0 <= n < 4294967296 -> send_block_status y g n st = (y', g', c) ->
  raw_id (fst c) = 185 /\ raw_payload 7 (fst c) = le32 n ++ [u8 (l_target g); 0; st] /\ field32 (raw_payload 7 (fst c)) 0 = n.
Proof.
  intros y g n st y' g' c N H. unfold send_block_status, send_ctl in H. pose proof (f_equal snd H) as A. cbn [snd] in A. subst c. cbn [fst].
  split; [apply pack2_raw; lia|]. assert (P : raw_payload 7 (pack2 (y_seq y) 185 186 (le32 n ++ [u8 (l_target g); 0; st])) = le32 n ++ [u8 (l_target g); 0; st]).
  { unfold raw_payload. change 7%nat with (length (le32 n ++ [u8 (l_target g); 0; st])). apply pack2_payload; [discriminate|cbn; lia]. }
  split; auto. rewrite P. apply le32_field; auto.
Qed.
Lemma command_request : forall y g n y' g' c, 0 <= n < 65536 -> send_command y g n = (y', g', c) ->
  raw_id (fst c) = 76 /\ field16 (raw_payload 33 (fst c)) 28 = n /\ nth 30 (raw_payload 33 (fst c)) 0 = u8 (l_target g).
Proof.
  intros y g n y' g' c N H. unfold send_command, send_ctl in H. pose proof (f_equal snd H) as A. cbn [snd] in A. subst c. cbn [fst].
  split; [apply pack2_raw; lia|]. set (pl := repeat 0 28 ++ le16 n ++ [u8 (l_target g); 0; 0]).
  assert (P : raw_payload 33 (pack2 (y_seq y) 76 152 pl) = pl).
  { unfold raw_payload. change 33%nat with (length pl). apply pack2_payload; [discriminate|cbn; lia]. }
  rewrite P. unfold pl, field16, le16, u8. cbn [repeat app nth Nat.add]. split; [|reflexivity]. Z.div_mod_to_equations. lia.
Qed.

(* the message sent when an open log is closed *)
Lemma lstop_ask : forall f v y g b y' g' b' cs, lstop f v y g b = Ok (y', g', b', cs) ->
  cnt g g' /\ l_open g' = false /\ l_target g' = l_target g /\ proto b' = proto b /\
  if l_open g then match b with BTele => cs = [] | _ => exists c, cs = [c] /\ stop_request (proto b) (l_target g mod 256) (fst c) end else cs = [].
Proof.
  intros f v y g b y' g' b' cs H. destruct b; cbn [lstop] in H.
  - unfold bin_stop in H. destruct (l_open g) eqn:O; cbn [negb] in H. 2:{ cbn [bind] in H. inversion H; subst. repeat split; auto. }
    destruct (send_block_status y g BLOCK_STOP 1) as [[y1 g1] c] eqn:S. inv_bind H. inv_bind E. inversion E; subst. inversion H; subst.
    destruct (log_stop_ask _ _ _ _ _ E0) as (A & B & D). assert (C1 := S). unfold send_block_status in C1.
    pose proof (calm_send_ctl _ _ _ _ _ _ _ _ C1) as CA. apply cnt_send_ctl in C1.
    split; [eapply cnt_trans; eauto|]. split; auto. split. { rewrite D. apply (ca_cfg _ _ _ _ CA). } split; auto.
    exists c. split; auto. destruct (block_request y g BLOCK_STOP 1 _ _ _ ltac:(unfold BLOCK_STOP; lia) S) as (R1 & R2 & R3).
    cbn [stop_request request proto]. rewrite R3, R2. repeat split; auto.
  - unfold ul_stop in H. destruct (l_open g) eqn:O; cbn [negb] in H. 2:{ cbn [bind] in H. inversion H; subst. repeat split; auto. }
    destruct (send_command y g CMD_LOGGING_STOP) as [[y1 g1] c] eqn:S. inv_bind H. inv_bind E. inv_bind E. inversion E; subst. inversion H; subst.
    destruct (log_stop_ask _ _ _ _ _ E1) as (A & B & D). pose proof (calm_stop_flush _ _ _ _ _ _ _ _ _ E0) as CF. apply cnt_stop_flush in E0.
    assert (C1 := S). unfold send_command in C1. pose proof (calm_send_ctl _ _ _ _ _ _ _ _ C1) as CA. apply cnt_send_ctl in C1.
    split; [eapply cnt_trans; [exact C1|eapply cnt_trans; eauto]|]. split; auto.
    split. { rewrite D. pose proof (ca_cfg _ _ _ _ CF) as X. pose proof (ca_cfg _ _ _ _ CA) as X'. unfold same_cfg in *. intuition congruence. }
    split; auto. exists c. split; auto. destruct (command_request y g CMD_LOGGING_STOP _ _ _ ltac:(unfold CMD_LOGGING_STOP; lia) S) as (R1 & R2 & R3).
    cbn [stop_request request proto]. auto.
  - destruct (l_open g) eqn:O; cbn [negb] in H. 2:{ inversion H; subst. repeat split; auto. }
    inv_bind H. inversion H; subst. destruct (log_stop_ask _ _ _ _ _ E) as (A & B & D). repeat split; auto; apply A.
Qed.
