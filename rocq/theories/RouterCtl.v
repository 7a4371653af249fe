(* What the loggers hand to the router, and what they do to the buffer of the message they are given. *)
From Verif Require Import Base Mav SpecFrame Frame FrameProofs FrameRefine Names Sys LogFile ULog Loggers LogInv LogStep SpecOwn Pack.

(* a message sent by a logger comes from 2/0 and is not addressed to a component *)
Definition ctl_ok (c : ctl) : Prop :=
  m_ssys (snd c) = 2 /\ m_scomp (snd c) = 0 /\ m_tcomp (snd c) = 0 /\ m_len (snd c) = length (fst c) /\
  exists p, encode p = fst c /\ p_id p = m_id (snd c) /\ own_packet p (u8 (m_tsys (snd c))).

Lemma ctl_send : forall y g i x at_ p y' g' c, send_ctl y g i x p = (y', g', c) ->
  In (i, x, at_) own_kinds -> bytes p -> (length p < 256)%nat -> nth at_ p 0 = u8 (l_target g) -> ctl_ok c.
Proof.
  intros y g i x at_ p y' g' c H I B L T. unfold send_ctl in H. pose proof (f_equal snd H) as A. cbn [snd] in A. subst c.
  repeat (split; [reflexivity|]). destruct (own_pack2 (y_seq y) i x at_ p I B L) as (q & E & F & G). exists q. cbn [fst snd m_id m_tsys]. rewrite <- T. auto.
Qed.

Lemma ctl_status : forall y g s t y' g' c, send_block_status y g s t = (y', g', c) -> is_byte t -> ctl_ok c.
Proof.
  intros y g s t y' g' c H T. eapply (ctl_send _ _ _ _ 4%nat); [exact H|right; left; reflexivity| |cbn; lia|reflexivity].
  apply bytes_app. split; [apply le32_bytes|]. repeat (apply bytes_cons; split); try apply u8_range; auto; [unfold is_byte; lia|constructor].
Qed.
Lemma ctl_command : forall y g s y' g' c, send_command y g s = (y', g', c) -> ctl_ok c.
Proof.
  intros y g s y' g' c H. eapply (ctl_send _ _ _ _ 30%nat); [exact H|left; reflexivity| |cbn; lia|reflexivity].
  repeat (apply bytes_cons; split; [first [apply u8_range|unfold is_byte; lia]|]). constructor.
Qed.
Lemma ctl_logging_ack : forall y g s y' g' c, send_ctl y g 268 14 (le16 s ++ [u8 (l_target g); 0]) = (y', g', c) -> ctl_ok c.
Proof.
  intros y g s y' g' c H. eapply (ctl_send _ _ _ _ 2%nat); [exact H|right; right; left; reflexivity| |cbn; lia|reflexivity].
  repeat (apply bytes_cons; split; [first [apply u8_range|unfold is_byte; lia]|]). constructor.
Qed.
Lemma byte0 : is_byte BLOCK_NACK.
Proof. unfold is_byte, BLOCK_NACK. lia. Qed.
Lemma byte1 : is_byte BLOCK_ACK.
Proof. unfold is_byte, BLOCK_ACK. lia. Qed.
Lemma byte1' : is_byte 1.
Proof. unfold is_byte. lia. Qed.
#[local] Hint Resolve byte0 byte1 byte1' : core.

Lemma ctl_nacks : forall n y g s y' g' cs, send_nacks n y g s = (y', g', cs) -> Forall ctl_ok cs.
Proof.
  induction n; intros y g s y' g' cs H; cbn [send_nacks] in H.
  - inversion H; auto.
  - destruct (send_block_status y g s BLOCK_NACK) as [[y1 g1] c] eqn:A. destruct (send_nacks n y1 g1 s) as [[y2 g2] cs2] eqn:B.
    inversion H; subst. constructor; eauto using ctl_status.
Qed.

Lemma ctl_ack : forall y g a s y' g' a' cs, send_ack y g a s = (y', g', a', cs) -> Forall ctl_ok cs.
Proof.
  intros y g a s y' g' a' cs H. unfold send_ack in H. destruct (s <? a).
  - destruct (send_block_status y g s BLOCK_ACK) as [[y1 g1] c] eqn:A. inversion H; subst. constructor; eauto using ctl_status.
  - destruct (send_nacks _ _ _ _) as [[y1 g1] cs1] eqn:A. destruct (send_block_status y1 g1 s BLOCK_ACK) as [[y2 g2] c] eqn:B.
    inversion H; subst. apply Forall_app; split; eauto using ctl_nacks, ctl_status.
Qed.

Lemma ctl_bin_stop : forall v y g y' g' cs, bin_stop v y g = Ok (y', g', cs) -> Forall ctl_ok cs.
Proof.
  intros v y g y' g' cs H. unfold bin_stop in H. destruct (negb _). { inversion H; auto. }
  destruct (send_block_status y g BLOCK_STOP 1) as [[y1 g1] c] eqn:A. inv_bind H. inversion H; subst. constructor; eauto using ctl_status.
Qed.
Lemma ctl_bin_restart : forall v y g a y' g' a' cs, bin_restart v y g a = Ok (y', g', a', cs) -> Forall ctl_ok cs.
Proof. intros v y g a y' g' a' cs H. unfold bin_restart in H. inv_bind H. inv_bind H. inversion H; subst. eapply ctl_bin_stop; eauto. Qed.
Lemma ctl_bin_process : forall v y g a s d y' g' a' cs, bin_process v y g a s d = Ok (y', g', a', cs) -> Forall ctl_ok cs.
Proof.
  intros v y g a s d y' g' a' cs H. unfold bin_process in H. destruct (negb _). { eapply ctl_bin_restart; eauto. }
  destruct (ask v y) as [sk y0]. destruct (sk <? 0). { eapply ctl_bin_restart; eauto. }
  destruct (file_write _ _ _ _ _) as [[r y2] g2]. destruct (_ && _). { eapply ctl_bin_restart; eauto. }
  destruct (negb _). { inversion H; auto. }
  assert (X : send_ack y2 g2 a s = (y', g', a', cs)) by congruence. eapply ctl_ack; eauto.
Qed.
Lemma ctl_bin_write : forall v y g a mem m y' g' a' cs, bin_write v y g a mem m = Ok (y', g', a', cs) -> Forall ctl_ok cs.
Proof.
  intros v y g a mem m y' g' a' cs H. unfold bin_write in H. destruct (negb _). { inversion H; auto. }
  destruct (v_tbl v (m_id m)) as [e|]; [|inversion H; auto].
  inv_bind H. inv_bind H. inv_bind H. inv_bind H.
  assert (C : Forall ctl_ok l0).
  { destruct (l_tstart g).
    - destruct (a0 =? 0).
      + inv_bind E2. destruct (start_alive _ _ _). inversion E2; subst; auto.
      + destruct (send_block_status _ _ _ _) as [[y1 g1] c] eqn:A. inversion E2; subst. constructor; eauto using ctl_status.
    - inversion E2; subst; auto. }
  destruct b.
  - inv_bind H. inv_bind H. inversion H; subst. apply Forall_app; split; auto. eapply ctl_bin_process; eauto.
  - inversion H; subst; auto.
Qed.

Lemma ctl_ul_stop : forall f v y g u y' g' u' cs, ul_stop f v y g u = Ok (y', g', u', cs) -> Forall ctl_ok cs.
Proof.
  intros f v y g u y' g' u' cs H. unfold ul_stop in H. destruct (negb _). { inversion H; auto. }
  destruct (send_command _ _ _) as [[y1 g1] c] eqn:A. inv_bind H. inv_bind H. inversion H; subst. constructor; auto. eapply ctl_command; exact A.
Qed.
Lemma ctl_ul_restart : forall f v y g u y' g' u' cs, ul_restart f v y g u = Ok (y', g', u', cs) -> Forall ctl_ok cs.
Proof. intros f v y g u y' g' u' cs H. unfold ul_restart in H. inv_bind H. inv_bind H. inversion H; subst. eapply ctl_ul_stop; eauto. Qed.
Lemma ctl_ul_process : forall f v y g u mm b y' g' u' mm' cs, ul_process f v y g u mm b = Ok (y', g', u', mm', cs) -> Forall ctl_ok cs.
Proof.
  intros f v y g u mm b y' g' u' mm' cs H. unfold ul_process in H. inv_bind H. inv_bind H.
  destruct (logging_seq _ _) as [[u1 d]|]; [|inversion H; auto]. destruct (u_hdr u1).
  - inv_bind H. destruct (_ <? 16). { inv_bind H. inversion H; subst. eapply ctl_ul_restart; eauto. }
    inv_bind H. destruct (negb _). { inv_bind H. inversion H; subst. eapply ctl_ul_restart; eauto. }
    inv_bind H. inv_bind H. inv_bind H. inv_bind H. inv_bind H. inversion H; auto.
  - inv_bind H. inversion H; auto.
Qed.
Lemma ctl_ul_write : forall f v y g u mem m y' g' u' mem' cs, ul_write f v y g u mem m = Ok (y', g', u', mem', cs) -> Forall ctl_ok cs.
Proof.
  intros f v y g u mem m y' g' u' mem' cs H. unfold ul_write in H. destruct (negb _). { inversion H; auto. }
  destruct (v_tbl v (m_id m)) as [e|]; [|inversion H; auto]. inv_bind H. destruct (m_id m =? 77).
  - inv_bind H. destruct (ask_bytes _ _ _) as [jk y1]. inv_bind H. inv_bind H. inv_bind H. destruct (l_tstart g); [|inversion H; auto].
    destruct (_ =? CMD_LOGGING_START); [|inversion H; auto]. destruct (_ =? 0); [|inversion H; auto].
    inv_bind H. destruct (start_alive _ _ _). inversion H; auto.
  - inv_bind H.
    assert (C : Forall ctl_ok l).
    { destruct (m_id m =? 267).
      - inv_bind E0. inv_bind E0. destruct (send_ctl _ _ _ _ _) as [[y1 g1] c] eqn:A. inversion E0; subst. constructor; eauto using ctl_logging_ack.
      - inversion E0; subst; auto. }
    destruct (_ =? 0).
    + inv_bind H. inversion H; subst. apply Forall_app; split; auto. eapply ctl_ul_process; eauto.
    + inv_bind H. inv_bind H. inversion H; subst. apply Forall_app; split; auto. eapply ctl_ul_process; eauto.
Qed.

Lemma ctl_lstop : forall f v y g b y' g' b' cs, lstop f v y g b = Ok (y', g', b', cs) -> Forall ctl_ok cs.
Proof.
  intros f v y g b y' g' b' cs H. destruct b; cbn [lstop] in H.
  - inv_bind H. inversion H; subst. eapply ctl_bin_stop; eauto.
  - inv_bind H. inversion H; subst. eapply ctl_ul_stop; eauto.
  - destruct (negb _). { inversion H; auto. } inv_bind H. inversion H; auto.
Qed.
Lemma ctl_auto : forall f v y g b mem m y' g' b' cs, auto_start_stop f v y g b mem m = Ok (y', g', b', cs) -> Forall ctl_ok cs.
Proof.
  intros f v y g b mem m y' g' b' cs H. unfold auto_start_stop in H. destruct (_ =? -1). { inversion H; auto. }
  destruct (l_mode g).
  - destruct (l_open g). { inversion H; auto. } inv_bind H. inversion H; auto.
  - destruct (_ && _ && _); [|inversion H; auto]. inv_bind H. destruct (negb _ && _). { inv_bind H. inversion H; auto. }
    destruct (_ && negb _); [|inversion H; auto]. eapply ctl_lstop; eauto.
  - inversion H; auto.
Qed.
Lemma ctl_lwrite : forall f v y g b mem m y' g' b' mem' cs, lwrite f v y g b mem m = Ok (y', g', b', mem', cs) -> Forall ctl_ok cs.
Proof.
  intros f v y g b mem m y' g' b' mem' cs H. unfold lwrite in H. inv_bind H. apply ctl_auto in E.
  destruct b0; inv_bind H; inversion H; subst; auto; apply Forall_app; split; auto.
  - eapply ctl_bin_write; eauto.
  - eapply ctl_ul_write; eauto.
Qed.
Lemma ctl_auto_write : forall f v y a mem m y' a' mem' cs, auto_write f v y a mem m = Ok (y', a', mem', cs) -> Forall ctl_ok cs.
Proof.
  intros f v y a mem m y' a' mem' cs H. unfold auto_write in H. destruct (a_inner a) as [[g b]|].
  - inv_bind H. inversion H; subst. eapply ctl_lwrite; eauto.
  - destruct (negb _). { inversion H; auto. } inv_bind H. destruct (_ =? 12). { destruct (ask_bytes _ _ _). inversion H; auto. }
    destruct (_ =? 3); inversion H; auto.
Qed.
Lemma ctl_cb_start : forall y g b y' g' cs, lcb_start y g b = (y', g', cs) -> Forall ctl_ok cs.
Proof.
  intros y g b y' g' cs H. destruct b; cbn [lcb_start] in H.
  - destruct (send_block_status y g BLOCK_START 1) as [[y2 g2] c] eqn:S. inversion H; subst. constructor; eauto using ctl_status.
  - destruct (send_command y g CMD_LOGGING_START) as [[y2 g2] c] eqn:S. inversion H; subst. constructor; auto. eapply ctl_command; exact S.
  - inversion H; auto.
Qed.
Lemma ctl_cb_alive : forall f v y g b y' g' b' cs, lcb_alive f v y g b = Ok (y', g', b', cs) -> Forall ctl_ok cs.
Proof.
  intros f v y g b y' g' b' cs H. unfold lcb_alive in H. inv_bind H. inversion H; subst; clear H. destruct (_ =? _).
  - inv_bind E. inv_bind E. inversion E; subst. eapply ctl_lstop; eauto.
  - inversion E; auto.
Qed.

(* ---- the buffer -------------------------------------------------------------------------------------- *)

Definition mem_ok (a b : list Z) : Prop := length b = length a /\ (bytes a -> bytes b).
Lemma mem_refl : forall a, mem_ok a a.
Proof. split; auto. Qed.
Lemma mem_trans : forall a b c, mem_ok a b -> mem_ok b c -> mem_ok a c.
Proof. intros a b c [A B] [C D]. split; [congruence|auto]. Qed.
Lemma mem_blit : forall a o bs b, blit a o bs = Ok b -> (bytes a -> bytes bs) -> mem_ok a b.
Proof.
  intros a o bs b H K. split; [eapply blit_length; eauto|]. intros B. unfold blit in H. destruct (_ <=? _)%nat; [|discriminate].
  injection H; intros; subst. apply bytes_app; split; [apply bytes_firstn; auto|]. apply bytes_app; split; auto. apply bytes_skipn; auto.
Qed.
Lemma mem_move : forall a d s n b, memmove a d s n = Ok b -> mem_ok a b.
Proof.
  intros a d s n b H. unfold memmove in H. apply bind_Ok_inv in H. destruct H as (x & S & H). eapply mem_blit; eauto.
  intros B. unfold slice in S. destruct (_ <=? _)%nat; [|discriminate]. injection S; intros; subst. apply bytes_firstn, bytes_skipn; auto.
Qed.
Lemma rd_byte : forall a i b, rd a i = Ok b -> bytes a -> is_byte b.
Proof. intros a i b H B. apply rd_inv in H. destruct H as [L ->]. unfold bytes in B. rewrite Forall_forall in B. apply B. apply nth_In; auto. Qed.

Lemma mem_ul_data : forall f v y g u mm b d y' g' u' mm', ul_data f v y g u mm b d = Ok (y', g', u', mm') -> mem_ok mm mm'.
Proof.
  intros f v y g u mm b d y' g' u' mm' H. unfold ul_data in H. inv_bind H. inv_bind H. inv_bind H. inv_bind H.
  destruct (_ && _). { inversion H; subst; apply mem_refl. }
  destruct (_ =? 0). { inversion H; subst; apply mem_refl. }
  inv_bind H. inv_bind H. inv_bind H. inv_bind H. inversion H; subst.
  match goal with X : blit mm _ _ = Ok _ |- _ => eapply mem_blit; [exact X|] end.
  intros _. apply bytes_cons. split; [apply u8_range|constructor].
Qed.
Lemma mem_ul_process : forall f v y g u mm b y' g' u' mm' cs, ul_process f v y g u mm b = Ok (y', g', u', mm', cs) -> mem_ok mm mm'.
Proof.
  intros f v y g u mm b y' g' u' mm' cs H. unfold ul_process in H. inv_bind H. inv_bind H.
  destruct (logging_seq _ _) as [[u1 d]|]; [|inversion H; subst; apply mem_refl]. destruct (u_hdr u1).
  - inv_bind H. match type of H with context [?x <? 16] => destruct (x <? 16) eqn:L16 end. { inv_bind H. inversion H; subst. apply mem_refl. }
    inv_bind H. destruct (negb _). { inv_bind H. inversion H; subst. apply mem_refl. }
    inv_bind H. inv_bind H. inv_bind H. inv_bind H. inv_bind H. inversion H; subst.
    match goal with X : ul_data _ _ _ _ _ _ _ _ = Ok _ |- _ => apply mem_ul_data in X; rename X into D1 end.
    match goal with X : memmove mm _ _ _ = Ok _ |- _ => apply mem_move in X; rename X into D2 end.
    match goal with X : rd mm (b + 4) = Ok _ |- _ => pose proof (rd_byte _ _ _ X) as D3 end.
    match goal with X : blit _ _ [_ - 16] = Ok _ |- _ => rename X into D4 end.
    split.
    { destruct D1 as [D1 _]. destruct D2 as [D2 _]. rewrite D1, (blit_length _ _ _ _ D4). auto. }
    intros B. apply D1. eapply mem_blit; [exact D4| |apply D2; auto]. intros _. apply bytes_cons. split; [|constructor].
    specialize (D3 B). apply Z.ltb_ge in L16. unfold is_byte in *. lia.
  - inv_bind H. inversion H; subst. eapply mem_ul_data; eauto.
Qed.
Lemma mem_ul_write : forall f v y g u mem m y' g' u' mem' cs, ul_write f v y g u mem m = Ok (y', g', u', mem', cs) -> mem_ok mem mem'.
Proof.
  intros f v y g u mem m y' g' u' mem' cs H. unfold ul_write in H. destruct (negb _). { inversion H; subst; apply mem_refl. }
  destruct (v_tbl v (m_id m)) as [e|]; [|inversion H; subst; apply mem_refl]. inv_bind H. destruct (m_id m =? 77).
  - inv_bind H. destruct (ask_bytes _ _ _) as [jk y1]. inv_bind H. inv_bind H. inv_bind H.
    destruct (l_tstart g); [|inversion H; subst; apply mem_refl].
    destruct (_ =? CMD_LOGGING_START); [|inversion H; subst; apply mem_refl]. 
    match type of H with (if ?c then _ else _) = _ => destruct c end; [|inversion H; subst; apply mem_refl].
    inv_bind H. destruct (start_alive _ _ _). inversion H; subst; apply mem_refl.
  - inv_bind H. match type of H with (if ?c then _ else _) = _ => destruct c end.
    + inv_bind H. inversion H; subst. eapply mem_ul_process; eauto.
    + inv_bind H. inv_bind H. inversion H; subst. apply mem_refl.
Qed.

Definition is_ulog (b : backend) : bool := match b with BULog _ => true | _ => false end.

Lemma lstop_kind : forall f v y g b y' g' b' cs, lstop f v y g b = Ok (y', g', b', cs) -> is_ulog b' = is_ulog b.
Proof.
  intros f v y g b y' g' b' cs H. destruct b; cbn [lstop] in H; try (inv_bind H; inversion H; auto; fail).
  destruct (negb _). { inversion H; auto. } inv_bind H; inversion H; auto.
Qed.
Lemma lstart_kind : forall v y g b y' g' b' ok, lstart v y g b = Ok (y', g', b', ok) -> is_ulog b' = is_ulog b.
Proof. intros v y g b y' g' b' ok H. destruct b; cbn [lstart] in H; inv_bind H; inversion H; auto. Qed.
Lemma alive_kind : forall f v y g b y' g' b' cs, lcb_alive f v y g b = Ok (y', g', b', cs) -> is_ulog b' = is_ulog b.
Proof.
  intros f v y g b y' g' b' cs H. unfold lcb_alive in H. inv_bind H. inversion H; subst; clear H. destruct (_ =? _).
  - inv_bind E. inv_bind E. inversion E; subst. apply lstart_kind in E1. apply lstop_kind in E0. congruence.
  - inversion E; auto.
Qed.
Lemma auto_start_kind : forall f v y g b mem m y' g' b' cs, auto_start_stop f v y g b mem m = Ok (y', g', b', cs) -> is_ulog b' = is_ulog b.
Proof.
  assert (ST : forall v y g b y' g' b' ok, lstart v y g b = Ok (y', g', b', ok) -> is_ulog b' = is_ulog b).
  { intros v y g b y' g' b' ok H. destruct b; cbn [lstart] in H; inv_bind H; inversion H; auto. }
  assert (SP : forall f v y g b y' g' b' cs, lstop f v y g b = Ok (y', g', b', cs) -> is_ulog b' = is_ulog b).
  { intros f v y g b y' g' b' cs H. destruct b; cbn [lstop] in H; try (inv_bind H; inversion H; auto; fail).
    destruct (negb _). { inversion H; auto. } inv_bind H; inversion H; auto. }
  intros f v y g b mem m y' g' b' cs H. unfold auto_start_stop in H. destruct (_ =? -1). { inversion H; auto. }
  destruct (l_mode g).
  - destruct (l_open g). { inversion H; auto. } inv_bind H. inversion H; subst. eauto.
  - destruct (_ && _ && _); [|inversion H; auto]. inv_bind H. destruct (negb _ && _). { inv_bind H. inversion H; subst; eauto. }
    destruct (_ && negb _); [|inversion H; auto]. eauto.
  - inversion H; auto.
Qed.

Lemma mem_lwrite : forall f v y g b mem m y' g' b' mem' cs, lwrite f v y g b mem m = Ok (y', g', b', mem', cs) ->
  mem_ok mem mem' /\ is_ulog b' = is_ulog b /\ (is_ulog b = false -> mem' = mem).
Proof.
  intros f v y g b mem m y' g' b' mem' cs H. unfold lwrite in H. inv_bind H. apply auto_start_kind in E. rewrite <- E.
  destruct b0; inv_bind H; inversion H; subst; auto using mem_refl.
  split; [eapply mem_ul_write; eauto|]. split; auto. cbn. discriminate.
Qed.
