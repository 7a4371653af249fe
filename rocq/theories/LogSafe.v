(* The binary and telemetry loggers never run into undefined behaviour. *)
From Verif Require Import Base Mav Frame Names Sys LogFile ULog Loggers LogInv LogStep RouterCtl.

(* the computation ends with a result: no undefined behaviour, no exhausted bound *)
Definition fine {A} (r : res A) : Prop := exists a, r = Ok a.

Lemma fine_ok : forall A (a : A), fine (Ok a).
Proof. intros. exists a. reflexivity. Qed.
Lemma fine_bind : forall A B (m : res A) (k : A -> res B), fine m -> (forall a, m = Ok a -> fine (k a)) -> fine (bind m k).
Proof. intros A B m k [a E] H. rewrite E. cbn [bind]. apply H. exact E. Qed.
#[global] Hint Resolve fine_ok : core.

Lemma fine_rd : forall mem i, Z.of_nat i < Z.of_nat (length mem) -> fine (rd mem i).
Proof. intros. rewrite rd_Ok by lia. auto. Qed.
Lemma fine_slice : forall mem o n, Z.of_nat o + Z.of_nat n <= Z.of_nat (length mem) -> fine (slice mem o n).
Proof. intros. rewrite slice_Ok by lia. auto. Qed.

Lemma slice_size : forall mem o n bs, slice mem o n = Ok bs -> length bs = n.
Proof.
  intros mem o n bs H. unfold slice in H. destruct (_ <=? _)%nat eqn:Q; [|discriminate]. apply Nat.leb_le in Q. inversion H; subst.
  rewrite firstn_length, skipn_length. lia.
Qed.

(* the message lies in a buffer with room behind it, and its length byte is the payload length *)
Definition in_buf (mem : list Z) (m : minfo) : Prop :=
  Z.of_nat (m_poff m) + 256 <= Z.of_nat (length mem) /\ (m_len m <= length mem)%nat /\ 0 <= m_plen m /\
  (nth 0 mem 0 = STX2 -> nth 1 mem 0 = m_plen m).

Lemma log_start_fine : forall v y g, sys_ok y -> linv y g -> fine (log_start v y g).
Proof. intros v y g S L. destruct (log_start_spec v y g S L) as (y1 & g1 & ok & E & _). rewrite E. auto. Qed.
Lemma log_stop_fine : forall v y g, sys_ok y -> linv y g -> fine (log_stop v y g).
Proof. intros v y g S L. destruct (log_stop_spec v y g S L) as (y1 & g1 & E & _). rewrite E. auto. Qed.

Lemma bin_start_fine : forall v y g a, sys_ok y -> linv y g -> fine (bin_start v y g a).
Proof. intros. unfold bin_start. apply fine_bind. { apply log_start_fine; auto. } intros [[? ?] ?] _. auto. Qed.
Lemma bin_stop_fine : forall v y g, sys_ok y -> linv y g -> fine (bin_stop v y g).
Proof.
  intros v y g S L. unfold bin_stop. destruct (negb _); auto. destruct (send_block_status y g BLOCK_STOP 1) as [[y1 g1] c] eqn:C.
  apply calm_block_status in C. apply fine_bind.
  { apply log_stop_fine; [eapply calm_sys; eauto|eapply calm_linv; eauto]. } intros [? ?] _. auto.
Qed.
Lemma bin_restart_fine : forall v y g a, sys_ok y -> linv y g -> fine (bin_restart v y g a).
Proof.
  intros v y g a S L. unfold bin_restart. apply fine_bind. { apply bin_stop_fine; auto. } intros [[y1 g1] cs] E.
  apply step_bin_stop in E. apply fine_bind. { apply bin_start_fine; apply E; auto. } intros [[[? ?] ?] ?] _. auto.
Qed.
Lemma bin_process_fine : forall v y g a s d, sys_ok y -> linv y g -> fine (bin_process v y g a s d).
Proof.
  intros v y g a s d S L. unfold bin_process. destruct (negb _). { apply bin_restart_fine; auto. }
  destruct (ask v y) as [r y1] eqn:A. apply (calm_ask _ _ g) in A. destruct (r <? 0). { apply bin_restart_fine; [eapply calm_sys; eauto|eapply calm_linv; eauto]. }
  destruct (file_write _ _ _ _ _) as [[r2 y2] g2] eqn:W. apply calm_file_write in W. pose proof (calm_trans _ _ _ _ _ _ A W) as C.
  destruct (_ && _). { apply bin_restart_fine; [eapply calm_sys; eauto|eapply calm_linv; eauto]. } destruct (negb _); auto.
Qed.

Lemma lstart_fine : forall v y g b, sys_ok y -> linv y g -> fine (lstart v y g b).
Proof.
  intros v y g b S L. destruct b; cbn [lstart].
  - apply fine_bind. { apply bin_start_fine; auto. } intros [[[? ?] ?] ?] _. auto.
  - apply fine_bind. { unfold ul_start. apply fine_bind. { apply log_start_fine; auto. } intros [[? ?] ?] _. auto. } intros [[[? ?] ?] ?] _. auto.
  - apply fine_bind. { apply log_start_fine; auto. } intros [[? ?] ?] _. auto.
Qed.
Lemma lstop_fine : forall f v y g b, is_ulog b = false -> sys_ok y -> linv y g -> fine (lstop f v y g b).
Proof.
  intros f v y g b U S L. destruct b; cbn [lstop]; [|discriminate|].
  - apply fine_bind. { apply bin_stop_fine; auto. } intros [[? ?] ?] _. auto.
  - destruct (negb _); auto. apply fine_bind. { apply log_stop_fine; auto. } intros [? ?] _. auto.
Qed.

Lemma auto_fine : forall f v y g b mem m, is_ulog b = false -> sys_ok y -> linv y g -> in_buf mem m -> fine (auto_start_stop f v y g b mem m).
Proof.
  intros f v y g b mem m U S L (P & _). unfold auto_start_stop. destruct (_ =? -1); auto.
  destruct (l_mode g); auto.
  - destruct (l_open g); auto. apply fine_bind. { apply lstart_fine; auto. } intros [[[? ?] ?] ?] _. auto.
  - destruct (_ && _); auto. apply fine_bind. { apply fine_rd. lia. } intros bm _. destruct (_ && _).
    { apply fine_bind. { apply lstart_fine; auto. } intros [[[? ?] ?] ?] _. auto. }
    destruct (_ && _); auto. apply lstop_fine; auto.
Qed.

Lemma rd32_fine : forall mm i, Z.of_nat i + 4 <= Z.of_nat (length mm) -> fine (rd32 mm i).
Proof. intros. unfold rd32. repeat (apply fine_bind; [apply fine_rd; lia|intros ? _]). auto. Qed.

(* the message definition of REMOTE_LOG_DATA_BLOCK: 206 bytes *)
Definition block_table (tbl : table) : Prop := forall e, tbl 184 = Some e -> e_max_len e = 206.

Lemma bin_write_fine : forall v y g a mem m, block_table (v_tbl v) -> sys_ok y -> linv y g -> in_buf mem m -> fine (bin_write v y g a mem m).
Proof.
  intros v y g a mem m BT S L (P & ML & PL & ST). unfold bin_write. destruct (m_id m =? 184) eqn:MI; cbn [negb]; auto.
  apply Z.eqb_eq in MI. rewrite MI. destruct (v_tbl v 184) as [e|] eqn:TB; auto. apply BT in TB.
  apply fine_bind.
  { unfold payload_dims. apply fine_bind. { apply fine_rd. lia. } intros s _. destruct (s =? STX2); auto.
    apply fine_bind. { apply fine_rd. lia. } auto. }
  intros [pl tz] PD.
  assert (DIM : 0 <= pl <= 206 /\ (tz <> 0 -> 0 <= tz /\ pl + tz = 206)).
  { unfold payload_dims in PD. inv_bind PD. apply rd_inv in E. destruct E as [_ ->].
    destruct (nth 0 mem 0 =? STX2) eqn:Q.
    - inv_bind PD. apply rd_inv in E. destruct E as [_ ->]. apply Z.eqb_eq in Q. rewrite (ST Q) in PD. inversion PD; subst. clear PD. rewrite TB.
      destruct (206 <? m_plen m) eqn:Q2; [apply Z.ltb_lt in Q2|apply Z.ltb_ge in Q2]; lia.
    - inversion PD; subst. rewrite TB. destruct (206 <? m_plen m) eqn:Q2; [apply Z.ltb_lt in Q2|apply Z.ltb_ge in Q2]; lia. }
  destruct DIM as [D1 D2].
  apply fine_bind.
  { destruct (tz =? 0) eqn:Z0; auto. apply Z.eqb_neq in Z0. destruct (D2 Z0) as [D3 D4]. unfold local_copy. apply fine_bind; [|auto].
    apply fine_bind. { apply fine_slice. lia. } intros p E. apply slice_size in E. rewrite app_length, repeat_length, E.
    rewrite (proj2 (Nat.leb_le _ _)) by lia. auto. }
  intros [mm b] MM.
  assert (ROOM : Z.of_nat b + 206 <= Z.of_nat (length mm)).
  { destruct (tz =? 0) eqn:Z0. { inversion MM; subst. lia. } apply Z.eqb_neq in Z0. destruct (D2 Z0) as [D3 D4]. inv_bind MM. inversion MM; subst. clear MM.
    unfold local_copy in E. inv_bind E. apply slice_size in E0. destruct (_ <=? _)%nat; [|discriminate]. inversion E; subst. rewrite app_length, repeat_length, E0. lia. }
  clear MM PD ST. apply fine_bind. { apply rd32_fine. lia. } intros seqno _.
  assert (GO : fine (match l_tstart g with
        | Some _ =>
          if seqno =? 0 then
            let* (y, g) := remove_start_timeout y g in
            let (y, g) := start_alive v y g in
            Ok (y, g, [], true)
          else
            let '(y, g, c) := send_block_status y g BLOCK_STOP 1 in Ok (y, g, [c], false)
        | None => Ok (y, g, @nil ctl, true)
        end)).
  { destruct (l_tstart g) as [id|] eqn:TS; auto. destruct (seqno =? 0).
    - apply fine_bind.
      + unfold remove_start_timeout. rewrite TS. apply fine_bind; [|auto]. pose proof (li_start _ _ L) as X. rewrite TS in X.
        destruct (del_timer_spec _ _ _ S X) as (y' & E & _). rewrite E. auto.
      + intros [y1 g1] _. destruct (start_alive v y1 g1). auto.
    - destruct (send_block_status y g BLOCK_STOP 1) as [[? ?] ?]. auto. }
  apply fine_bind. { exact GO. } intros [[[y1 g1] cs0] go] GE. destruct go; auto.
  apply fine_bind. { apply fine_slice. lia. } intros data _.
  assert (ST : step_ok y g y1 g1).
  { destruct (l_tstart g) as [id|] eqn:TS; [|inversion GE; subst; apply step_refl]. destruct (seqno =? 0).
    - inv_bind GE. destruct (start_alive v s l) as [y3 g3] eqn:SA. inversion GE; subst. eapply step_started; eauto.
    - destruct (send_block_status y g BLOCK_STOP 1) as [[? ?] ?]. inversion GE. }
  apply fine_bind. { apply bin_process_fine; apply ST; auto. } intros [[[? ?] ?] ?] _. auto.
Qed.

Lemma tele_write_fine : forall v y g mem m, in_buf mem m -> fine (tele_write v y g mem m).
Proof.
  intros v y g mem m (_ & ML & _). unfold tele_write. destruct (ask v y) as [now y1]. apply fine_bind. { apply fine_slice. lia. }
  intros d _. destruct (file_write _ _ _ _ _) as [[? ?] ?]. destruct (file_write _ _ _ _ _) as [[? ?] ?]. auto.
Qed.

Lemma lwrite_fine : forall f v y g b mem m, block_table (v_tbl v) -> is_ulog b = false -> sys_ok y -> linv y g -> in_buf mem m -> fine (lwrite f v y g b mem m).
Proof.
  intros f v y g b mem m BT U S L IB. apply (learn_inv _ _ m) in L. unfold lwrite. apply fine_bind. { apply auto_fine; auto. }
  intros [[[y1 g1] b1] cs] A. pose proof (step_auto _ _ _ _ _ _ _ _ _ _ _ A) as ST.
  assert (U1 : is_ulog b1 = false) by (eapply eq_trans; [eapply auto_start_kind; eauto|auto]).
  destruct b1; [|discriminate|].
  - apply fine_bind. { apply bin_write_fine; auto; apply ST; auto. } intros [[[? ?] ?] ?] _. auto.
  - apply fine_bind. { apply tele_write_fine; auto. } intros [? ?] _. auto.
Qed.

Lemma lcb_alive_fine : forall f v y g b, is_ulog b = false -> sys_ok y -> linv y g -> fine (lcb_alive f v y g b).
Proof.
  intros f v y g b U S L. unfold lcb_alive. apply fine_bind; [|intros [[[? ?] ?] ?] _; auto]. destruct (_ =? _); auto.
  apply fine_bind. { apply lstop_fine; auto. } intros [[[y1 g1] b1] cs] E. apply step_lstop in E.
  apply fine_bind. { apply lstart_fine; apply E; auto. } intros [[[? ?] ?] ?] _. auto.
Qed.
