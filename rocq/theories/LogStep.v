(* The operations of the loggers preserve the invariant of LogInv.v and only touch what is theirs. *)
From Verif Require Import Base Mav Frame Names NamesProofs Sys LogFile LogFileProofs ULog Loggers LogInv.

(* destruct the pieces of a computation known to return Ok *)
Ltac inv_bind H :=
  match type of H with
  | bind _ _ = Ok _ =>
      let a := fresh "a" in let E := fresh "E" in
      apply bind_Ok_inv in H; destruct H as (a & E & H); cbv beta in H;
      repeat match type of H with (match ?p with (_, _) => _ end) = _ => is_var p; destruct p as [? ?] end
  end.
Ltac inv_pair H :=
  match type of H with
  | (let '(_, _) := ?p in _) = Ok _ => let E := fresh "P" in destruct p eqn:E
  | (let (_, _) := ?p in _) = Ok _ => let E := fresh "P" in destruct p eqn:E
  end.

(* ---- changes to the directory --------------------------------------------------------------- *)

(* only the contents of entries called [name] change *)
Definition touch (name : list Z) (f f' : fs) : Prop :=
  match f, f' with
  | None, None => True
  | Some l, Some l' => Forall2 (fun e e' => d_name e' = d_name e /\ d_kind e' = d_kind e /\ d_w e' = d_w e /\
                                            (d_name e <> name -> e' = e)) l l'
  | _, _ => False
  end.
Lemma touch_refl : forall n f, touch n f f.
Proof. intros n [l|]; cbn; auto. induction l; constructor; auto. Qed.
Lemma touch_trans : forall n a b c, touch n a b -> touch n b c -> touch n a c.
Proof.
  intros n [a|] [b|] [c|]; cbn; try tauto. intros H. revert c. induction H as [|e e' a b (A1 & A2 & A3 & A4) H IH]; intros c K;
  inversion K as [|? e'' ? c' (B1 & B2 & B3 & B4) K']; subst; constructor; auto.
  repeat split; try congruence. intros N. rewrite B4; auto. congruence.
Qed.
Lemma touch_upd : forall n l off bs, touch n (Some l) (Some (fs_upd l n (d_put off bs))).
Proof.
  intros. cbn. unfold fs_upd. induction l as [|e l IH]; cbn [map]; constructor; auto.
  destruct (beqs (d_name e) n) eqn:B; auto. apply beqs_eq in B. cbn. repeat split; auto. congruence.
Qed.

(* ---- steps that leave timers, configuration and file state alone ------------------------------- *)

Record calm (y : sys) (g : lg) (y' : sys) (g' : lg) : Prop := mkCalm {
  ca_timers : y_timers y' = y_timers y;
  ca_next : y_next y' = y_next y;
  ca_pos : (y_pos y <= y_pos y')%nat;
  ca_cfg : same_cfg g g';
  ca_open : l_open g' = l_open g;
  ca_name : l_name g' = l_name g;
  ca_ts : l_tstart g' = l_tstart g;
  ca_tf : l_tfsync g' = l_tfsync g;
  ca_ta : l_talive g' = l_talive g;
  ca_fs : touch (l_name g) (y_fs y) (y_fs y') }.

Lemma calm_refl : forall y g, calm y g y g.
Proof. intros. split; auto. apply same_cfg_refl. apply touch_refl. Qed.
Lemma calm_trans : forall a g b h c k, calm a g b h -> calm b h c k -> calm a g c k.
Proof.
  intros a g b h c k H K. destruct H, K. split; try congruence; try lia.
  - eapply same_cfg_trans; eauto.
  - eapply touch_trans; eauto. congruence.
Qed.
Lemma calm_linv : forall y g y' g', calm y g y' g' -> linv y g -> linv y' g'.
Proof. intros y g y' g' [] L. eapply linv_timers; eauto. apply ca_cfg0. Qed.
Lemma calm_sys : forall y g y' g', calm y g y' g' -> sys_ok y -> sys_ok y'.
Proof. intros y g y' g' [] L. unfold sys_ok. rewrite ca_timers0, ca_next0. auto. Qed.
Lemma calm_own : forall y g y' g' ep, calm y g y' g' -> own ep y y'.
Proof. intros y g y' g' ep []. unfold own. rewrite ca_timers0, ca_next0. auto. Qed.

Lemma calm_ask : forall v y g r y', ask v y = (r, y') -> calm y g y' g.
Proof. intros v y g r y' H. unfold ask in H. inversion H; subst. split; cbn; auto. apply same_cfg_refl. apply touch_refl. Qed.

Lemma calm_counts : forall y g a b c d, calm y g y (set_counts g a b c d).
Proof. intros. split; cbn; auto. unfold same_cfg; cbn; auto 10. apply touch_refl. Qed.
Lemma calm_count_write : forall y g m, calm y g y (count_write g m).
Proof. intros. apply calm_counts. Qed.

Lemma calm_send_ctl : forall y g i x p y' g' c, send_ctl y g i x p = (y', g', c) -> calm y g y' g'.
Proof.
  intros y g i x p y' g' c H. unfold send_ctl in H. pose proof (f_equal (fun t => fst (fst t)) H) as A.
  pose proof (f_equal (fun t => snd (fst t)) H) as B. cbn [fst snd] in A, B. subst.
  split; cbn [y_timers y_next y_pos y_fs l_open l_name l_tstart l_tfsync l_talive set_counts]; auto.
  unfold same_cfg; cbn; auto 10. apply touch_refl.
Qed.

Lemma calm_file_write : forall v y g off bs r y' g', file_write v y g off bs = (r, y', g') -> calm y g y' g'.
Proof.
  intros v y g off bs r y' g' H. unfold file_write in H. destruct (l_open g) eqn:O.
  2:{ inversion H; subst. apply calm_refl. }
  destruct (ask v y) as [r0 y0] eqn:A. pose proof (calm_ask v y g _ _ A) as C0.
  destruct (r0 <? 0). { inversion H; subst. auto. }
  destruct (y_fs y0) as [l|] eqn:F; inversion H; subst; clear H.
  - eapply calm_trans; [exact C0|]. split; cbn [y_timers y_next y_pos y_fs set_fs set_file l_open l_name l_tstart l_tfsync l_talive]; auto.
    unfold same_cfg; cbn; auto 10. rewrite F. apply touch_upd.
  - eapply calm_trans; [exact C0|]. split; cbn; auto. unfold same_cfg; cbn; auto 10. rewrite F. apply touch_refl.
Qed.

Lemma calm_block_status : forall y g s t y' g' c, send_block_status y g s t = (y', g', c) -> calm y g y' g'.
Proof. intros y g s t y' g' c H. eapply calm_send_ctl. exact H. Qed.

Lemma calm_nacks : forall n y g s y' g' cs, send_nacks n y g s = (y', g', cs) -> calm y g y' g'.
Proof.
  induction n; intros y g s y' g' cs H; cbn [send_nacks] in H.
  - inversion H; subst. apply calm_refl.
  - destruct (send_block_status y g s BLOCK_NACK) as [[y1 g1] c1] eqn:E. destruct (send_nacks n y1 g1 s) as [[y2 g2] c2] eqn:F.
    inversion H; subst. eapply calm_trans; [eapply calm_block_status; eauto|eauto].
Qed.

Lemma calm_send_ack : forall y g a s y' g' a' cs, send_ack y g a s = (y', g', a', cs) -> calm y g y' g'.
Proof.
  intros y g a s y' g' a' cs H. unfold send_ack in H. destruct (s <? a).
  - destruct (send_block_status y g s BLOCK_ACK) as [[y1 g1] c1] eqn:E. inversion H; subst. eapply calm_block_status; eauto.
  - destruct (send_nacks (Z.to_nat (s - u32 (a + 1))) y g s) as [[y1 g1] c1] eqn:E.
    destruct (send_block_status y1 g1 s BLOCK_ACK) as [[y2 g2] c2] eqn:F. inversion H; subst.
    eapply calm_trans; [eapply calm_nacks; eauto|eapply calm_block_status; eauto].
Qed.

Lemma calm_flush_part : forall f v y g u y' g' u' r, flush_part f v y g u = Ok (y', g', u', r) -> calm y g y' g'.
Proof.
  induction f; intros v y g u y' g' u' r H; cbn [flush_part] in H; destruct (u_plen u =? 0); try discriminate;
  try (inversion H; subst; apply calm_refl).
  inv_bind H. destruct (file_write v y g (l_off g) a) as [[r0 y1] g1] eqn:W. apply calm_file_write in W.
  destruct ((r0 =? 0) || (r0 =? - EAGAIN)). { inversion H; subst; auto. }
  destruct (r0 <? 0). { inversion H; subst; auto. }
  inv_bind H. eapply calm_trans; eauto.
Qed.

Lemma calm_flush_msgs : forall f v y g u y' g' u' r, flush_msgs f v y g u = Ok (y', g', u', r) -> calm y g y' g'.
Proof.
  induction f; intros v y g u y' g' u' r H; cbn [flush_msgs] in H; destruct (negb _); try discriminate;
  try (inversion H; subst; apply calm_refl).
  inv_bind H. inv_bind H. destruct (u_len u <? _). { inversion H; subst; apply calm_refl. }
  inv_bind H. destruct (file_write v y g (l_off g) a1) as [[r0 y1] g1] eqn:W. apply calm_file_write in W.
  destruct (r0 =? _). { eapply calm_trans; eauto. }
  destruct ((r0 =? 0) || (r0 =? - EAGAIN)). { inversion H; subst; auto. }
  destruct (r0 <? 0). { inversion H; subst; auto. }
  destruct (_ <? _). { inversion H; subst; auto. }
  inv_bind H. inv_bind H. inversion H; subst; auto.
Qed.

Lemma calm_flush : forall f v y g u y' g' u' r, ul_flush f v y g u = Ok (y', g', u', r) -> calm y g y' g'.
Proof.
  intros f v y g u y' g' u' r H. unfold ul_flush in H. inv_bind H. apply calm_flush_part in E.
  destruct o. { inversion H; subst; auto. } eapply calm_trans; eauto. eapply calm_flush_msgs; eauto.
Qed.

Lemma calm_stop_flush : forall n f v y g u y' g' u', stop_flush n f v y g u = Ok (y', g', u') -> calm y g y' g'.
Proof.
  induction n; intros f v y g u y' g' u' H; cbn [stop_flush] in H; destruct (u_plen u =? 0); try discriminate;
  try (inversion H; subst; apply calm_refl).
  inv_bind H. apply calm_flush in E. destruct b. { eapply calm_trans; eauto. } inversion H; subst; auto.
Qed.

Lemma calm_ul_data : forall f v y g u mm b d y' g' u' mm', ul_data f v y g u mm b d = Ok (y', g', u', mm') -> calm y g y' g'.
Proof.
  intros f v y g u mm b d y' g' u' mm' H. unfold ul_data in H. inv_bind H.
  assert (C : calm y g s l).
  { destruct d.
    - inv_bind E. apply calm_flush in E0. inversion E; subst; auto.
    - inversion E; subst. apply calm_refl. }
  inv_bind H. inv_bind H. inv_bind H. destruct (_ && _). { inversion H; subst; auto. }
  destruct (a =? 0). { inversion H; subst; auto. }
  inv_bind H. inv_bind H. inv_bind H. inv_bind H. inversion H; subst. eapply calm_trans; eauto. eapply calm_flush; eauto.
Qed.

Lemma calm_ask_bytes : forall n v y g r y', ask_bytes n v y = (r, y') -> calm y g y' g.
Proof.
  induction n; intros v y g r y' H; cbn [ask_bytes] in H.
  - inversion H; subst. apply calm_refl.
  - destruct (ask v y) as [b y1] eqn:A. destruct (ask_bytes n v y1) as [r1 y2] eqn:B. inversion H; subst.
    eapply calm_trans; [eapply calm_ask; eauto|eauto].
Qed.

(* ---- steps that start and stop logs ------------------------------------------------------------------ *)

(* configuration of a logger: all but the mode, which a failed start switches off *)
Definition keeps (g g' : lg) : Prop :=
  l_ep g' = l_ep g /\ l_ext g' = l_ext g /\ l_minfree g' = l_minfree g /\ l_maxlogs g' = l_maxlogs g /\
  l_target g' = l_target g.
Lemma keeps_refl : forall g, keeps g g.
Proof. unfold keeps; auto 10. Qed.
Lemma keeps_trans : forall a b c, keeps a b -> keeps b c -> keeps a c.
Proof. unfold keeps. intuition; congruence. Qed.
Lemma same_keeps : forall a b, same_cfg a b -> keeps a b.
Proof. unfold keeps, same_cfg. intuition. Qed.

Record step_ok (y : sys) (g : lg) (y' : sys) (g' : lg) : Prop := mkStep {
  so_sys : sys_ok y -> linv y g -> sys_ok y';
  so_inv : sys_ok y -> linv y g -> linv y' g';
  so_own : sys_ok y -> linv y g -> own (l_ep g) y y';
  so_cfg : sys_ok y -> linv y g -> keeps g g' }.

Lemma step_calm : forall y g y' g', calm y g y' g' -> step_ok y g y' g'.
Proof.
  intros. split; intros.
  - eapply calm_sys; eauto.
  - eapply calm_linv; eauto.
  - eapply calm_own; eauto.
  - apply same_keeps. apply H.
Qed.
Lemma step_refl : forall y g, step_ok y g y g.
Proof. intros. apply step_calm, calm_refl. Qed.
Lemma step_trans : forall a g b h c k, step_ok a g b h -> step_ok b h c k -> step_ok a g c k.
Proof.
  intros a g b h c k [A1 A2 A3 A4] [B1 B2 B3 B4]. split; intros S L.
  - apply B1; auto.
  - apply B2; auto.
  - eapply own_trans; [apply A3; auto|]. destruct (A4 S L) as (E & _). rewrite <- E. apply B3; auto.
  - eapply keeps_trans; eauto.
Qed.
Lemma step_mode : forall y g y' g' m, step_ok y g y' g' -> step_ok y g y' (set_mode g' m).
Proof.
  intros y g y' g' m [A1 A2 A3 A4]. split; intros.
  - auto.
  - eapply linv_timers; [reflexivity|apply A2; auto| | | | |]; reflexivity.
  - auto.
  - specialize (A4 H H0). unfold keeps in *. cbn. auto.
Qed.

Lemma step_log_start : forall v y g y' g' ok, log_start v y g = Ok (y', g', ok) -> step_ok y g y' g'.
Proof.
  intros v y g y' g' ok H. split; intros S L; destruct (log_start_spec v y g S L) as (y1 & g1 & ok1 & E & P1 & P2 & P3 & P4 & _);
  rewrite H in E; inversion E; subst; auto. apply same_keeps; auto.
Qed.
Lemma step_log_stop : forall v y g y' g', log_stop v y g = Ok (y', g') -> step_ok y g y' g'.
Proof.
  intros v y g y' g' H. split; intros S L; destruct (log_stop_spec v y g S L) as (y1 & g1 & E & P1 & P2 & P3 & P4 & _);
  rewrite H in E; inversion E; subst; auto. apply same_keeps; auto.
Qed.

Lemma step_bin_start : forall v y g a y' g' a' ok, bin_start v y g a = Ok (y', g', a', ok) -> step_ok y g y' g'.
Proof. intros v y g a y' g' a' ok H. unfold bin_start in H. inv_bind H. inversion H; subst. eapply step_log_start; eauto. Qed.
Lemma step_bin_stop : forall v y g y' g' cs, bin_stop v y g = Ok (y', g', cs) -> step_ok y g y' g'.
Proof.
  intros v y g y' g' cs H. unfold bin_stop in H. destruct (negb _). { inversion H; subst. apply step_refl. }
  destruct (send_block_status y g BLOCK_STOP 1) as [[y1 g1] c] eqn:C. inv_bind H. inversion H; subst.
  eapply step_trans; [apply step_calm; eapply calm_block_status; eauto|eapply step_log_stop; eauto].
Qed.
Lemma step_bin_restart : forall v y g a y' g' a' cs, bin_restart v y g a = Ok (y', g', a', cs) -> step_ok y g y' g'.
Proof.
  intros v y g a y' g' a' cs H. unfold bin_restart in H. inv_bind H. inv_bind H. inversion H; subst.
  eapply step_trans; [eapply step_bin_stop; eauto|eapply step_bin_start; eauto].
Qed.
Lemma step_bin_process : forall v y g a s d y' g' a' cs, bin_process v y g a s d = Ok (y', g', a', cs) -> step_ok y g y' g'.
Proof.
  intros v y g a s d y' g' a' cs H. unfold bin_process in H. destruct (negb _). { eapply step_bin_restart; eauto. }
  destruct (ask v y) as [r y1] eqn:A. assert (C : step_ok y g y1 g) by (apply step_calm; eapply calm_ask; eauto).
  destruct (r <? 0). { eapply step_trans; [exact C|]. eapply step_bin_restart; eauto. }
  destruct (file_write _ _ _ _ _) as [[r2 y2] g2] eqn:W. apply calm_file_write in W. apply step_calm in W.
  assert (C2 : step_ok y g y2 g2) by (eapply step_trans; eauto).
  destruct (_ && _). { eapply step_trans; [exact C2|]. eapply step_bin_restart; eauto. }
  destruct (negb _). { inversion H; subst; auto. }
  destruct (send_ack y2 g2 a s) as [[[y3 g3] a3] c3] eqn:K. inversion H; subst. eapply step_trans; [exact C2|].
  apply step_calm. eapply calm_send_ack; eauto.
Qed.

Lemma step_ul_start : forall v y g u y' g' u' ok, ul_start v y g u = Ok (y', g', u', ok) -> step_ok y g y' g'.
Proof. intros v y g u y' g' u' ok H. unfold ul_start in H. inv_bind H. inversion H; subst. eapply step_log_start; eauto. Qed.
Lemma step_ul_stop : forall f v y g u y' g' u' cs, ul_stop f v y g u = Ok (y', g', u', cs) -> step_ok y g y' g'.
Proof.
  intros f v y g u y' g' u' cs H. unfold ul_stop in H. destruct (negb _). { inversion H; subst. apply step_refl. }
  destruct (send_command y g CMD_LOGGING_STOP) as [[y1 g1] c] eqn:C. inv_bind H. inv_bind H. inversion H; subst.
  eapply step_trans; [apply step_calm; eapply calm_send_ctl; eauto|].
  eapply step_trans; [apply step_calm; eapply calm_stop_flush; eauto|eapply step_log_stop; eauto].
Qed.
Lemma step_ul_restart : forall f v y g u y' g' u' cs, ul_restart f v y g u = Ok (y', g', u', cs) -> step_ok y g y' g'.
Proof.
  intros f v y g u y' g' u' cs H. unfold ul_restart in H. inv_bind H. inv_bind H. inversion H; subst.
  eapply step_trans; [eapply step_ul_stop; eauto|eapply step_ul_start; eauto].
Qed.
Lemma step_ul_process : forall f v y g u mm b y' g' u' mm' cs, ul_process f v y g u mm b = Ok (y', g', u', mm', cs) -> step_ok y g y' g'.
Proof.
  intros f v y g u mm b y' g' u' mm' cs H. unfold ul_process in H. inv_bind H. inv_bind H.
  destruct (logging_seq _ _) as [[u1 d]|]. 2:{ inversion H; subst. apply step_refl. }
  destruct (u_hdr u1).
  - inv_bind H. destruct (_ <? _). { inv_bind H. inversion H; subst. eapply step_ul_restart; eauto. }
    inv_bind H. destruct (negb _). { inv_bind H. inversion H; subst. eapply step_ul_restart; eauto. }
    inv_bind H. inv_bind H. inv_bind H. inv_bind H. inv_bind H. inversion H; subst. apply step_calm. eapply calm_ul_data; eauto.
  - inv_bind H. inversion H; subst. apply step_calm. eapply calm_ul_data; eauto.
Qed.

(* the logging-start timer is replaced by the alive timer *)
Lemma step_started : forall v y g y1 g1 y2 g2, remove_start_timeout y g = Ok (y1, g1) -> start_alive v y1 g1 = (y2, g2) ->
  step_ok y g y2 g2 /\ l_open g2 = l_open g /\ l_name g2 = l_name g /\ l_off g2 = l_off g /\ l_tstart g2 = None /\
  y_fs y2 = y_fs y /\ l_mode g2 = l_mode g /\ same_counts g g2.
Proof.
  intros v y g y1 g1 y2 g2 R A. unfold remove_start_timeout in R. destruct (l_tstart g) as [id|] eqn:TS; [|discriminate].
  inv_bind R. inversion R; subst; clear R.
  unfold start_alive in A. cbn [l_ep l_tstart l_tfsync set_timeouts] in A.
  destruct (add_timer v y1 5000 (CbAlive (l_ep g))) as [t y3] eqn:AT.
  pose proof (f_equal fst A) as A1. pose proof (f_equal snd A) as A2. cbn [fst snd] in A1, A2. subst y3. subst g2. clear A.
  split.
  2:{ cbn. repeat split; auto. unfold del_timer in E. destruct (has_timer y id); [|discriminate]. inversion E; subst.
      unfold add_timer in AT. destruct (negb _); inversion AT; reflexivity. }
  assert (X : sys_ok y -> linv y g ->
    sys_ok y2 /\ linv y2 (set_timeouts (set_timeouts g None (l_tfsync g) (l_talive g)) None (l_tfsync g) t) /\ own (l_ep g) y y2).
  { intros S [C0 D0 E0 F0 G0 H0]. rewrite TS in *.
    assert (TA : l_talive g = None) by (apply D0; congruence).
    assert (OP : l_open g = true).
    { destruct (l_open g); auto. destruct (C0 eq_refl). discriminate. }
    destruct (del_timer_spec y id _ S E0) as (z & E' & K' & T & N & F & SQ & PO & U). rewrite E in E'. inversion E'; subst z; clear E'.
    destruct (add_timer_spec _ _ _ _ _ _ AT K') as (K2 & F2 & Q2 & P2 & R2).
    assert (O2 : own (l_ep g) y1 y2) by (eapply add_timer_own; eauto; reflexivity).
    assert (O1 : own (l_ep g) y y1).
    { unfold own. rewrite T, N, PO. split; auto. apply mark_dead_others. intros q I Eq. unfold mine. rewrite (U q I Eq). cbn. apply Nat.eqb_refl. }
    split; auto. split; [|eapply own_trans; eauto].
    assert (LF : forall id', l_tfsync g = Some id' -> live y1 id' (CbFsync (l_ep g))).
    { intros id' TF. rewrite TF in F0. eapply live_mark; eauto. intros ->.
      assert (NE : CbLogStart (l_ep g) <> CbFsync (l_ep g)) by discriminate. exact (live_ids_distinct y id id _ _ S E0 F0 NE eq_refl). }
    split; cbn [l_ep l_open l_tstart l_tfsync l_talive set_timeouts ptr_ok]; try rewrite OP; try congruence; auto.
    - destruct (l_tfsync g) as [idf|]; cbn; auto. destruct (LF idf eq_refl) as (q & I & Q). exists q. split; auto.
      destruct t as [t|]. { destruct R2 as (_ & R2 & _). rewrite R2. right; auto. } { destruct R2 as [R2 _]. rewrite R2; auto. }
    - destruct t as [t|]; cbn; auto. destruct R2 as (-> & R2 & _). eexists. rewrite R2. split; [left; reflexivity|]. auto.
    - intros q I D. assert (OLD : In q (y_timers y1) -> (tm_cb q = CbLogStart (l_ep g) -> None = Some (tm_id q)) /\
         (tm_cb q = CbFsync (l_ep g) -> l_tfsync g = Some (tm_id q)) /\ (tm_cb q = CbAlive (l_ep g) -> False)).
      { intros I1. rewrite T in I1. apply mark_dead_in in I1; auto. destruct I1 as [I1 NE].
        destruct (H0 q I1 D) as (W1 & W2 & W3). rewrite TA in W3. repeat split; auto.
        - intros Q. apply W1 in Q. congruence.
        - intros Q. apply W3 in Q. discriminate. }
      destruct t as [t|].
      + destruct R2 as (-> & R2 & _). rewrite R2 in I. destruct I as [<-|I].
        * cbn. repeat split; congruence.
        * destruct (OLD I) as (W1 & W2 & W3). repeat split; auto. intros Q. destruct (W3 Q).
      + destruct R2 as [R2 _]. rewrite R2 in I. destruct (OLD I) as (W1 & W2 & W3). repeat split; auto. intros Q. destruct (W3 Q). }
  split; intros S L; try apply X; auto. unfold keeps; cbn; auto 10.
Qed.

(* ---- the virtual functions --------------------------------------------------------------------------- *)

Lemma step_lstart : forall v y g b y' g' b' ok, lstart v y g b = Ok (y', g', b', ok) -> step_ok y g y' g'.
Proof.
  intros v y g b y' g' b' ok H. destruct b; cbn [lstart] in H; inv_bind H; inversion H; subst.
  - eapply step_bin_start; eauto.
  - eapply step_ul_start; eauto.
  - eapply step_log_start; eauto.
Qed.
Lemma step_lstop : forall f v y g b y' g' b' cs, lstop f v y g b = Ok (y', g', b', cs) -> step_ok y g y' g'.
Proof.
  intros f v y g b y' g' b' ok H. destruct b; cbn [lstop] in H.
  - inv_bind H; inversion H; subst. eapply step_bin_stop; eauto.
  - inv_bind H; inversion H; subst. eapply step_ul_stop; eauto.
  - destruct (negb _). { inversion H; subst. apply step_refl. } inv_bind H; inversion H; subst. eapply step_log_stop; eauto.
Qed.
Lemma step_auto : forall f v y g b mem m y' g' b' cs, auto_start_stop f v y g b mem m = Ok (y', g', b', cs) -> step_ok y g y' g'.
Proof.
  intros f v y g b mem m y' g' b' cs H. unfold auto_start_stop in H.
  destruct (l_target g =? -1). { inversion H; subst. apply step_refl. }
  destruct (l_mode g).
  - destruct (l_open g). { inversion H; subst. apply step_refl. }
    inv_bind H. inversion H; subst. apply step_lstart in E. destruct b0; auto. apply step_mode; auto.
  - destruct (_ && _). 2:{ inversion H; subst. apply step_refl. }
    inv_bind H. destruct (_ && _).
    + inv_bind H. inversion H; subst. apply step_lstart in E0. destruct b0; auto. apply step_mode; auto.
    + destruct (_ && _). { eapply step_lstop; eauto. } inversion H; subst. apply step_refl.
  - inversion H; subst. apply step_refl.
Qed.

Lemma step_bin_write : forall v y g a mem m y' g' a' cs, bin_write v y g a mem m = Ok (y', g', a', cs) -> step_ok y g y' g'.
Proof.
  intros v y g a mem m y' g' a' cs H. unfold bin_write in H. destruct (negb _). { inversion H; subst. apply step_refl. }
  destruct (v_tbl v (m_id m)) as [e|]. 2:{ inversion H; subst. apply step_refl. }
  inv_bind H. inv_bind H. inv_bind H. inv_bind H.
  match goal with E : match l_tstart g with _ => _ end = Ok (?s, ?l, _, _) |- _ => assert (C : step_ok y g s l); [|clear E] end.
  { destruct (l_tstart g) as [ts|] eqn:TS.
    - destruct (a0 =? 0).
      + inv_bind E2. destruct (start_alive v s0 l2) as [y2 g2] eqn:A. inversion E2; subst. eapply step_started; eauto.
      + destruct (send_block_status y g BLOCK_STOP 1) as [[y2 g2] c] eqn:S. inversion E2; subst. apply step_calm. eapply calm_block_status; eauto.
    - inversion E2; subst. apply step_refl. }
  destruct b.
  - inv_bind H. inv_bind H. inversion H; subst. eapply step_trans; [exact C|]. eapply step_trans; [eapply step_bin_process; eauto|].
    apply step_calm. apply calm_count_write.
  - inversion H; subst; auto.
Qed.

Lemma step_ul_write : forall f v y g u mem m y' g' u' mem' cs, ul_write f v y g u mem m = Ok (y', g', u', mem', cs) -> step_ok y g y' g'.
Proof.
  intros f v y g u mem m y' g' u' mem' cs H. unfold ul_write in H. destruct (negb _). { inversion H; subst. apply step_refl. }
  destruct (v_tbl v (m_id m)) as [e|]. 2:{ inversion H; subst. apply step_refl. }
  inv_bind H. destruct (m_id m =? 77).
  - inv_bind H. destruct (ask_bytes (3 - length a) v y) as [junk y1] eqn:J. apply (calm_ask_bytes _ _ _ g) in J. apply step_calm in J.
    inv_bind H. inv_bind H. inv_bind H. destruct (l_tstart g) eqn:TS. 2:{ inversion H; subst; auto. }
    destruct (_ =? _). 2:{ inversion H; subst; auto. }
    destruct (_ =? _).
    + inv_bind H. destruct (start_alive v s l) as [y2 g2] eqn:A. inversion H; subst. eapply step_trans; [exact J|].
      eapply step_trans; [eapply step_started; eauto|]. apply step_calm, calm_count_write.
    + inversion H; subst. eapply step_trans; [exact J|]. apply step_calm, calm_count_write.
  - inv_bind H. assert (C : step_ok y g s l0).
    { destruct (m_id m =? 267).
      - inv_bind E0. inv_bind E0. destruct (send_ctl _ _ _ _ _) as [[y2 g2] c] eqn:S. inversion E0; subst. apply step_calm. eapply calm_send_ctl; eauto.
      - inversion E0; subst. apply step_refl. }
    destruct (_ =? 0).
    + inv_bind H. inversion H; subst. eapply step_trans; [exact C|]. eapply step_trans; [eapply step_ul_process; eauto|].
      apply step_calm, calm_count_write.
    + inv_bind H. inv_bind H. inversion H; subst. eapply step_trans; [exact C|]. eapply step_trans; [eapply step_ul_process; eauto|].
      apply step_calm, calm_count_write.
Qed.

Lemma calm_tele_write : forall v y g mem m y' g', tele_write v y g mem m = Ok (y', g') -> calm y g y' g'.
Proof.
  intros v y g mem m y' g' H. unfold tele_write in H. destruct (ask v y) as [now y1] eqn:A. apply (calm_ask _ _ g) in A.
  inv_bind H. destruct (file_write v y1 g (l_off g) (be64 (u64 now))) as [[r2 y2] g2] eqn:W.
  destruct (file_write v y2 g2 (l_off g2) a) as [[r3 y3] g3] eqn:W2. inversion H; subst.
  apply calm_file_write in W. apply calm_file_write in W2. eapply calm_trans; [exact A|]. eapply calm_trans; eauto.
Qed.

(* what the first heartbeat does to the target *)
Lemma learn_inv : forall y g m, linv y g -> linv y (learn_target g m).
Proof.
  intros y g m L. unfold learn_target. destruct (_ && _); auto. eapply linv_timers; eauto; reflexivity.
Qed.
Lemma learn_ep : forall g m, l_ep (learn_target g m) = l_ep g /\ l_ext (learn_target g m) = l_ext g /\
  l_open (learn_target g m) = l_open g /\ l_mode (learn_target g m) = l_mode g /\ l_name (learn_target g m) = l_name g.
Proof. intros. unfold learn_target. destruct (_ && _); cbn; auto. Qed.

Lemma lwrite_step : forall f v y g b mem m y' g' b' mem' cs, lwrite f v y g b mem m = Ok (y', g', b', mem', cs) ->
  step_ok y (learn_target g m) y' g'.
Proof.
  intros f v y g b mem m y' g' b' mem' cs H. unfold lwrite in H. inv_bind H. apply step_auto in E.
  destruct b0; inv_bind H; inversion H; subst; (eapply step_trans; [exact E|]).
  - eapply step_bin_write; eauto.
  - eapply step_ul_write; eauto.
  - apply step_calm. eapply calm_tele_write; eauto.
Qed.

Lemma step_cb_start : forall y g b y' g' cs, lcb_start y g b = (y', g', cs) -> step_ok y g y' g'.
Proof.
  intros y g b y' g' cs H. destruct b; cbn [lcb_start] in H.
  - destruct (send_block_status y g BLOCK_START 1) as [[y2 g2] c] eqn:S. inversion H; subst. apply step_calm. eapply calm_block_status; eauto.
  - destruct (send_command y g CMD_LOGGING_START) as [[y2 g2] c] eqn:S. inversion H; subst. apply step_calm. eapply calm_send_ctl; eauto.
  - inversion H; subst. apply step_refl.
Qed.
Lemma step_cb_alive : forall f v y g b y' g' b' cs, lcb_alive f v y g b = Ok (y', g', b', cs) -> step_ok y g y' g'.
Proof.
  intros f v y g b y' g' b' cs H. unfold lcb_alive in H. inv_bind H. inversion H; subst; clear H.
  eapply step_trans; [|apply step_calm, calm_counts]. destruct (_ =? _).
  - inv_bind E. inv_bind E. inversion E; subst. eapply step_trans; [eapply step_lstop; eauto|eapply step_lstart; eauto].
  - inversion E; subst. apply step_refl.
Qed.
