(* What one logger can do to the files of another: nothing, as long as they are being written and their names differ. *)
From Verif Require Import Base Mav SpecFrame Frame Names NamesProofs Sys LogFile LogFileProofs ULog Loggers LogInv LogStep LogRun Router.

(* the files called [n] are writable and contain [d]; there is one *)
Definition kept_file (y : sys) (n d : list Z) : Prop :=
  exists l, y_fs y = Some l /\ (exists e, In e l /\ d_name e = n) /\ (forall e, In e l -> d_name e = n -> d_data e = d /\ d_w e = true).

Section Names.
Variable P : list Z -> Prop.

(* the entries called [n] of a directory are [es] *)
Definition named (n : list Z) (l : list dirent) : list dirent := filter (fun e => beqs (d_name e) n) l.
Definition entries_are (y : sys) (n : list Z) (es : list dirent) : Prop := exists l, y_fs y = Some l /\ named n l = es.
(* files whose name satisfies [P] and that are being written keep their content; those not called like a log are not changed at all *)
Definition spared (y y' : sys) : Prop := (forall n d, P n -> kept_file y n d -> kept_file y' n d) /\
  (forall n es, P n -> scan_log n = None -> entries_are y n es -> entries_are y' n es).

Lemma spared_refl : forall y, spared y y.
Proof. intros y. split; auto. Qed.
Lemma spared_trans : forall a b c, spared a b -> spared b c -> spared a c.
Proof. intros a b c [H H2] [K K2]. split; auto. Qed.
Lemma spared_fs : forall y y', y_fs y' = y_fs y -> spared y y'.
Proof. intros y y' E. split; [intros n d _ (l & F & X)|intros n es _ _ (l & F & X)]; exists l; (split; [congruence|auto]). Qed.
Lemma spared_none : forall y y', y_fs y = None -> spared y y'.
Proof. intros y y' E. split; [intros n d _ (l & F & X)|intros n es _ _ (l & F & X)]; congruence. Qed.
Lemma spared_touch : forall name y y', ~ P name -> touch name (y_fs y) (y_fs y') -> spared y y'.
Proof.
  intros name y y' NP T. split.
  2:{ intros n es Pn _ (l & F & X). rewrite F in T. unfold touch in T. destruct (y_fs y') as [l'|] eqn:F'; [|destruct T]. exists l'. split; auto. subst es. assert (NE : n <> name) by (intros ->; auto). clear F F'.
    induction T as [|a a' l l' (T1 & T2 & T3 & T4) T IH]; auto. unfold named in *. cbn [filter]. rewrite IH, T1. destruct (beqs (d_name a) n) eqn:B; auto. apply beqs_eq in B. rewrite T4 by congruence. reflexivity. }
  intros n d Pn (l & F & (e & I & E) & A). rewrite F in T. unfold touch in T. destruct (y_fs y') as [l'|] eqn:F'; [|destruct T]. exists l'. split; auto.
  assert (NE : n <> name) by (intros ->; auto). clear F F'. split.
  - clear A. revert I. induction T as [|a a' l l' (T1 & T2 & T3 & T4) T IH]; intros I; [destruct I|]. destruct I as [->|I]. { exists a'. split; [left; auto|]. congruence. } destruct (IH I) as (q & Iq & Eq). exists q. split; auto. right; auto.
  - clear I E. induction T as [|a a' l l' (T1 & T2 & T3 & T4) T IH]; intros q Iq Eq; [destruct Iq|]. destruct Iq as [<-|Iq].
    + rewrite T4 by congruence. apply A; [left; auto|congruence].
    + apply IH; auto. intros z Iz. apply A. right; auto.
Qed.
Lemma spared_without : forall y y' ns l, y_fs y = Some l -> y_fs y' = Some (without ns l) -> (forall n, In n ns -> exists e, In e l /\ d_w e = false /\ d_name e = n /\ scan_log n <> None) -> spared y y'.
Proof.
  intros y y' ns l F F' N. split.
  2:{ intros n es Pn SN (l0 & F0 & X). rewrite F in F0. inversion F0; subst l0. exists (without ns l). split; auto. subst es. unfold named, without.
    assert (NI : existsb (beqs n) ns = false). { destruct (existsb (beqs n) ns) eqn:X; auto. apply existsb_exists in X. destruct X as (q & Iq & Bq). apply beqs_eq in Bq. subst q. destruct (N n Iq) as (z & _ & _ & _ & Q). congruence. }
    clear - NI. induction l as [|a l IH]; auto. cbn [filter]. destruct (beqs (d_name a) n) eqn:B.
    - apply beqs_eq in B. rewrite B, NI. cbn [negb filter]. rewrite (proj2 (beqs_eq _ _) B). f_equal. exact IH.
    - destruct (negb _); auto. cbn [filter]. rewrite B. exact IH. }
  intros n d Pn (l0 & F0 & (e & I & E) & A). rewrite F in F0. inversion F0; subst l0. exists (without ns l). split; auto.
  assert (NI : existsb (beqs n) ns = false).
  { destruct (existsb (beqs n) ns) eqn:X; auto. apply existsb_exists in X. destruct X as (q & Iq & Bq). apply beqs_eq in Bq. subst q. destruct (N n Iq) as (z & Iz & Wz & Ez & _). destruct (A z Iz Ez). congruence. }
  split.
  - exists e. split; auto. apply filter_In. split; auto. rewrite E, NI. auto.
  - intros z Iz. apply filter_In in Iz. apply A. apply Iz.
Qed.
Lemma spared_add : forall y y' e, y_fs y' = Some (entries (y_fs y) ++ [e]) -> ~ P (d_name e) -> spared y y'.
Proof.
  intros y y' e F NP. split.
  2:{ intros n es Pn _ (l & F0 & X). rewrite F0 in F. cbn [entries] in F. exists (l ++ [e]). split; auto. subst es. unfold named. rewrite filter_app. cbn [filter].
    destruct (beqs (d_name e) n) eqn:B; [|apply app_nil_r]. apply beqs_eq in B. exfalso. apply NP. rewrite B. auto. }
  intros n d Pn (l & F0 & (z & I & E) & A). rewrite F0 in F. cbn [entries] in F. exists (l ++ [e]). split; auto. split.
  - exists z. split; auto. apply in_or_app. auto.
  - intros q Iq Eq. apply in_app_or in Iq. destruct Iq as [Iq|[<-|[]]]; [apply A; auto|]. exfalso. apply NP. rewrite Eq. auto.
Qed.

(* a logger none of whose files is called that way *)
Definition foreign_ext (ext : list Z) : Prop := (forall k t, ~ P (log_name k t ext)) /\ ~ P [].
Definition foreign_g (g : lg) : Prop := foreign_ext (l_ext g) /\ ~ P (l_name g).
Definition foreign (l : logger) : Prop :=
  match l with
  | LFile g _ => foreign_g g
  | LAuto a => foreign_ext ext_bin /\ foreign_ext ext_ulg /\ match a_inner a with Some (g, _) => foreign_g g | None => True end
  end.

Definition spare (y : sys) (g : lg) (y' : sys) (g' : lg) : Prop := foreign_g g -> foreign_g g' /\ spared y y'.

Lemma spare_refl : forall y g, spare y g y g.
Proof. intros y g F. split; auto. apply spared_refl. Qed.
Lemma spare_trans : forall a g b h c k, spare a g b h -> spare b h c k -> spare a g c k.
Proof. intros a g b h c k H K F. destruct (H F) as [F1 S1]. destruct (K F1) as [F2 S2]. split; auto. eapply spared_trans; eauto. Qed.
Lemma spare_calm : forall y g y' g', calm y g y' g' -> spare y g y' g'.
Proof.
  intros y g y' g' [] [F1 F2]. split. { split; [destruct ca_cfg as (_ & E & _)|]; congruence. } eapply spared_touch; eauto.
Qed.
Lemma spare_mode : forall y g y' g' m, spare y g y' g' -> spare y g y' (set_mode g' m).
Proof. intros y g y' g' m H F. apply H in F. exact F. Qed.

Lemma fs_add : forall v y ms cb r y', add_timer v y ms cb = (r, y') -> y_fs y' = y_fs y.
Proof. intros v y ms cb r y' H. unfold add_timer in H. destruct (negb _); inversion H; subst; auto. Qed.
Lemma fs_del_t : forall y id y', del_timer y id = Ok y' -> y_fs y' = y_fs y.
Proof. intros y id y' H. unfold del_timer in H. destruct (has_timer y id); inversion H; subst; auto. Qed.
Lemma fs_drop : forall y p y', drop_timer y p = Ok y' -> y_fs y' = y_fs y.
Proof. intros y [id|] y' H; cbn [drop_timer] in H; [eapply fs_del_t; eauto|inversion H; auto]. Qed.

Lemma spare_log_start : forall v y g y' g' ok, log_start v y g = Ok (y', g', ok) -> spare y g y' g'.
Proof.
  intros v y g y' g' ok H F. unfold log_start in H. destruct (l_open g). { inversion H; subst. apply spare_refl; auto. }
  destruct (delete_old_safe v y g) as (_ & ns & D & FA). set (y1 := delete_old_logs v y g) in *.
  assert (S1 : spared y y1).
  { rewrite Forall_forall in FA. destruct (y_fs y) as [l|] eqn:FS.
    - eapply spared_without; eauto. intros n I. destruct (FA n I) as (e & Ie & (C0 & C) & E). exists e. cbn [entries] in Ie. rewrite <- E. tauto.
    - apply spared_none. auto. }
  clearbody y1. destruct (get_file v y1 g) as [r y2] eqn:GF. destruct (get_file_spec _ _ _ _ _ GF) as (_ & R).
  destruct r as [name|].
  2:{ inversion H; subst. split; auto. eapply spared_trans; [exact S1|]. destruct R as [R|[R1 R2]]; [apply spared_fs; auto|]. apply spared_none. auto. }
  destruct R as (k & t & _ & _ & N & _ & _ & FS). cbv zeta in *. destruct F as [[F0 F1] F2].
  assert (NP : ~ P name) by (rewrite N; apply F0).
  assert (S2 : spared y y2) by (eapply spared_trans; [exact S1|eapply spared_add; eauto]).
  assert (FG : forall g2, l_ext g2 = l_ext g -> l_name g2 = name -> foreign_g g2). { intros g2 E1 E2. split; [split; auto; rewrite E1; auto|congruence]. }
  assert (Z : forall yy, y_fs yy = y_fs y2 -> spared y yy) by (intros yy E; eapply spared_trans; [exact S2|apply spared_fs; auto]).
  destruct (add_timer v y2 1000 _) as [ts y3] eqn:A1. apply fs_add in A1. destruct ts as [ts|].
  2:{ inversion H; subst y' g' ok. split; [apply FG; reflexivity|apply Z; auto]. }
  destruct (add_timer v y3 1000 _) as [tf y4] eqn:A2. apply fs_add in A2. destruct tf as [tf|].
  2:{ destruct (del_timer y4 ts) as [y5| |] eqn:D5; cbn [bind] in H; inversion H; subst y' g' ok. apply fs_del_t in D5. split; [apply FG; reflexivity|apply Z; congruence]. }
  inversion H; subst y' g' ok. split; [apply FG; reflexivity|apply Z; congruence].
Qed.
Lemma spare_log_stop : forall v y g y' g', log_stop v y g = Ok (y', g') -> spare y g y' g'.
Proof.
  intros v y g y' g' H F. unfold log_stop in H. inv_bind H. inv_bind H. inv_bind H. apply fs_drop in E, E0, E1. unfold ask in H.
  match type of H with Ok (?q, _) = _ => set (yy := q) in * end. inversion H; subst y' g'. split; [exact F|]. subst yy. destruct F as [_ F].
  eapply spared_trans with (b := a1). { apply spared_fs. congruence. } destruct (0 <=? _); [|apply spared_fs; reflexivity]. cbn [y_fs set_pos].
  destruct (y_fs a1) as [l|] eqn:FS; [|apply spared_fs; cbn; congruence]. split.
  2:{ intros n es Pn _ (l0 & F0 & X). rewrite FS in F0. inversion F0; subst l0. exists (fs_upd l (l_name g) d_readonly). split; [reflexivity|]. subst es. assert (NE : n <> l_name g) by (intros ->; auto). clear - NE. unfold named, fs_upd.
    induction l as [|a l IH]; auto. cbn [map filter]. rewrite IH. destruct (beqs (d_name a) (l_name g)) eqn:B; auto. apply beqs_eq in B. assert (Q : beqs (d_name a) n = false) by (apply beqs_neq; congruence).
    rewrite Q. change (d_name (d_readonly a)) with (d_name a). rewrite Q. reflexivity. }
  intros n d Pn (l0 & F0 & (e & I & E2) & A). rewrite FS in F0. inversion F0; subst l0.
  exists (fs_upd l (l_name g) d_readonly). split; [reflexivity|]. unfold fs_upd. assert (NE : n <> l_name g) by (intros ->; auto). split.
  - exists e. split; auto. apply in_map_iff. exists e. split; auto. destruct (beqs (d_name e) (l_name g)) eqn:B; auto. apply beqs_eq in B. congruence.
  - intros q Iq Eq. apply in_map_iff in Iq. destruct Iq as (z & Ez & Iz). destruct (beqs (d_name z) (l_name g)) eqn:B.
    + exfalso. apply beqs_eq in B. subst q. destruct z; cbn in *. congruence.
    + subst q. apply A; auto.
Qed.

Lemma spare_bin_start : forall v y g a y' g' a' ok, bin_start v y g a = Ok (y', g', a', ok) -> spare y g y' g'.
Proof. intros v y g a y' g' a' ok H. unfold bin_start in H. inv_bind H. inversion H; subst. eapply spare_log_start; eauto. Qed.
Lemma spare_bin_stop : forall v y g y' g' cs, bin_stop v y g = Ok (y', g', cs) -> spare y g y' g'.
Proof.
  intros v y g y' g' cs H. unfold bin_stop in H. destruct (negb _). { inversion H; subst. apply spare_refl. }
  destruct (send_block_status y g BLOCK_STOP 1) as [[y1 g1] c] eqn:C. inv_bind H. inversion H; subst.
  eapply spare_trans; [apply spare_calm; eapply calm_block_status; eauto|eapply spare_log_stop; eauto].
Qed.
Lemma spare_bin_restart : forall v y g a y' g' a' cs, bin_restart v y g a = Ok (y', g', a', cs) -> spare y g y' g'.
Proof.
  intros v y g a y' g' a' cs H. unfold bin_restart in H. inv_bind H. inv_bind H. inversion H; subst.
  eapply spare_trans; [eapply spare_bin_stop; eauto|eapply spare_bin_start; eauto].
Qed.
Lemma spare_bin_process : forall v y g a s d y' g' a' cs, bin_process v y g a s d = Ok (y', g', a', cs) -> spare y g y' g'.
Proof.
  intros v y g a s d y' g' a' cs H. unfold bin_process in H. destruct (negb _). { eapply spare_bin_restart; eauto. }
  destruct (ask v y) as [r y1] eqn:A. assert (C : spare y g y1 g) by (apply spare_calm; eapply calm_ask; eauto).
  destruct (r <? 0). { eapply spare_trans; [exact C|]. eapply spare_bin_restart; eauto. }
  destruct (file_write _ _ _ _ _) as [[r2 y2] g2] eqn:W. apply calm_file_write in W. apply spare_calm in W.
  assert (C2 : spare y g y2 g2) by (eapply spare_trans; eauto).
  destruct (_ && _). { eapply spare_trans; [exact C2|]. eapply spare_bin_restart; eauto. }
  destruct (negb _). { inversion H; subst; auto. }
  destruct (send_ack y2 g2 a s) as [[[y3 g3] a3] c3] eqn:K. inversion H; subst. eapply spare_trans; [exact C2|].
  apply spare_calm. eapply calm_send_ack; eauto.
Qed.

Lemma spare_ul_start : forall v y g u y' g' u' ok, ul_start v y g u = Ok (y', g', u', ok) -> spare y g y' g'.
Proof. intros v y g u y' g' u' ok H. unfold ul_start in H. inv_bind H. inversion H; subst. eapply spare_log_start; eauto. Qed.
Lemma spare_ul_stop : forall f v y g u y' g' u' cs, ul_stop f v y g u = Ok (y', g', u', cs) -> spare y g y' g'.
Proof.
  intros f v y g u y' g' u' cs H. unfold ul_stop in H. destruct (negb _). { inversion H; subst. apply spare_refl. }
  destruct (send_command y g CMD_LOGGING_STOP) as [[y1 g1] c] eqn:C. inv_bind H. inv_bind H. inversion H; subst.
  eapply spare_trans; [apply spare_calm; eapply calm_send_ctl; eauto|].
  eapply spare_trans; [apply spare_calm; eapply calm_stop_flush; eauto|eapply spare_log_stop; eauto].
Qed.
Lemma spare_ul_restart : forall f v y g u y' g' u' cs, ul_restart f v y g u = Ok (y', g', u', cs) -> spare y g y' g'.
Proof.
  intros f v y g u y' g' u' cs H. unfold ul_restart in H. inv_bind H. inv_bind H. inversion H; subst.
  eapply spare_trans; [eapply spare_ul_stop; eauto|eapply spare_ul_start; eauto].
Qed.
Lemma spare_ul_process : forall f v y g u mm b y' g' u' mm' cs, ul_process f v y g u mm b = Ok (y', g', u', mm', cs) -> spare y g y' g'.
Proof.
  intros f v y g u mm b y' g' u' mm' cs H. unfold ul_process in H. inv_bind H. inv_bind H.
  destruct (logging_seq _ _) as [[u1 d]|]. 2:{ inversion H; subst. apply spare_refl. }
  destruct (u_hdr u1).
  - inv_bind H. destruct (_ <? _). { inv_bind H. inversion H; subst. eapply spare_ul_restart; eauto. }
    inv_bind H. destruct (negb _). { inv_bind H. inversion H; subst. eapply spare_ul_restart; eauto. }
    inv_bind H. inv_bind H. inv_bind H. inv_bind H. inv_bind H. inversion H; subst. apply spare_calm. eapply calm_ul_data; eauto.
  - inv_bind H. inversion H; subst. apply spare_calm. eapply calm_ul_data; eauto.
Qed.

Lemma spare_started : forall v y g y1 g1 y2 g2, remove_start_timeout y g = Ok (y1, g1) -> start_alive v y1 g1 = (y2, g2) -> spare y g y2 g2.
Proof.
  intros v y g y1 g1 y2 g2 R A [F1 F2]. destruct (step_started _ _ _ _ _ _ _ R A) as (_ & _ & N & _ & _ & FS & _). split; [|apply spared_fs; auto].
  split; [|congruence]. unfold remove_start_timeout in R. destruct (l_tstart g); [|discriminate]. inv_bind R. inversion R; subst. unfold start_alive in A. destruct (add_timer _ _ _ _). inversion A; subst. exact F1.
Qed.

Lemma spare_lstart : forall v y g b y' g' b' ok, lstart v y g b = Ok (y', g', b', ok) -> spare y g y' g'.
Proof.
  intros v y g b y' g' b' ok H. destruct b; cbn [lstart] in H; inv_bind H; inversion H; subst.
  - eapply spare_bin_start; eauto.
  - eapply spare_ul_start; eauto.
  - eapply spare_log_start; eauto.
Qed.
Lemma spare_lstop : forall f v y g b y' g' b' cs, lstop f v y g b = Ok (y', g', b', cs) -> spare y g y' g'.
Proof.
  intros f v y g b y' g' b' ok H. destruct b; cbn [lstop] in H.
  - inv_bind H; inversion H; subst. eapply spare_bin_stop; eauto.
  - inv_bind H; inversion H; subst. eapply spare_ul_stop; eauto.
  - destruct (negb _). { inversion H; subst. apply spare_refl. } inv_bind H; inversion H; subst. eapply spare_log_stop; eauto.
Qed.
Lemma spare_auto : forall f v y g b mem m y' g' b' cs, auto_start_stop f v y g b mem m = Ok (y', g', b', cs) -> spare y g y' g'.
Proof.
  intros f v y g b mem m y' g' b' cs H. unfold auto_start_stop in H.
  destruct (l_target g =? -1). { inversion H; subst. apply spare_refl. }
  destruct (l_mode g).
  - destruct (l_open g). { inversion H; subst. apply spare_refl. }
    inv_bind H. inversion H; subst. apply spare_lstart in E. destruct b0; auto; apply spare_mode; auto.
  - destruct (_ && _). 2:{ inversion H; subst. apply spare_refl. }
    inv_bind H. destruct (_ && _).
    + inv_bind H. inversion H; subst. apply spare_lstart in E0. destruct b0; auto; apply spare_mode; auto.
    + destruct (_ && _). { eapply spare_lstop; eauto. } inversion H; subst. apply spare_refl.
  - inversion H; subst. apply spare_refl.
Qed.

Lemma spare_bin_write : forall v y g a mem m y' g' a' cs, bin_write v y g a mem m = Ok (y', g', a', cs) -> spare y g y' g'.
Proof.
  intros v y g a mem m y' g' a' cs H. unfold bin_write in H. destruct (negb _). { inversion H; subst. apply spare_refl. }
  destruct (v_tbl v (m_id m)) as [e|]. 2:{ inversion H; subst. apply spare_refl. }
  inv_bind H. inv_bind H. inv_bind H. inv_bind H.
  match goal with E : match l_tstart g with _ => _ end = Ok (?s, ?l, _, _) |- _ => assert (C : spare y g s l); [|clear E] end.
  { destruct (l_tstart g) as [ts|] eqn:TS.
    - destruct (a0 =? 0).
      + inv_bind E2. destruct (start_alive v s0 l2) as [y2 g2] eqn:A. inversion E2; subst. eapply spare_started; eauto.
      + destruct (send_block_status y g BLOCK_STOP 1) as [[y2 g2] c] eqn:S. inversion E2; subst. apply spare_calm. eapply calm_block_status; eauto.
    - inversion E2; subst. apply spare_refl. }
  destruct b.
  - inv_bind H. inv_bind H. inversion H; subst. eapply spare_trans; [exact C|]. eapply spare_trans; [eapply spare_bin_process; eauto|].
    apply spare_calm. apply calm_count_write.
  - inversion H; subst; auto.
Qed.

Lemma spare_ul_write : forall f v y g u mem m y' g' u' mem' cs, ul_write f v y g u mem m = Ok (y', g', u', mem', cs) -> spare y g y' g'.
Proof.
  intros f v y g u mem m y' g' u' mem' cs H. unfold ul_write in H. destruct (negb _). { inversion H; subst. apply spare_refl. }
  destruct (v_tbl v (m_id m)) as [e|]. 2:{ inversion H; subst. apply spare_refl. }
  inv_bind H. destruct (m_id m =? 77).
  - inv_bind H. destruct (ask_bytes (3 - length a) v y) as [junk y1] eqn:J. apply (calm_ask_bytes _ _ _ g) in J. apply spare_calm in J.
    inv_bind H. inv_bind H. inv_bind H. destruct (l_tstart g) eqn:TS. 2:{ inversion H; subst; auto. }
    destruct (_ =? _). 2:{ inversion H; subst; auto. }
    destruct (_ =? _).
    + inv_bind H. destruct (start_alive v s l) as [y2 g2] eqn:A. inversion H; subst. eapply spare_trans; [exact J|].
      eapply spare_trans; [eapply spare_started; eauto|]. apply spare_calm, calm_count_write.
    + inversion H; subst. eapply spare_trans; [exact J|]. apply spare_calm, calm_count_write.
  - inv_bind H. assert (C : spare y g s l0).
    { destruct (m_id m =? 267).
      - inv_bind E0. inv_bind E0. destruct (send_ctl _ _ _ _ _) as [[y2 g2] c] eqn:S. inversion E0; subst. apply spare_calm. eapply calm_send_ctl; eauto.
      - inversion E0; subst. apply spare_refl. }
    destruct (_ =? 0).
    + inv_bind H. inversion H; subst. eapply spare_trans; [exact C|]. eapply spare_trans; [eapply spare_ul_process; eauto|].
      apply spare_calm, calm_count_write.
    + inv_bind H. inv_bind H. inversion H; subst. eapply spare_trans; [exact C|]. eapply spare_trans; [eapply spare_ul_process; eauto|].
      apply spare_calm, calm_count_write.
Qed.

Lemma spare_lwrite : forall f v y g b mem m y' g' b' mem' cs, lwrite f v y g b mem m = Ok (y', g', b', mem', cs) -> spare y g y' g'.
Proof.
  intros f v y g b mem m y' g' b' mem' cs H F. unfold lwrite in H. inv_bind H. apply spare_auto in E.
  assert (F1 : foreign_g (learn_target g m)). { destruct (learn_ep g m) as (_ & A & _ & _ & B). destruct F. split; congruence. }
  assert (S : spare y (learn_target g m) y' g'); [|apply S; auto].
  destruct b0; inv_bind H; inversion H; subst; (eapply spare_trans; [exact E|]).
  - eapply spare_bin_write; eauto.
  - eapply spare_ul_write; eauto.
  - apply spare_calm. eapply calm_tele_write; eauto.
Qed.
Lemma spare_cb_start : forall y g b y' g' cs, lcb_start y g b = (y', g', cs) -> spare y g y' g'.
Proof.
  intros y g b y' g' cs H. destruct b; cbn [lcb_start] in H.
  - destruct (send_block_status y g BLOCK_START 1) as [[y2 g2] c] eqn:S. inversion H; subst. apply spare_calm. eapply calm_block_status; eauto.
  - destruct (send_command y g CMD_LOGGING_START) as [[y2 g2] c] eqn:S. inversion H; subst. apply spare_calm. eapply calm_send_ctl; eauto.
  - inversion H; subst. apply spare_refl.
Qed.
Lemma spare_cb_alive : forall f v y g b y' g' b' cs, lcb_alive f v y g b = Ok (y', g', b', cs) -> spare y g y' g'.
Proof.
  intros f v y g b y' g' b' cs H. unfold lcb_alive in H. inv_bind H. inversion H; subst; clear H.
  eapply spare_trans; [|apply spare_calm, calm_counts]. destruct (_ =? _).
  - inv_bind E. inv_bind E. inversion E; subst. eapply spare_trans; [eapply spare_lstop; eauto|eapply spare_lstart; eauto].
  - inversion E; subst. apply spare_refl.
Qed.

Lemma spare_auto_write : forall f v y a mem m y' a' mem' cs, auto_write f v y a mem m = Ok (y', a', mem', cs) -> foreign (LAuto a) -> foreign (LAuto a') /\ spared y y'.
Proof.
  intros f v y a mem m y' a' mem' cs H (F1 & F2 & F3). unfold auto_write in H. cbn [foreign]. destruct (a_inner a) as [[g b]|] eqn:IN.
  - inv_bind H. inversion H; subst. cbn [a_inner]. destruct (spare_lwrite _ _ _ _ _ _ _ _ _ _ _ _ E F3). auto.
  - destruct (negb _). { inversion H; subst. cbn [a_inner]. repeat split; auto using spared_refl; apply F1 || apply F2. }
    inv_bind H. destruct (_ =? 12).
    + destruct (ask_bytes _ v y) as [junk y1] eqn:J. inversion H; subst. cbn [a_inner]. split.
      * split; auto. split; auto. unfold new_inner. split; [exact F2|]. apply F2.
      * apply (calm_ask_bytes _ _ _ (lg_new 0 [] 0 0 MAlways 0)) in J. destruct J. destruct F1 as [_ F1]. eapply spared_touch; [exact F1|]. exact ca_fs.
    + destruct (_ =? 3); inversion H; subst; cbn [a_inner].
      * split; [|apply spared_refl]. split; auto. split; auto. unfold new_inner. split; [exact F1|]. apply F1.
      * split; [|apply spared_refl]. auto.
Qed.
End Names.
