(* The calls of the duplicate detector in a run of the router form one history of the detector. *)
From Verif Require Import Base Mav SpecFrame Frame FrameProofs FrameLink Dedup DedupProofs Accept Names NamesProofs Sys LogFile LogFileProofs ULog Loggers LogInv LogStep LogMono
  RouterCtl Router RouterRoute RouterRoute2 RouterSetup RouterActs RouterInv RouterLearn RouterStep RouterStart RouterHist SpecRouter.

Lemma dedup_learn : forall n w i id w', learn n w i id = Ok w' -> w_dedup w' = w_dedup w.
Proof.
  induction n; intros w i id w' H; [discriminate|]. cbn [learn] in H. inv_bind H.
  destruct (contains _ _). { inversion H; subst. auto. }
  assert (A : w_dedup (put w i (set_ids a (ep_ids a ++ [id]))) = w_dedup w) by reflexivity. rewrite <- A. clear A E. revert H.
  generalize (put w i (set_ids a (ep_ids a ++ [id]))). generalize (ep_members a).
  induction l as [|j r IHr]; intros x H. { inversion H; subst. auto. }
  inv_bind H. rewrite <- (IHn _ _ _ _ E). eapply IHr; eauto.
Qed.

Lemma dedup_os : forall v w i e o w' rr, os_read v w i e o = Ok (w', rr) -> w_dedup w' = w_dedup w.
Proof.
  intros v w i e o w' rr H. unfold os_read in H. destruct o as [bs from| |n]; try (inversion H; subst; auto; fail). destruct (ep_kind e); try (inversion H; subst; auto; fail).
  + inv_bind H. inversion H; subst. reflexivity.
  + destruct bs; [|inversion H; subst; auto]. destruct (_ =? 0)%nat; [inversion H; subst; auto|]. destruct (tcp_lost _ _ _ _ _). inversion H; subst. reflexivity.
Qed.

Lemma dedup_aggregate : forall w w', cb_aggregate w = Ok w' -> w_dedup w' = w_dedup w.
Proof.
  intros w w' H. unfold cb_aggregate in H. change (w_dedup w) with (w_dedup (set_unknown w 0)). generalize dependent (set_unknown w 0). generalize (w_order w).
  assert (NU : forall l (s : res world), (forall u, s <> Ok u) -> forall u', fold_left (fun rw i => let* w := rw in let* e := get w i in Ok (put w i (set_wstat e (ep_wtotal e) (ep_wbytes e) 0))) l s <> Ok u').
  { induction l; intros s N u'; cbn [fold_left]; [apply N|]. apply IHl. intros u. destruct s as [z| |]; cbn; [exfalso; exact (N z eq_refl)|discriminate|discriminate]. }
  induction l as [|i l IH]; intros u H; cbn [fold_left] in H. { inversion H; auto. }
  cbn [bind] in H. destruct (get u i) as [e| |]; cbn [bind] in H; try (exfalso; eapply NU; [|exact H]; intros; discriminate). apply IH in H. exact H.
Qed.
Lemma dedup_ctls : forall f v w i cs w' its, route_ctls (route_sub f v) w i cs = Ok (w', its) -> w_dedup w' = w_dedup w.
Proof. intros f v w i cs w' its H. eapply ctls_routed in H; [|apply (nested_routed NEST)]. apply H. Qed.
Lemma dedup_cb : forall f v w cb w' its again, run_cb f v w cb = Ok (w', its, again) -> w_dedup w' = w_dedup w.
Proof.
  intros f v w cb w' its again H.
  assert (LG : forall i kk, log_cb w i kk f v = Ok (w', its, again) -> w_dedup w' = w_dedup w).
  { intros i kk X. unfold log_cb in X. inv_bind X.
    destruct (ep_kind a) as [| | |[g b|q]]; try discriminate; [|destruct (a_inner q) as [[g b]|]; try discriminate]; inv_bind X; inv_bind X; inversion X; subst;
      match goal with R : route_ctls _ _ _ _ = _ |- _ => apply dedup_ctls in R; exact R end. }
  destruct cb; cbn [run_cb] in H; try (eapply LG; eauto; fail).
  - inv_bind H. inversion H; subst. eapply dedup_aggregate; eauto.
  - inversion H; subst. auto.
  - inv_bind H. inversion H; subst. unfold cb_baud in E. inv_bind E. destruct (ep_kind a) as [[|b0 bs] ? ?| | |]; try discriminate. destruct (ask _ _). inversion E; subst. reflexivity.
  - inv_bind H. inversion H; subst. unfold cb_nomsg in E. inv_bind E. destruct (ep_kind a) as [|? ? [?|]| |]; try discriminate. inv_bind E. inversion E; subst. reflexivity.
  - inv_bind H. inversion H; subst. unfold cb_retry in E. inv_bind E. destruct (ep_kind a); try discriminate. destruct (ask _ _). destruct (_ <? 0). { inversion E; subst. reflexivity. }
    destruct (add_fd _ _ _). inversion E; subst. reflexivity.
Qed.
Lemma dedup_timer : forall f v w t fired w' its, timer_read f v w t fired = Ok (w', its) -> w_dedup w' = w_dedup w.
Proof.
  intros f v w t fired w' its H. unfold timer_read in H. destruct (find_timer (w_sys w) t) as [x|]; [|discriminate]. destruct (_ || _). { inversion H; subst. auto. }
  inv_bind H. inv_bind H. inversion H; subst. match goal with R : run_cb _ _ _ _ = _ |- _ => apply dedup_cb in R; rewrite <- R end. reflexivity.
Qed.
Lemma dedup_conn : forall v w, w_dedup (fst (tcp_connection v w)) = w_dedup w.
Proof. intros v w. unfold tcp_connection. destruct (ask v (w_sys w)) as [r y]. destruct (r <? 0); auto. Qed.
Lemma dedup_hangups : forall w w' its, process_hangups w = Ok (w', its) -> Inv w -> w_dedup w' = w_dedup w.
Proof.
  intros w w' its H I. unfold process_hangups in H. destruct (w_hang w); [|inversion H; subst; auto]. inv_bind H. inversion H; subst.
  match goal with X : hangups _ _ = _ |- _ => apply hangups_spec in X; [destruct X as (X & _)|apply inv_sym; auto] end.
  match goal with X : _ = set_eps w _ |- _ => cbn; rewrite X; reflexivity end.
Qed.

(* the packets the detector was asked about, and whether it let them through *)
Definition packets (h : list item) : list (list Z * bool) :=
  flat_map (fun x => match x with IRecv _ bs _ d _ => [(bs, match d with Duplicate => false | _ => true end)] | _ => [] end) h.
Lemma packets_app : forall a b, packets (a ++ b) = packets a ++ packets b.
Proof. intros. apply flat_map_app. Qed.
Lemma packets_none : forall h, no_recv h -> packets h = [].
Proof.
  induction h as [|x h IH]; intros N; auto. unfold packets in *. cbn [flat_map]. rewrite IH; [|intros y Y; apply N; right; auto]. specialize (N x (or_introl eq_refl)). destruct x; auto. discriminate.
Qed.

(* an act asks the detector about one packet, or does not touch it *)
Lemma act_dedup : forall f v w its w', wf_table (v_tbl v) -> act f v w its w' -> Inv w ->
  (packets its = [] /\ w_dedup w' = w_dedup w) \/
  (exists pkt p fresh, packets its = [(pkt, fresh)] /\
     (if dd_period (w_dedup w) =? 0 then w_dedup w' = w_dedup w /\ fresh = true
      else dedup_check (v_hash v) (w_dedup w) (v_orc v p) pkt = Ok (w_dedup w', fresh))).
Proof.
  intros f v w its w' WT A I. inversion A; subst.
  - left. split; auto. eapply dedup_os; eauto.
  - left. auto.
  - right. destruct (recv_before f v w i e rr x st known m w1 WT I H H0 H1 H2 H3 _ _ H4) as (K & DD & e1 & p & L1 & F1 & KE & RX & RL & P1 & P2 & P3 & P4 & P5). rewrite <- DD.
    assert (I1 : Inv w1) by (eapply kept_inv; eauto).
    assert (NR : exists d ds its', its = IRecv i (encode p) m d ds :: its' /\ no_recv its').
    { subst m. destruct (handle_cases f v w1 i e1 p w' its H4 I1 L1 F1 P1) as (d & ds & its' & Q & N & _); [rewrite RX; auto|eauto]. }
    destruct (handle_inv _ _ _ _ _ _ _ H4) as (e2 & pkt & w2 & fresh & L2 & SL & CD & C). exists pkt, (y_pos (w_sys w1)), fresh. destruct NR as (d & ds & its' & NI & NR).
    assert (DE : w_dedup w' = w_dedup w2).
    { destruct C as [(_ & -> & _)|[(_ & _ & -> & _)|(_ & _ & w3 & e3 & w4 & mem & ds2 & its2 & e4 & LE & _ & RT & _ & -> & _)]]; auto.
      apply dedup_learn in LE. apply route_spec in RT. cbn. rewrite (ro_dedup _ _ (proj1 RT)). auto. }
    split.
    + destruct C as [(-> & _ & Q)|[(-> & _ & _ & Q)|(-> & _ & w3 & e3 & w4 & mem & ds2 & its2 & e4 & _ & _ & _ & _ & _ & Q)]]; subst its; inversion Q; subst; auto.
      apply packets_none in NR. unfold packets in *. cbn [flat_map]. rewrite ?NR. reflexivity.
    + unfold check_dup in CD. destruct (_ =? 0). { inversion CD; subst. auto. }
      unfold ask in CD. inv_bind CD. inversion CD; subst. rewrite DE. cbn. auto.
  - left. split; [apply packets_none; apply conn_from_old|apply dedup_conn].
  - left. auto.
  - left. split; [apply packets_none; eapply timer_no_recv; eauto using inv_logs|eapply dedup_timer; eauto].
  - left. auto.
  - left. auto.
  - left. split; [apply packets_none; eapply hangups_from_old; eauto|eapply dedup_hangups; eauto].
  - left. auto.
Qed.

Definition period_of (c : config) : Z := if 0 <? cf_dedup c then cf_dedup c else 0.

Lemma dedup_period_run : forall hash evs d d' oks, dedup_run hash d evs = Ok (d', oks) -> dd_period d' = dd_period d.
Proof.
  induction evs as [|[now msg] evs IH]; intros d d' oks H; cbn [dedup_run] in H. { inversion H; auto. }
  inv_bind H. inv_bind H. inversion H; subst. rewrite (IH _ _ _ E0). unfold dedup_check in E. destruct (_ =? 0). { inversion E; auto. }
  inv_bind E. destruct (set_mem _ _); inversion E; auto.
Qed.

Lemma combine_snoc : forall (A B : Type) (a : list A) (b : list B) x y, length a = length b -> combine (a ++ [x]) (b ++ [y]) = combine a b ++ [(x, y)].
Proof. induction a; intros [|b0 b] x y L; try discriminate; auto. cbn in *. rewrite IHa; auto. Qed.

Lemma dedup_runs : forall f v c its w, wf_table (v_tbl v) -> runs f v c its w ->
  exists ts, length ts = length (packets its) /\ (u32 (period_of c) <> 0 -> Forall (fun t => exists p, t = v_orc v p) ts) /\
  dedup_run (v_hash v) (dedup_new (period_of c)) (combine ts (map fst (packets its))) = Ok (w_dedup w, map snd (packets its)).
Proof.
  intros f v c its w WT R. apply (runs_ind f v c (fun its w => exists ts, length ts = length (packets its) /\ (u32 (period_of c) <> 0 -> Forall (fun t => exists p, t = v_orc v p) ts) /\
    dedup_run (v_hash v) (dedup_new (period_of c)) (combine ts (map fst (packets its))) = Ok (w_dedup w, map snd (packets its)))) in R; auto.
  - intros d pos w0 S. apply start_shape in S. destruct S as (es & ls & _ & _ & _ & _ & _ & _ & _ & _ & D & _). exists []. split; auto. split; auto. cbn. rewrite D. auto.
  - intros h w1 i1 w2 I (ts & LT & OT & D) A. rewrite packets_app. destruct (act_dedup _ _ _ _ _ WT A I) as [[-> ->]|(pkt & p & fresh & -> & C)].
    { rewrite app_nil_r. exists ts. auto. }
    pose proof (dedup_period_run _ _ _ _ _ D) as PE. cbn [dedup_new dd_period] in PE.
    exists (ts ++ [v_orc v p]). rewrite !app_length, !map_app. split; [cbn; lia|]. split.
    { intros N. apply Forall_app. split; auto. constructor; auto. eauto. }
    cbn [map fst snd]. rewrite combine_snoc by (rewrite map_length; auto). rewrite dedup_run_app, D. cbn [bind dedup_run].
    assert (X : dedup_check (v_hash v) (w_dedup w1) (v_orc v p) pkt = Ok (w_dedup w2, fresh)); [|rewrite X; reflexivity].
    destruct (dd_period (w_dedup w1) =? 0) eqn:P0; auto. destruct C as [-> ->]. unfold dedup_check. rewrite P0. auto.
Qed.
