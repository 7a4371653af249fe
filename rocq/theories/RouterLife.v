(* What happens to one endpoint: the writes on it, and the other changes. *)
From Coq Require Import Permutation.
From Verif Require Import Base Mav SpecCrc SpecFrame Frame FrameProofs FrameRefine FrameLink Dedup SpecAccept Accept AcceptProofs Names Sys LogFile LogFileProofs ULog Loggers LogInv LogStep RouterCtl Router
  RouterRoute RouterRoute2 RouterSetup RouterActs RouterInv RouterLearn RouterStep RouterStart RouterHist SpecRouter RouterTrace.

(* one write_msg on an endpoint, with the reaction of Mainloop::write_msg *)
Definition one (e : ep) (d : delivery) (e' : ep) : Prop :=
  exists f v w i mem m w' mem' cs, lookup w i = Some e /\ deliver f v w i e mem m = Ok (w', mem', d, cs) /\ lookup w' i = Some e'.
Inductive steps : ep -> list delivery -> ep -> Prop :=
| st_nil : forall e, steps e [] e
| st_cons : forall e d e1 ds e2, one e d e1 -> steps e1 ds e2 -> steps e (d :: ds) e2.

Lemma steps_app : forall a l b, steps a l b -> forall l' c, steps b l' c -> steps a (l ++ l') c.
Proof. intros a l b H. induction H; intros l' c K; cbn; auto. econstructor; eauto. Qed.

Lemma tok_app : forall k a b, tok k (a ++ b) = tok k a ++ tok k b.
Proof. intros. apply filter_app. Qed.
Lemma made_app : forall a b, flat_map made (a ++ b) = flat_map made a ++ flat_map made b.
Proof. intros. apply flat_map_app. Qed.

Definition moves (w w' : world) (l : list delivery) : Prop :=
  forall k e, lookup w k = Some e -> exists e' s, lookup w' k = Some e' /\ steps e s e' /\ Permutation s (tok k l).
Lemma moves_refl : forall w, moves w w [].
Proof. intros w k e L. exists e, []. split; auto. split; [constructor|]. constructor. Qed.
Lemma moves_trans : forall a b c l l', moves a b l -> moves b c l' -> moves a c (l ++ l').
Proof.
  intros a b c l l' A B k e L. destruct (A k e L) as (e1 & s1 & L1 & S1 & P1). destruct (B k e1 L1) as (e2 & s2 & L2 & S2 & P2).
  exists e2, (s1 ++ s2). split; auto. split; [eapply steps_app; eauto|]. rewrite tok_app. apply Permutation_app; auto.
Qed.
Lemma moves_perm : forall a b l l', moves a b l -> Permutation l l' -> moves a b l'.
Proof.
  intros a b l l' A P k e L. destruct (A k e L) as (e1 & s1 & L1 & S1 & P1). exists e1, s1. split; auto. split; auto.
  eapply Permutation_trans; eauto. unfold tok. clear - P. induction P; cbn; auto.
  - destruct (Nat.eqb (dl_to x) k); auto.
  - destruct (Nat.eqb (dl_to x) k), (Nat.eqb (dl_to y) k); auto. constructor.
  - eapply Permutation_trans; eauto.
Qed.

Lemma deliver_moves : forall f v w i e mem m w' mem' d cs, deliver f v w i e mem m = Ok (w', mem', d, cs) -> lookup w i = Some e -> moves w w' [d].
Proof.
  intros f v w i e mem m w' mem' d cs H L. destruct (deliver_spec _ _ _ _ _ _ _ _ _ _ _ H L) as (R & _ & _ & _ & T & _ & O).
  intros k ek LK. unfold tok. cbn [filter]. rewrite T. destruct (Nat.eqb_spec i k) as [<-|N].
  - rewrite L in LK. inversion LK; subst ek. pose proof (ro_ep _ _ R i) as X. rewrite L in X. destruct (lookup w' i) as [e'|] eqn:L'; [|destruct X].
    exists e', [d]. split; auto. split; [|apply Permutation_refl]. econstructor; [|constructor]. exists f, v, w, i, mem, m, w', mem', cs. auto.
  - exists ek, []. rewrite O by auto. split; auto. split; [constructor|apply Permutation_refl].
Qed.

Definition sub_moves (sub : world -> ctl -> res (world * list delivery * list item)) : Prop :=
  forall w c w' ds its, sub w c = Ok (w', ds, its) -> moves w w' (ds ++ flat_map made its).

Lemma ctls_moves : forall sub, sub_moves sub -> forall cs w i w' its, route_ctls sub w i cs = Ok (w', its) -> moves w w' (flat_map made its).
Proof.
  intros sub S. induction cs as [|c cs IH]; intros w i w' its H; cbn [route_ctls] in H.
  - inversion H; subst. apply moves_refl.
  - inv_bind H. inv_bind H. inversion H; subst. cbn [flat_map made]. rewrite made_app, app_assoc. eapply moves_trans; eauto.
Qed.
Lemma each_moves : forall sub f v, sub_moves sub -> forall order w mem m u w' mem' ds its u',
  route_each sub f v w order mem m u = Ok (w', mem', ds, its, u') -> moves w w' (ds ++ flat_map made its).
Proof.
  intros sub f v S. induction order as [|i r IH]; intros w mem m u w' mem' ds its u' H.
  - cbn [route_each] in H. inversion H; subst. apply moves_refl.
  - rewrite route_each_cons in H. inv_bind H. apply get_lookup in E. destruct (accept_msg _ _ _ _); eauto.
    inv_bind H. inv_bind H. inv_bind H. inversion H; subst; clear H.
    pose proof (deliver_moves _ _ _ _ _ _ _ _ _ _ _ E0 E) as M1. pose proof (ctls_moves _ S _ _ _ _ _ E1) as M2. pose proof (IH _ _ _ _ _ _ _ _ _ E2) as M3.
    eapply moves_perm. { eapply moves_trans; [eapply moves_trans; [exact M1|exact M2]|exact M3]. }
    rewrite made_app. cbn [app]. constructor. apply Permutation_app_swap_app.
Qed.
Lemma route_moves : forall n f v w mem m w' mem' ds its, route n f v w mem m = Ok (w', mem', ds, its) -> moves w w' (ds ++ flat_map made its).
Proof.
  induction n; intros f v w mem m w' mem' ds its H; [discriminate|]. rewrite route_S in H. inv_bind H.
  assert (S : sub_moves (nested n f v)).
  { intros w1 c w2 ds2 its2 X. unfold nested in X. inv_bind X. inversion X; subst. eapply IHn; eauto. }
  apply (each_moves _ _ _ S) in E. inversion H; subst. match goal with |- moves _ (if ?b then _ else _) _ => destruct b end; auto.
Qed.
Lemma nested_moves : forall k f v, sub_moves (nested k f v).
Proof. intros k f v w c w' ds its X. unfold nested in X. inv_bind X. inversion X; subst. eapply route_moves; eauto. Qed.

(* ---- the other changes -------------------------------------------------------------------------------------- *)

(* what reading, learning and polling leave alone *)
Definition mild (e e' : ep) : Prop :=
  ep_kind e' = ep_kind e /\ ep_fd e' = ep_fd e /\ ep_wtotal e' = ep_wtotal e /\ ep_wbytes e' = ep_wbytes e /\ ep_incomplete e' = ep_incomplete e.
Lemma mild_refl : forall e, mild e e.
Proof. intros. repeat split; auto. Qed.
Lemma mild_trans : forall a b c, mild a b -> mild b c -> mild a c.
Proof. intros a b c (A & B & C & D & E) (A' & B' & C' & D' & E'). repeat split; congruence. Qed.

Definition same_stats (e e' : ep) : Prop := ep_wtotal e' = ep_wtotal e /\ ep_wbytes e' = ep_wbytes e /\ ep_incomplete e' = ep_incomplete e.

(* the peer of a TCP endpoint is gone *)
Definition lost (e e' : ep) : Prop :=
  exists r vl, ep_kind e = KTcp r vl /\ same_stats e e' /\
    if 0 <? r then ep_kind e' = KTcp r true /\ ep_fd e' = false else ep_kind e' = KTcp r false /\ ep_fd e' = ep_fd e.

Definition read_kick (o : osread) (e e' : ep) : Prop :=
  match ep_kind e, o with
  | KUdp c p t, OsData _ from => ep_kind e' = KUdp c from t /\ ep_fd e' = ep_fd e /\ same_stats e e'
  | KTcp _ _, OsData [] _ => lost e e' \/ mild e e'
  | _, _ => mild e e'
  end.
Definition fire_kick (w : world) (k : nat) (cb : callback) (e e' : ep) : Prop :=
  match cb with
  | CbAggregate => ep_kind e' = ep_kind e /\ ep_fd e' = ep_fd e /\ ep_wtotal e' = ep_wtotal e /\ ep_wbytes e' = ep_wbytes e /\
                   ep_incomplete e' = if memb (w_order w) k then 0 else ep_incomplete e
  | CbBaud i => if Nat.eqb i k then match ep_kind e with
                                    | KUart b c t => ep_kind e' = KUart b (Nat.modulo (c + 1) (length b)) t /\ ep_fd e' = ep_fd e /\ same_stats e e'
                                    | _ => False end else mild e e'
  | CbNoMsg i => if Nat.eqb i k then match ep_kind e with
                                    | KUdp c _ (Some t) => ep_kind e' = KUdp c c (Some t) /\ ep_fd e' = ep_fd e /\ same_stats e e'
                                    | _ => False end else mild e e'
  | CbRetry i => if Nat.eqb i k then match ep_kind e with
                                    | KTcp r vl => same_stats e e' /\ ((ep_kind e' = KTcp r vl /\ ep_fd e' = false) \/ (ep_kind e' = KTcp r true /\ ep_fd e' = true))
                                    | _ => False end else mild e e'
  | _ => is_log e = false -> mild e e'
  end.
(* a packet with a known id stops the search for the baud rate *)
Definition recv_kick (v : env) (m : minfo) (e e' : ep) : Prop :=
  match ep_kind e with
  | KUart b c (Some t) => ep_kind e' = KUart b c (match v_tbl v (m_id m) with Some _ => None | None => Some t end) /\ ep_fd e' = ep_fd e /\ same_stats e e'
  | _ => mild e e'
  end.
Definition kick (v : env) (w : world) (k : nat) (its : list item) (e e' : ep) : Prop :=
  match its with
  | IRead i o :: _ => if Nat.eqb i k then read_kick o e e' else mild e e'
  | IRecv i _ m _ _ :: _ => if Nat.eqb i k then recv_kick v m e e' else mild e e'
  | IFire _ cb :: _ => fire_kick w k cb e e'
  | _ => mild e e'
  end.

Lemma known_table : forall tbl x st rr x' st' k m, wf_table tbl -> rx_ok x -> wf_rd rr -> read_msg tbl x st rr = Ok (x', st', RetMsg k m) ->
  k = match tbl (m_id m) with Some _ => true | None => false end.
Proof.
  intros tbl x st rr x' st' k m T [B (s & G)] W H. destruct (read_msg_step tbl x s st rr T G W) as (x2 & st2 & r2 & E & O).
  rewrite H in E. inversion E; subst x2 st2 r2; clear E. inversion O; subst. unfold is_known. cbn. destruct (tbl _); auto.
Qed.

Lemma mild_set_rx : forall e x s, mild e (set_rx e x s).
Proof. intros. repeat split; auto. Qed.
Lemma mild_taught : forall id e e', taught_ep id e e' -> mild e e'.
Proof. intros id e e' [->|[-> _]]; repeat split; auto. Qed.
Lemma put_lookup : forall w y i e0 e1 k e e', lookup w i = Some e0 -> lookup w k = Some e -> lookup (put (set_sys w y) i e1) k = Some e' ->
  (i = k /\ e' = e1 /\ e = e0) \/ (i <> k /\ e' = e).
Proof.
  intros w y i e0 e1 k e e' L0 L L'. destruct (Nat.eq_dec i k) as [<-|N].
  - left. rewrite (lookup_put_eq (set_sys w y) i e1 e0) in L' by exact L0. split; auto. split; congruence.
  - right. rewrite lookup_put_neq in L' by auto. rewrite lookup_sys in L'. split; auto; congruence.
Qed.
Lemma put_lookup0 : forall w i e0 e1 k e e', lookup w i = Some e0 -> lookup w k = Some e -> lookup (put w i e1) k = Some e' ->
  (i = k /\ e' = e1 /\ e = e0) \/ (i <> k /\ e' = e).
Proof. intros w i e0 e1 k e e' L0 L L'. apply (put_lookup w (w_sys w) i e0 e1 k e e'); auto. Qed.

Lemma lost_of : forall v y i e r vl y' e', ep_kind e = KTcp r vl -> tcp_lost v y i e r = (y', e') -> lost e e'.
Proof.
  intros v y i e r vl y' e' K H. exists r, vl. split; auto. unfold tcp_lost, schedule_reconnect in H. destruct (Z.ltb_spec 0 r) as [A|A].
  - rewrite (proj2 (Z.leb_gt r 0)) in H by lia. destruct (add_timer _ _ _ _). inversion H; subst. split; [repeat split; auto|]. auto.
  - inversion H; subst. split; [repeat split; auto|]. auto.
Qed.

Lemma os_read_kick : forall v w i e o w' rr k ek ek', os_read v w i e o = Ok (w', rr) -> lookup w i = Some e -> lookup w k = Some ek -> lookup w' k = Some ek' ->
  if Nat.eqb i k then read_kick o ek ek' else mild ek ek'.
Proof.
  intros v w i e o w' rr k ek ek' H L LK LK'.
  assert (S : (match ep_kind e, o with KUdp _ _ _, OsData _ _ => False | _, _ => True end) -> w' = w -> if Nat.eqb i k then read_kick o ek ek' else mild ek ek').
  { intros N ->. assert (ek' = ek) by congruence. subst ek'. destruct (Nat.eqb_spec i k) as [<-|NE]; [|apply mild_refl].
    assert (ek = e) by congruence. subst ek. unfold read_kick. destruct (ep_kind e); auto using mild_refl; destruct o as [[|? ?] ?| |?]; auto using mild_refl; tauto. }
  destruct o as [bs from| |n]; cbn [os_read] in H.
  - destruct (ep_kind e) as [bd cu tm|cf pe tm|r vl|l] eqn:K.
    + apply S; auto. inversion H; auto.
    + inv_bind H. inversion H; subst. destruct (put_lookup _ _ _ _ _ _ _ _ L LK LK') as [(-> & -> & ->)|(N & ->)].
      * rewrite Nat.eqb_refl. unfold read_kick. rewrite K. cbn. repeat split; auto.
      * rewrite (proj2 (Nat.eqb_neq _ _) N). apply mild_refl.
    + destruct bs as [|b bs]; [|apply S; auto; inversion H; auto]. destruct (_ =? 0)%nat. { apply S; auto. inversion H; auto. }
      destruct (tcp_lost v (w_sys w) i e r) as [y1 e1] eqn:T. inversion H; subst. destruct (put_lookup _ _ _ _ _ _ _ _ L LK LK') as [(-> & -> & ->)|(N & ->)].
      * rewrite Nat.eqb_refl. unfold read_kick. rewrite K. left. eapply lost_of; eauto.
      * rewrite (proj2 (Nat.eqb_neq _ _) N). apply mild_refl.
    + apply S; auto. inversion H; auto.
  - apply S; auto. { destruct (ep_kind e); auto. } inversion H; auto.
  - apply S; auto. { destruct (ep_kind e); auto. } inversion H; auto.
Qed.

Lemma aggregate_lookup : forall w w', cb_aggregate w = Ok w' -> forall k e e', lookup w k = Some e -> lookup w' k = Some e' ->
  e' = if memb (w_order w) k then set_wstat e (ep_wtotal e) (ep_wbytes e) 0 else e.
Proof.
  intros w w' H k e e' L L'. unfold cb_aggregate in H.
  assert (K : forall l u u', fold_left (fun rw i => let* w := rw in let* e := get w i in Ok (put w i (set_wstat e (ep_wtotal e) (ep_wbytes e) 0))) l (Ok u) = Ok u' ->
    forall k e e', lookup u k = Some e -> lookup u' k = Some e' -> e' = if memb l k then set_wstat e (ep_wtotal e) (ep_wbytes e) 0 else e).
  { assert (NU : forall l (s : res world), (forall u, s <> Ok u) -> forall u', fold_left (fun rw i => let* w := rw in let* e := get w i in Ok (put w i (set_wstat e (ep_wtotal e) (ep_wbytes e) 0))) l s <> Ok u').
    { induction l; intros s N u'; cbn [fold_left]; [apply N|]. apply IHl. intros u. destruct s as [z| |]; [exfalso; exact (N z eq_refl)|discriminate|discriminate]. }
    clear - NU. intros l. induction l as [|a l IHl]; intros u u' X k e e' L L'; cbn [fold_left] in X. { inversion X; subst. cbn. congruence. }
    cbn [bind] in X. destruct (get u a) as [ea| |] eqn:G; cbn [bind] in X; try (exfalso; revert X; apply NU; discriminate).
    apply get_lookup in G. cbn [memb existsb]. destruct (Nat.eqb_spec k a) as [->|N]; cbn [orb].
    - assert (ea = e) by congruence. subst ea. rewrite (IHl _ _ X a _ e' (lookup_put_eq _ _ _ _ G) L'). destruct (memb l a); reflexivity.
    - apply (IHl _ _ X k e e'); auto. rewrite lookup_put_neq; auto; congruence. }
  apply (K _ _ _ H k e e'); auto.
Qed.

Lemma log_cb_life : forall w i kk f v w' its again k e e', log_cb w i kk f v = Ok (w', its, again) -> lookup w k = Some e -> lookup w' k = Some e' -> is_log e = false ->
  exists s, steps e s e' /\ Permutation s (sends its k).
Proof.
  intros w i kk f v w' its again k e e' H L L' NL. unfold log_cb in H. inv_bind H. apply get_lookup in E. rename a into el.
  assert (GO : forall y l l0 cs, ep_kind el = KLog l0 -> route_ctls (route_sub f v) (put (set_sys w y) i (set_kind el (KLog l))) i cs = Ok (w', its) ->
     exists s, steps e s e' /\ Permutation s (sends its k)).
  { intros y l l0 cs K R. change (route_sub f v) with (nested 2 f v) in R. pose proof (ctls_moves _ (nested_moves 2 f v) _ _ _ _ _ R) as M.
    assert (NE : i <> k). { intros ->. assert (el = e) by congruence. subst. unfold is_log in NL. rewrite K in NL. discriminate. }
    destruct (M k e) as (e2 & s & L2 & S & P). { rewrite lookup_put_neq; auto. } exists s. assert (e2 = e') by congruence. subst. auto. }
  destruct (ep_kind el) as [| | |[g b|a]] eqn:K; try discriminate.
  - inv_bind H. inv_bind H. inversion H; subst. eapply GO; eauto.
  - destruct (a_inner a) as [[g b]|]; [|discriminate]. inv_bind H. inv_bind H. inversion H; subst. eapply GO; eauto.
Qed.

Lemma run_cb_life : forall f v w cb w' its again k e e', run_cb f v w cb = Ok (w', its, again) -> lookup w k = Some e -> lookup w' k = Some e' -> is_log e = false ->
  exists e1 s, fire_kick w k cb e e1 /\ steps e1 s e' /\ Permutation s (sends its k).
Proof.
  intros f v w cb w' its again k e e' H L L' NL.
  assert (LOG : forall i kk, log_cb w i kk f v = Ok (w', its, again) -> exists e1 s, (is_log e = false -> mild e e1) /\ steps e1 s e' /\ Permutation s (sends its k)).
  { intros i kk X. destruct (log_cb_life _ _ _ _ _ _ _ _ _ _ _ X L L' NL) as (s & S & P). exists e, s. split; auto using mild_refl. }
  destruct cb; cbn [run_cb] in H; try (eapply LOG; eauto; fail).
  - inv_bind H. inversion H; subst. exists e', []. split; [|split; [constructor|apply Permutation_refl]].
    rewrite (aggregate_lookup _ _ E k e e' L L'). cbn. destruct (memb (w_order w) k); cbn; auto.
  - inversion H; subst. assert (e' = e) by congruence. subst. exists e, []. split; [intros _; apply mild_refl|]. split; [constructor|apply Permutation_refl].
  - inv_bind H. inversion H; subst. exists e', []. split; [|split; [constructor|apply Permutation_refl]]. unfold cb_baud in E. inv_bind E.
    match goal with X : get w i = Ok ?q |- _ => rename q into ei; apply get_lookup in X; rename X into LI end. cbn [fire_kick].
    destruct (ep_kind ei) as [[|b bd] cu tm| | |] eqn:K; try discriminate. destruct (ask _ _). inversion E; subst. destruct (put_lookup _ _ _ _ _ _ _ _ LI L L') as [(-> & -> & ->)|(N & ->)].
    + rewrite Nat.eqb_refl, K. cbn. repeat split; auto.
    + rewrite (proj2 (Nat.eqb_neq _ _) N). apply mild_refl.
  - inv_bind H. inversion H; subst. exists e', []. split; [|split; [constructor|apply Permutation_refl]]. unfold cb_nomsg in E. inv_bind E.
    match goal with X : get w i = Ok ?q |- _ => rename q into ei; apply get_lookup in X; rename X into LI end. cbn [fire_kick].
    destruct (ep_kind ei) as [|cf pe [t|]| |] eqn:K; try discriminate. inv_bind E. inversion E; subst. destruct (put_lookup _ _ _ _ _ _ _ _ LI L L') as [(-> & -> & ->)|(N & ->)].
    + rewrite Nat.eqb_refl, K. cbn. repeat split; auto.
    + rewrite (proj2 (Nat.eqb_neq _ _) N). apply mild_refl.
  - inv_bind H. inversion H; subst. exists e', []. split; [|split; [constructor|apply Permutation_refl]]. unfold cb_retry in E. inv_bind E.
    match goal with X : get w i = Ok ?q |- _ => rename q into ei; apply get_lookup in X; rename X into LI end. cbn [fire_kick].
    destruct (ep_kind ei) as [| |r vl|] eqn:K; try discriminate. destruct (ask _ _) as [q y]. destruct (q <? 0).
    + inversion E; subst. destruct (put_lookup _ _ _ _ _ _ _ _ LI L L') as [(-> & -> & ->)|(N & ->)].
      * rewrite Nat.eqb_refl, K. cbn. split; [repeat split; auto|]. left. auto.
      * rewrite (proj2 (Nat.eqb_neq _ _) N). apply mild_refl.
    + unfold add_fd in E. destruct (ask v y) as [q2 y2]. inversion E; subst. destruct (put_lookup _ _ _ _ _ _ _ _ LI L L') as [(-> & -> & ->)|(N & ->)].
      * rewrite Nat.eqb_refl, K. cbn. split; [repeat split; auto|]. right. auto.
      * rewrite (proj2 (Nat.eqb_neq _ _) N). apply mild_refl.
Qed.

(* one act, seen from endpoint k *)
Lemma act_life : forall f v w its w' k e e', wf_table (v_tbl v) -> act f v w its w' -> Inv w -> lookup w k = Some e -> lookup w' k = Some e' -> is_log e = false ->
  exists e1 s e2, kick v w k its e e1 /\ steps e1 s e2 /\ Permutation s (sends its k) /\ mild e2 e'.
Proof.
  intros f v w its w' k e e' WT A I L L' NL.
  assert (PLAIN : kick v w k its e e' -> flat_map made its = [] -> exists e1 s e2, kick v w k its e e1 /\ steps e1 s e2 /\ Permutation s (sends its k) /\ mild e2 e').
  { intros K M. exists e', [], e'. split; auto. split; [constructor|]. split; [|apply mild_refl]. unfold sends. rewrite M. apply Permutation_refl. }
  assert (SAME : its = [] -> lookup w' k = lookup w k -> exists e1 s e2, kick v w k its e e1 /\ steps e1 s e2 /\ Permutation s (sends its k) /\ mild e2 e').
  { intros -> X. apply PLAIN; auto. assert (e' = e) by congruence. subst. apply mild_refl. }
  inversion A; subst; try (apply SAME; reflexivity).
  - apply PLAIN; auto. cbn [kick]. eapply os_read_kick; eauto.
  - apply PLAIN; auto. cbn [kick]. destruct (put_lookup0 _ _ _ _ _ _ _ H L L') as [(-> & -> & ->)|(N & ->)]; auto using mild_refl, mild_set_rx.
  - clear PLAIN SAME. destruct (recv_before f v w i e0 rr x st known m w1 WT I H H0 H1 H2 H3 _ _ H4) as (K & DD & e1 & p & L1 & F1 & KE & RX & RL & P1 & P2 & P3 & P4 & P5).
    pose proof (known_table _ _ _ _ _ _ _ _ WT (i_rx w I i e0 H) H1 H2) as KT.
    assert (I1 : Inv w1) by (eapply kept_inv; eauto). rewrite <- RX in P5.
    destruct (kept_lookup _ _ _ _ K L) as (ek & LK & _).
    assert (KI : if Nat.eqb i k then recv_kick v m e ek else mild e ek).
    { destruct known.
      - unfold keep_baud in H3. destruct (ep_kind (set_rx e0 x st)) as [bd cu [t|]|? ? ?|? ?|?] eqn:KD; cbn in KD;
        try (inversion H3; subst w1; destruct (put_lookup0 _ _ _ _ _ _ _ H L LK) as [(-> & -> & ->)|(N & ->)];
             [rewrite Nat.eqb_refl; unfold recv_kick; rewrite KD; apply mild_set_rx|rewrite (proj2 (Nat.eqb_neq _ _) N); apply mild_refl]; fail).
        inv_bind H3. inversion H3; subst w1. destruct (Nat.eqb_spec i k) as [<-|N].
        + assert (e = e0) by congruence. subst e0. match type of LK with lookup (put (set_sys ?u ?y) i ?q) i = _ => rewrite (lookup_put_eq (set_sys u y) i q (set_rx e x st)) in LK by (eapply lookup_put_eq; eauto) end.
          inversion LK; subst. unfold recv_kick. rewrite KD. cbn. destruct (v_tbl v _); [|discriminate]. repeat split; auto.
        + rewrite lookup_put_neq, lookup_sys, lookup_put_neq in LK by auto. assert (ek = e) by congruence. subst. apply mild_refl.
      - inversion H3; subst w1. destruct (put_lookup0 _ _ _ _ _ _ _ H L LK) as [(-> & -> & ->)|(N & ->)].
        + rewrite Nat.eqb_refl. unfold recv_kick. destruct (ep_kind e0) as [bd cu [t|]| | |] eqn:KD; auto using mild_set_rx. destruct (v_tbl v _); [discriminate|]. cbn. repeat split; auto.
        + rewrite (proj2 (Nat.eqb_neq _ _) N). apply mild_refl. }
    subst m. destruct (handle_inv _ _ _ _ _ _ _ H4) as (e9 & pkt & w2 & fresh & L9 & SL0 & CD & C).
    destruct (check_dup_eps _ _ _ _ _ CD) as [EE KD]. assert (LE : forall j, lookup w2 j = lookup w1 j) by (intros j; unfold lookup; rewrite EE; auto).
    destruct C as [(_ & -> & ->)|[(_ & AL & -> & ->)|(_ & AL & w3 & e2 & w4 & mem & ds & its' & e3 & LN & L2 & RT & L3 & -> & ->)]].
    + exists ek, [], ek. split; [exact KI|]. split; [constructor|]. split; [apply Permutation_refl|]. rewrite LE in L'. assert (e' = ek) by congruence. subst. apply mild_refl.
    + exists ek, [], ek. split; [exact KI|]. split; [constructor|]. split; [apply Permutation_refl|]. rewrite LE in L'. assert (e' = ek) by congruence. subst. apply mild_refl.
    + assert (I2 : Inv w2) by (eapply kept_inv; eauto). assert (LW2 : lookup w2 k = Some ek) by (rewrite LE; auto).
      destruct (learn_exact _ _ _ _ _ _ LN I2 ltac:(rewrite LE; eauto)) as [T _]. destruct (taught_lookup _ _ _ _ _ T LW2) as (et & LT & TE).
      pose proof (route_moves _ _ _ _ _ _ _ _ _ _ RT) as M. destruct (M k et LT) as (e5 & s & L5 & S & P).
      assert (M5 : mild e5 e'). { destruct (put_lookup0 _ _ _ _ _ _ _ L3 L5 L') as [(-> & -> & ->)|(N & ->)]; auto using mild_refl, mild_set_rx. }
      exists et, s, e5. split; [|split; [exact S|split; [exact P|exact M5]]].
      apply mild_taught in TE. cbn [kick]. destruct (Nat.eqb i k).
      * clear - KI TE. destruct TE as (T1 & T2 & T3 & T4 & T5). unfold recv_kick, mild, same_stats in *. destruct (ep_kind e) as [bd cu [t|]| | |];
          repeat match goal with Q : _ /\ _ |- _ => destruct Q end; repeat split; congruence.
      * eapply mild_trans; eauto.
  - apply PLAIN.
    + unfold tcp_connection in L' |- *. destruct (ask v (w_sys w)) as [r y]. destruct (r <? 0). { cbn [fst snd kick] in *. rewrite lookup_sys in L'. assert (e' = e) by congruence. subst. apply mild_refl. }
      destruct (ask_bytes RXMAX v y) as [junk y1]. destruct (add_fd v _ _) as [y2 e2]. cbn [snd kick fst] in *. assert (e' = e); [|subst; apply mild_refl].
      unfold lookup in L, L'. cbn in L'. rewrite nth_error_app1 in L'. { congruence. } apply nth_error_Some. destruct (nth_error (w_eps w) k); congruence.
    + unfold tcp_connection. destruct (ask v (w_sys w)) as [r y]. destruct (r <? 0); auto.
  - apply PLAIN; auto. cbn [kick]. destruct (put_lookup _ _ _ _ _ _ _ _ H L L') as [(-> & -> & ->)|(N & ->)]; auto using mild_refl.
    unfold mod_fd in H0. destruct (ask _ _). destruct (ep_poll e0). { destruct (_ <? 0); inversion H0; subst; repeat split; auto. } inversion H0; subst; apply mild_refl.
  - clear PLAIN. unfold timer_read in H. destruct (find_timer (w_sys w) t) as [tm|]; [|discriminate]. destruct (negb fired || tm_dead tm).
    { inversion H; subst. apply SAME; auto. }
    inv_bind H. inv_bind H. inversion H; subst. clear H.
    match goal with E : run_cb _ _ _ _ = Ok (?wa, ?la, _) |- _ => destruct (run_cb_life _ _ _ _ _ _ _ _ _ _ E L L' NL) as (e1 & s & K & S & P) end.
    exists e1, s, e'. split; [exact K|]. split; [exact S|]. split; [exact P|apply mild_refl].
  - apply PLAIN.
    + unfold process_hangups in H. destruct (w_hang w). 2:{ inversion H; subst. assert (e' = e) by congruence. subst. apply mild_refl. }
      inv_bind H. inversion H; subst; clear H. destruct (hangups_spec _ _ _ _ _ E (inv_sym _ I)) as (_ & _ & _ & D & F). subst its. change (lookup (set_hang (set_order w0 l0) false) k) with (lookup w0 k) in L'.
      rewrite F in L'. destruct (_ && _ && _); [discriminate|]. assert (e' = e) by congruence. subst. destruct (filter _ _); apply mild_refl.
    + unfold process_hangups in H. destruct (w_hang w). 2:{ inversion H; subst. auto. }
      inv_bind H. inversion H; subst; clear H. destruct (hangups_spec _ _ _ _ _ E (inv_sym _ I)) as (_ & _ & _ & D & F). subst its. clear. induction (filter _ _); auto.
Qed.
