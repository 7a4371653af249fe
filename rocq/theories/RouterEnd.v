(* The end of TCP connections: which endpoints become invalid, and which are removed. *)
From Coq Require Import Permutation.
From Verif Require Import Base Mav SpecCrc SpecFrame Frame FrameProofs FrameRefine FrameLink Dedup SpecAccept Accept AcceptProofs Names NamesProofs Sys LogFile LogFileProofs ULog Loggers LogInv LogStep LogMono RouterCtl Router
  RouterRoute RouterRoute2 RouterSetup RouterActs RouterInv RouterLearn RouterStep RouterStart RouterHist SpecRouter SpecLife RouterTrace RouterLife RouterLife2 RouterLife3 RouterTimers RouterTimers2 RouterLife5 SpecEnd.

Lemma ended_app : forall a b k, ended (a ++ b) k = ended a k || ended b k.
Proof. intros. apply existsb_app. Qed.

Lemma rx_room : forall x, rx_ok x -> needs_read x = true -> (RXMAX - rx_len x =? 0)%nat = false.
Proof.
  intros x [_ (s & (tl & _ & _ & E) & _ & HB & HI)] NR. unfold needs_read in NR. apply Nat.eqb_eq in NR. apply Nat.eqb_neq. rewrite E.
  destruct (HI NR) as [-> | HI']; [unfold RXMAX; simpl; lia|]. apply incomplete_short in HI'; auto. unfold RXMAX. lia.
Qed.

(* ---- an endpoint without reconnect interval --------------------------------------------------------------------- *)

Lemma one_valid : forall e d e' r vl, one e d e' -> ep_kind e = KTcp r vl -> r <= 0 -> ep_kind e' = KTcp r (vl && negb (epipe d)).
Proof.
  intros e d e' r vl (f & v & w & i & mem & m & w' & mem' & cs & L & D & L') K R. unfold deliver in D. inv_bind D. inv_bind D.
  match goal with E : write_ep _ _ _ _ _ _ _ = Ok (?a, ?b, ?c, ?d0, ?e0, ?f0) |- _ => rename a into y1; rename b into e1; rename c into mem1; rename d0 into ret; rename e0 into call; rename f0 into cs1; rename E into W end.
  destruct (if ret =? - EAGAIN then _ else _) as [[y2 e2] req] eqn:MF.
  assert (M : mild e1 e2). { destruct (ret =? - EAGAIN); [|inversion MF; subst; apply mild_refl]. destruct (mod_fd v y1 e1 true) as [[? ?] ?] eqn:MM. inversion MF; subst. eapply mod_fd_mild; eauto. }
  assert (DW : w' = (if ret =? - EPIPE then set_hang (put (set_sys w y2) i e2) true else put (set_sys w y2) i e2)) by congruence.
  match type of D with Ok (_, _, mkDel _ ?bs _ _, _) = _ => assert (DD : d = mkDel i bs call req) by congruence end. subst w' d. clear D. assert (e' = e2).
  { assert (X : lookup (put (set_sys w y2) i e2) i = Some e2) by (eapply lookup_put_eq; rewrite lookup_sys; eauto). revert L'. destruct (ret =? - EPIPE); intros L'; [change (lookup (put (set_sys w y2) i e2) i = Some e') in L'|]; congruence. }
  subst e'. clear L' MF. rewrite (proj1 M). unfold epipe. cbn [dl_call]. unfold write_ep in W. rewrite K in W.
  destruct (ep_fd e); cbn [negb] in W. 2:{ inversion W; subst. rewrite K, andb_true_r. auto. }
  destruct (os_write v (w_sys w) (Z.of_nat (m_len m))) as [q y3]. destruct (Z.ltb_spec q 0) as [Q|Q].
  - destruct (Z.eqb_spec q (- EPIPE)) as [P|P].
    + unfold tcp_lost in W. rewrite (proj2 (Z.ltb_ge 0 r)) in W by lia. inversion W; subst. rewrite Z.eqb_refl, andb_false_r. reflexivity.
    + inversion W; subst. rewrite (proj2 (Z.eqb_neq _ _) P), andb_true_r. auto.
  - inversion W; subst. assert (N : ret <> - EPIPE) by (unfold EPIPE; lia). rewrite (proj2 (Z.eqb_neq _ _) N), andb_true_r. auto.
Qed.
Lemma steps_valid : forall e l e', steps e l e' -> forall r vl, ep_kind e = KTcp r vl -> r <= 0 -> ep_kind e' = KTcp r (vl && negb (existsb epipe l)).
Proof.
  intros e l e' S. induction S as [e|e d e1 ds e2 O S IH]; intros r vl K R. { cbn. rewrite andb_true_r. auto. }
  pose proof (one_valid _ _ _ _ _ O K R) as K1. rewrite (IH _ _ K1 R). cbn [existsb]. f_equal. rewrite negb_orb, andb_assoc. auto.
Qed.

Lemma existsb_perm : forall A (p : A -> bool) l l', Permutation l l' -> existsb p l = existsb p l'.
Proof. intros A p l l' P. induction P; cbn; auto; [congruence| |congruence]. destruct (p x), (p y); auto. Qed.
Lemma existsb_flat : forall A B (g : A -> list B) p l, existsb p (flat_map g l) = existsb (fun x => existsb p (g x)) l.
Proof. induction l; auto. cbn. rewrite existsb_app, IHl. auto. Qed.
Lemma existsb_tok : forall k (p : delivery -> bool) l, existsb p (tok k l) = existsb (fun d => Nat.eqb (dl_to d) k && p d) l.
Proof. induction l as [|d l IH]; auto. unfold tok in *. cbn [filter existsb]. destruct (Nat.eqb (dl_to d) k); cbn [existsb andb orb]; rewrite IH; auto. Qed.
Lemma existsb_or : forall A (p q : A -> bool) l, existsb (fun x => p x || q x) l = existsb p l || existsb q l.
Proof. induction l as [|a l IH]; auto. cbn. rewrite IH. destruct (p a), (q a), (existsb p l); auto. Qed.
Lemma ended_split : forall h k, ended h k = existsb (eofb k) h || existsb epipe (sends h k).
Proof.
  intros h k. unfold ended, ends. rewrite existsb_or. f_equal. unfold sends. rewrite existsb_tok, existsb_flat. auto.
Qed.
Lemma quiet_eof : forall k l, Forall quiet l -> existsb (eofb k) l = false.
Proof. intros k l F. induction F; auto. cbn [existsb]. rewrite IHF. destruct H as [(? & ? & ? & ? & ->)|(? & ->)]; auto. Qed.

(* the read that reports the end of the connection *)
Lemma eof_lost : forall f v w i e o w' its, act f v w its w' -> Inv w -> its = [IRead i o] -> lookup w i = Some e -> forall r vl e', ep_kind e = KTcp r vl -> r <= 0 -> lookup w' i = Some e' ->
  ep_kind e' = KTcp r (vl && negb (eofb i (IRead i o))).
Proof.
  intros f v w i e o w' its A I -> L r vl e' K R L'. inversion A; subst.
  - match goal with X : needs_read _ = true |- _ => rename X into H4 end. match goal with X : os_read _ _ _ _ _ = _ |- _ => rename X into H6 end.
    assert (e0 = e) by congruence. subst e0. pose proof (rx_room _ (i_rx _ I _ _ L) H4) as RM. cbn [eofb]. rewrite Nat.eqb_refl. destruct o as [bs from| |n]; cbn [os_read] in H6.
    2,3: inversion H6; subst; rewrite andb_true_r; congruence.
    rewrite K in H6. destruct bs as [|b bs]. 2:{ inversion H6; subst. rewrite andb_true_r. congruence. }
    rewrite RM in H6. unfold tcp_lost in H6. rewrite (proj2 (Z.ltb_ge 0 r)) in H6 by lia. inversion H6; subst. erewrite lookup_put_eq in L' by (rewrite lookup_sys; eauto).
    inversion L'; subst. rewrite andb_false_r. reflexivity.
  - exfalso. match goal with X : handle_msg _ _ _ _ _ = _ |- _ => destruct (handle_inv _ _ _ _ _ _ _ X) as (? & ? & ? & ? & _ & _ & _ & CC) end.
    destruct CC as [(_ & _ & X)|[(_ & _ & _ & X)|(_ & _ & ? & ? & ? & ? & ? & ? & ? & _ & _ & _ & _ & _ & X)]]; discriminate.
  - exfalso. match goal with X : snd (tcp_connection _ _) = _ |- _ => rename X into H1 end. clear - H1. revert H1. unfold tcp_connection. destruct (ask v (w_sys w)) as [q y]. destruct (q <? 0); [discriminate|]. destruct (ask_bytes RXMAX v y), (add_fd v _ _). discriminate.
  - exfalso. match goal with X : timer_read _ _ _ _ _ = _ |- _ => rename X into H end. unfold timer_read in H. destruct (find_timer (w_sys w) t) as [tm|]; [|discriminate]. destruct (negb fired || tm_dead tm). { discriminate. } inv_bind H. inv_bind H. discriminate.
  - exfalso. match goal with X : process_hangups _ = _ |- _ => rename X into H end. unfold process_hangups in H. destruct (w_hang w); [|discriminate]. inv_bind H. inversion H; subst; clear H. destruct (hangups_spec _ _ _ _ _ E (inv_sym _ I)) as (_ & _ & _ & D & _).
    destruct (filter _ _); discriminate.
Qed.

Lemma mild_kind : forall e e', mild e e' -> ep_kind e' = ep_kind e.
Proof. intros e e' M. apply M. Qed.

(* one act *)
Lemma act_valid : forall f v arm w its w' k e e' r vl, wf_table (v_tbl v) -> act f v w its w' -> Inv w -> T v arm w -> lookup w k = Some e -> lookup w' k = Some e' ->
  ep_kind e = KTcp r vl -> r <= 0 -> ep_kind e' = KTcp r (vl && negb (ended its k)).
Proof.
  intros f v arm w its w' k e e' r vl WT A I Tw L L' K R.
  assert (NL : is_log e = false) by (unfold is_log; rewrite K; auto).
  destruct (act_life _ _ _ _ _ _ _ _ WT A I L L' NL) as (e1 & s & e2 & KI & ST & PE & MI). destruct (act_shape _ _ _ _ _ WT A I) as [SH _].
  rewrite ended_split. rewrite <- (existsb_perm _ epipe _ _ PE).
  assert (K1 : existsb (eofb k) its = false -> ep_kind e1 = KTcp r vl -> ep_kind e' = KTcp r (vl && negb (existsb (eofb k) its || existsb epipe s))).
  { intros -> K1. cbn [orb]. rewrite (mild_kind _ _ MI). eapply steps_valid; eauto. }
  destruct its as [|x its]. { apply K1; auto. rewrite (mild_kind _ _ KI). auto. }
  assert (Q : Forall quiet its). { apply Forall_forall. intros y Y. eapply SH; eauto. } cbn [existsb] in *. rewrite (quiet_eof k its Q), orb_false_r in *.
  destruct x as [i o|i bs m d ds|i bs m ds|t cb|i|i]; cbn [kick] in KI.
  - destruct (Nat.eqb_spec i k) as [->|N].
    + assert (its = []).
      { inversion A; subst; auto.
        - exfalso. match goal with X : handle_msg _ _ _ _ _ = _ |- _ => destruct (handle_inv _ _ _ _ _ _ _ X) as (? & ? & ? & ? & _ & _ & _ & CC) end.
          destruct CC as [(_ & _ & X)|[(_ & _ & _ & X)|(_ & _ & ? & ? & ? & ? & ? & ? & ? & _ & _ & _ & _ & _ & X)]]; discriminate.
        - exfalso. match goal with X : snd (tcp_connection _ _) = _ |- _ => rename X into H1 end. clear - H1. revert H1. unfold tcp_connection. destruct (ask v (w_sys w)) as [q y]. destruct (q <? 0); [discriminate|]. destruct (ask_bytes RXMAX v y), (add_fd v _ _). discriminate.
        - exfalso. match goal with X : timer_read _ _ _ _ _ = _ |- _ => rename X into H end. unfold timer_read in H. destruct (find_timer (w_sys w) t) as [tm|]; [|discriminate]. destruct (negb fired || tm_dead tm). { discriminate. } inv_bind H. inv_bind H. discriminate.
        - exfalso. match goal with X : process_hangups _ = _ |- _ => rename X into H end. unfold process_hangups in H. destruct (w_hang w); [|discriminate]. inv_bind H. inversion H; subst; clear H. destruct (hangups_spec _ _ _ _ _ E (inv_sym _ I)) as (_ & _ & _ & D & _).
          destruct (filter _ _); discriminate. }
      subst its. assert (s = []). { cbn in PE. apply Permutation_sym, Permutation_nil in PE. auto. } subst s. cbn [existsb]. rewrite orb_false_r. eapply eof_lost; eauto.
    + apply K1; [|rewrite (mild_kind _ _ KI); auto]. cbn [eofb]. destruct o as [[|? ?] ?| |?]; auto. apply Nat.eqb_neq; auto.
  - apply K1; auto. destruct (Nat.eqb i k); [|rewrite (mild_kind _ _ KI); auto]. unfold recv_kick in KI. rewrite K in KI. rewrite (mild_kind _ _ KI); auto.
  - apply K1; auto. rewrite (mild_kind _ _ KI); auto.
  - apply K1; auto. destruct cb as [| |i|i|i|i|i|i]; cbn [fire_kick] in KI; try (specialize (KI NL); rewrite (mild_kind _ _ KI); auto; fail).
    + destruct KI as [-> _]. auto.
    + destruct (Nat.eqb i k); [rewrite K in KI; destruct KI|rewrite (mild_kind _ _ KI); auto].
    + destruct (Nat.eqb i k); [rewrite K in KI; destruct KI|rewrite (mild_kind _ _ KI); auto].
    + destruct (Nat.eqb_spec i k) as [->|N]; [|rewrite (mild_kind _ _ KI); auto]. exfalso.
      destruct (act_fired _ _ _ _ _ _ _ WT A I (or_introl eq_refl)) as (tm & AL & E & CB). destruct (t_ep _ _ _ Tw k e L) as [_ HT]. rewrite K in HT.
      destruct HT as (_ & HT & _). destruct (HT tm AL CB) as (_ & P & _). lia.
  - apply K1; auto. rewrite (mild_kind _ _ KI); auto.
  - apply K1; auto. rewrite (mild_kind _ _ KI); auto.
Qed.

(* ---- the flag that asks for removal ------------------------------------------------------------------------------- *)

Definition is_tcp_at (w : world) (k : nat) : Prop := exists e r vl, lookup w k = Some e /\ ep_kind e = KTcp r vl.
Lemma tcp_routed : forall w w' k, routed w w' -> is_tcp_at w k -> is_tcp_at w' k.
Proof.
  intros w w' k R (e & r & vl & L & K). pose proof (ro_ep _ _ R k) as S. rewrite L in S. destruct (lookup w' k) as [e'|] eqn:L'; [|destruct S].
  pose proof (kept_same _ _ S) as KE. pose proof (ke_kind _ _ KE) as C. rewrite K in C. unfold is_tcp_at. rewrite L'. destruct (ep_kind e') as [| |r2 v2|] eqn:K2; cbn in C; try contradiction. eauto.
Qed.

(* writes that fail with EPIPE on a TCP endpoint set the flag, nothing clears it *)
Definition flags (w w' : world) (l : list delivery) : Prop :=
  (w_hang w = true -> w_hang w' = true) /\ (forall d, In d l -> epipe d = true -> is_tcp_at w (dl_to d) -> w_hang w' = true).
Lemma flags_refl : forall w, flags w w [].
Proof. split; [auto|intros d []]. Qed.
Lemma flags_trans : forall a b c l l', routed a b -> flags a b l -> flags b c l' -> flags a c (l ++ l').
Proof.
  intros a b c l l' R [A1 A2] [B1 B2]. split; auto. intros d D E TC. apply in_app_or in D. destruct D as [D|D]; eauto. apply (B2 d D E). eapply tcp_routed; eauto.
Qed.
Lemma flags_perm : forall a b l l', flags a b l -> Permutation l l' -> flags a b l'.
Proof. intros a b l l' [A B] P. split; auto. intros d D. apply B. eapply Permutation_in; [apply Permutation_sym; eauto|auto]. Qed.

Lemma deliver_flags : forall f v w i e mem m w' mem' d cs, deliver f v w i e mem m = Ok (w', mem', d, cs) -> lookup w i = Some e -> flags w w' [d].
Proof.
  intros f v w i e mem m w' mem' d cs D L. unfold deliver in D. inv_bind D. inv_bind D.
  match goal with E : write_ep _ _ _ _ _ _ _ = Ok (?a, ?b, ?c, ?d0, ?e0, ?f0) |- _ => rename a into y1; rename b into e1; rename c into mem1; rename d0 into ret; rename e0 into call; rename f0 into cs1; rename E into W end.
  destruct (if ret =? - EAGAIN then _ else _) as [[y2 e2] req] eqn:MF. injection D as <- <- <- <-. split.
  - intros H. match goal with |- w_hang (if ?b then _ else _) = _ => destruct b end; auto.
  - intros d [<-|[]] EP (e3 & r & vl & L3 & K). cbn [dl_to] in L3. assert (e3 = e) by congruence. subst e3. unfold epipe in EP. cbn [dl_call] in EP. unfold write_ep in W. rewrite K in W.
    destruct (ep_fd e); cbn [negb] in W. 2:{ inversion W; subst. discriminate. }
    destruct (os_write v (w_sys w) (Z.of_nat (m_len m))) as [q y3]. destruct (q <? 0) eqn:Q.
    + destruct (if q =? - EPIPE then _ else _). inversion W; subst. change (- EPIPE) with (-32) in EP. rewrite EP. reflexivity.
    + inversion W; subst. apply Z.eqb_eq in EP. unfold EPIPE in EP. lia.
Qed.

Definition sub_flags (sub : world -> ctl -> res (world * list delivery * list item)) : Prop :=
  forall w c w' ds its, sub w c = Ok (w', ds, its) -> flags w w' (ds ++ flat_map made its).
Lemma ctls_flags : forall sub, sub_routed sub -> sub_flags sub -> forall cs w i w' its, route_ctls sub w i cs = Ok (w', its) -> flags w w' (flat_map made its).
Proof.
  intros sub SR S. induction cs as [|c cs IH]; intros w i w' its H; cbn [route_ctls] in H.
  - inversion H; subst. apply flags_refl.
  - inv_bind H. inv_bind H. inversion H; subst. cbn [flat_map made]. rewrite made_app, app_assoc. eapply flags_trans; eauto.
Qed.
Lemma each_flags : forall sub f v, sub_routed sub -> sub_flags sub -> forall order w mem m u w' mem' ds its u',
  route_each sub f v w order mem m u = Ok (w', mem', ds, its, u') -> flags w w' (ds ++ flat_map made its).
Proof.
  intros sub f v SR S. induction order as [|i r IH]; intros w mem m u w' mem' ds its u' H.
  - cbn [route_each] in H. inversion H; subst. apply flags_refl.
  - rewrite route_each_cons in H. inv_bind H. apply get_lookup in E. destruct (accept_msg _ _ _ _); eauto.
    inv_bind H. inv_bind H. inv_bind H. inversion H; subst; clear H.
    pose proof (deliver_flags _ _ _ _ _ _ _ _ _ _ _ E0 E) as M1. destruct (deliver_spec _ _ _ _ _ _ _ _ _ _ _ E0 E) as (R1 & _). pose proof (ctls_flags _ SR S _ _ _ _ _ E1) as M2. pose proof (ctls_routed _ SR _ _ _ _ _ E1) as R2.
    pose proof (IH _ _ _ _ _ _ _ _ _ E2) as M3.
    eapply flags_perm. { eapply flags_trans; [|eapply flags_trans; [exact R1|exact M1|exact M2]|exact M3]. eapply routed_trans; eauto. }
    rewrite made_app. cbn [app]. constructor. apply Permutation_app_swap_app.
Qed.
Lemma route_flags : forall n f v w mem m w' mem' ds its, route n f v w mem m = Ok (w', mem', ds, its) -> flags w w' (ds ++ flat_map made its).
Proof.
  induction n; intros f v w mem m w' mem' ds its H; [discriminate|]. rewrite route_S in H. inv_bind H.
  assert (S : sub_flags (nested n f v)).
  { intros w1 c w2 ds2 its2 X. unfold nested in X. inv_bind X. inversion X; subst. eapply IHn; eauto. }
  apply (each_flags _ _ _ (nested_routed n f v) S) in E. inversion H; subst. match goal with |- flags _ (if ?b then _ else _) _ => destruct b end; auto.
Qed.
Lemma nested_flags : forall k f v, sub_flags (nested k f v).
Proof. intros k f v w c w' ds its X. unfold nested in X. inv_bind X. inversion X; subst. eapply route_flags; eauto. Qed.

Lemma hang_learn : forall n w i id w', learn n w i id = Ok w' -> w_hang w' = w_hang w.
Proof.
  induction n; intros w i id w' H; [discriminate|]. cbn [learn] in H. inv_bind H.
  destruct (contains _ _). { inversion H; subst. auto. }
  assert (A : w_hang (put w i (set_ids a (ep_ids a ++ [id]))) = w_hang w) by reflexivity. rewrite <- A. clear A E. revert H.
  generalize (put w i (set_ids a (ep_ids a ++ [id]))). generalize (ep_members a).
  induction l as [|j r IHr]; intros x H. { inversion H; subst. auto. }
  inv_bind H. rewrite <- (IHn _ _ _ _ E). eapply IHr; eauto.
Qed.
Lemma hang_aggregate : forall w w', cb_aggregate w = Ok w' -> w_hang w' = w_hang w.
Proof.
  intros w w' H. unfold cb_aggregate in H. change (w_hang w) with (w_hang (set_unknown w 0)). generalize dependent (set_unknown w 0). generalize (w_order w).
  assert (NU : forall l (s : res world), (forall u, s <> Ok u) -> forall u', fold_left (fun rw i => let* w := rw in let* e := get w i in Ok (put w i (set_wstat e (ep_wtotal e) (ep_wbytes e) 0))) l s <> Ok u').
  { induction l; intros s N u'; cbn [fold_left]; [apply N|]. apply IHl. intros u. destruct s as [z| |]; cbn; [exfalso; exact (N z eq_refl)|discriminate|discriminate]. }
  induction l as [|i l IH]; intros u H; cbn [fold_left] in H. { inversion H; auto. }
  cbn [bind] in H. destruct (get u i) as [e| |]; cbn [bind] in H; try (exfalso; eapply NU; [|exact H]; intros; discriminate). apply IH in H. exact H.
Qed.

Lemma flags_from : forall w w1 w' l, w_hang w1 = w_hang w -> (forall k, is_tcp_at w k -> is_tcp_at w1 k) -> flags w1 w' l -> flags w w' l.
Proof. intros w w1 w' l H T [A B]. split. { intros X. apply A. congruence. } intros d D E K. eauto. Qed.
Lemma flags_none : forall w w', w_hang w' = w_hang w -> flags w w' [].
Proof. intros w w' H. split. { congruence. } intros d []. Qed.

Lemma flags_cb : forall f v w cb w' its again, run_cb f v w cb = Ok (w', its, again) -> flags w w' (flat_map made its).
Proof.
  intros f v w cb w' its again H.
  assert (LG : forall i kk, log_cb w i kk f v = Ok (w', its, again) -> flags w w' (flat_map made its)).
  { intros i kk X. unfold log_cb in X. inv_bind X.
    assert (GO : forall y l l0 cs, ep_kind a = KLog l0 -> route_ctls (route_sub f v) (put (set_sys w y) i (set_kind a (KLog l))) i cs = Ok (w', its) -> flags w w' (flat_map made its)).
    { intros y l l0 cs K R. change (route_sub f v) with (nested 2 f v) in R. eapply flags_from; [|intros k TC|eapply ctls_flags; eauto using nested_routed, nested_flags]; auto.
      apply get_lookup in E. destruct TC as (e & r & vl & L & KE). exists e, r, vl. split; auto. assert (NE : i <> k) by (intros ->; congruence). rewrite lookup_put_neq; auto. }
    destruct (ep_kind a) as [| | |[g b|q]] eqn:K; try discriminate; [|destruct (a_inner q) as [[g b]|]; try discriminate]; inv_bind X; inv_bind X; inversion X; subst; eapply GO; eauto. }
  destruct cb; cbn [run_cb] in H; try (eapply LG; eauto; fail).
  - inv_bind H. inversion H; subst. apply flags_none. eapply hang_aggregate; eauto.
  - inversion H; subst. apply flags_refl.
  - inv_bind H. inversion H; subst. apply flags_none. unfold cb_baud in E. inv_bind E. destruct (ep_kind a) as [[|b0 bs] ? ?| | |]; try discriminate. destruct (ask _ _). inversion E; subst. reflexivity.
  - inv_bind H. inversion H; subst. apply flags_none. unfold cb_nomsg in E. inv_bind E. destruct (ep_kind a) as [|? ? [?|]| |]; try discriminate. inv_bind E. inversion E; subst. reflexivity.
  - inv_bind H. inversion H; subst. apply flags_none. unfold cb_retry in E. inv_bind E. destruct (ep_kind a); try discriminate. destruct (ask _ _). destruct (_ <? 0). { inversion E; subst. reflexivity. }
    destruct (add_fd _ _ _). inversion E; subst. reflexivity.
Qed.

Lemma tcp_kept : forall w w' k, kept w w' -> is_tcp_at w k -> is_tcp_at w' k.
Proof.
  intros w w' k KP (e & r & vl & L & K). destruct (kept_lookup _ _ _ _ KP L) as (e' & L' & KE). pose proof (ke_kind _ _ KE) as C. rewrite K in C. unfold is_tcp_at. rewrite L'.
  destruct (ep_kind e') as [| |r2 v2|] eqn:K2; cbn in C; try contradiction. eauto.
Qed.

(* every act except the removal itself *)
Lemma act_flags : forall f v w its w', wf_table (v_tbl v) -> act f v w its w' -> Inv w ->
  (process_hangups w = Ok (w', its)) \/ flags w w' (flat_map made its).
Proof.
  intros f v w its w' WT A I. inversion A; subst.
  - right. apply flags_none. match goal with H : os_read _ _ _ _ _ = _ |- _ => unfold os_read in H; destruct o as [bs from| |n]; try (inversion H; subst; auto; fail); destruct (ep_kind e); try (inversion H; subst; auto; fail);
      [inv_bind H; inversion H; subst; reflexivity|destruct bs; [|inversion H; subst; auto]; destruct (_ =? 0)%nat; [inversion H; subst; auto|]; destruct (tcp_lost _ _ _ _ _); inversion H; subst; reflexivity] end.
  - right. apply flags_none. auto.
  - right. destruct (recv_before f v w i e rr x st known m w1 WT I H H0 H1 H2 H3 _ _ H4) as (K & DD & _).
    assert (H1' : w_hang w1 = w_hang w).
    { destruct known; [|inversion H3; subst; auto]. unfold keep_baud in H3. destruct (ep_kind (set_rx e x st)) as [b c [t|]|c pe p|r vl|l]; try (inversion H3; subst; auto; fail). inv_bind H3. inversion H3; subst. reflexivity. }
    eapply flags_from; [exact H1'|intros k; apply tcp_kept; auto|]. clear H1'. assert (I1 : Inv w1) by (eapply kept_inv; eauto).
    destruct (handle_inv _ _ _ _ _ _ _ H4) as (e1 & pkt & w2 & fresh & L & SL & CD & C).
    assert (CH : w_hang w2 = w_hang w1). { unfold check_dup in CD. destruct (_ =? 0). { inversion CD; subst. auto. } destruct (ask v (w_sys w1)). inv_bind CD. inversion CD; subst. reflexivity. }
    destruct (check_dup_eps _ _ _ _ _ CD) as [EE KD].
    destruct C as [(_ & -> & ->)|[(_ & _ & -> & ->)|(_ & _ & w3 & e2 & w4 & mem & ds & its' & e3 & LE & L2 & RT & L3 & -> & ->)]].
    + cbn. apply flags_none; auto.
    + cbn. apply flags_none; auto.
    + eapply flags_from; [exact CH|intros k; apply tcp_kept; auto|]. assert (I2 : Inv w2) by (eapply kept_inv; eauto).
      assert (L2' : exists ei, lookup w2 i = Some ei). { unfold lookup in L |- *. rewrite EE. eauto. } destruct L2' as (ei & L2').
      destruct (learn_exact _ _ _ _ _ _ LE I2 L2') as [TT _].
      eapply flags_from; [eapply hang_learn; eauto| |]. { intros k (e5 & r & vl & L5 & K5). destruct (taught_lookup _ _ _ _ _ TT L5) as (e6 & L6 & TE). apply mild_taught in TE. exists e6, r, vl. split; auto. rewrite (mild_kind _ _ TE). auto. }
      pose proof (route_flags _ _ _ _ _ _ _ _ _ _ RT) as [F1 F2]. split; auto.
  - right. replace (flat_map made (snd (tcp_connection v w))) with (@nil delivery). 2:{ clear. unfold tcp_connection. destruct (ask v (w_sys w)) as [r y]. destruct (r <? 0); auto. }
    apply flags_none. clear. unfold tcp_connection. destruct (ask v (w_sys w)) as [r y]. destruct (r <? 0); auto.
  - right. apply flags_none. auto.
  - right. unfold timer_read in H. destruct (find_timer (w_sys w) t) as [x|]; [|discriminate]. destruct (_ || _). { inversion H; subst. apply flags_refl. }
    inv_bind H. inv_bind H. inversion H; subst. match goal with R : run_cb _ _ _ _ = _ |- _ => apply flags_cb in R; destruct R as [R1 R2]; split; auto end.
  - right. apply flags_none. auto.
  - right. split; auto.
  - left. auto.
  - right. apply flags_none. auto.
Qed.
