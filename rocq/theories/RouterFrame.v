(* Framing on the links of the running program. *)
From Verif Require Import Base Mav SpecCrc SpecFrame Frame FrameProofs FrameRefine FrameLink Dedup SpecAccept Accept AcceptProofs Names Sys LogFile LogFileProofs ULog Loggers LogInv LogStep RouterCtl Router
  RouterRoute RouterRoute2 RouterSetup RouterActs RouterInv RouterLearn RouterStep RouterStart RouterHist SpecRouter RouterTrace RouterBytes RouterTimers2 SpecLink.

(* ---- the relation ------------------------------------------------------------------------------------------ *)

Lemma framing_trans : forall tbl s l ps r, framing tbl s l ps r -> forall l' ps' t, framing tbl r l' ps' t -> framing tbl s (l ++ l') (ps ++ ps') t.
Proof. 
  induction 1; intros l' ps' t F; cbn [app]; auto.
  - eapply fr_data; eauto.
  - apply fr_skip; auto.
  - apply fr_bad; auto.
  - apply fr_packet; auto.
Qed.
Lemma framing_split : forall tbl s l ps r, framing tbl s l ps r -> forall l1 l2, l = l1 ++ l2 ->
  exists u ps1 ps2, ps = ps1 ++ ps2 /\ framing tbl s l1 ps1 u /\ framing tbl u l2 ps2 r.
Proof.
  induction 1; intros l1 l2 E.
  - symmetry in E. apply app_eq_nil in E. destruct E; subst. exists s, [], []. repeat split; constructor.
  - destruct l1 as [|x l1]; cbn [app] in E. { subst l2. exists s, [], ps. split; [auto|]. split; [apply fr_end|eapply fr_data; eauto]. }
    injection E as <- ->. destruct (IHframing _ _ eq_refl) as (u & p1 & p2 & A & B & C). exists u, p1, p2. split; [auto|]. split; [eapply fr_data; eauto|auto].
  - destruct (IHframing _ _ E) as (u & p1 & p2 & A & B & C). exists u, p1, p2. split; [auto|]. split; [apply fr_skip; auto|auto].
  - destruct (IHframing _ _ E) as (u & p1 & p2 & A & B & C). exists u, (p :: p1), p2. split; [cbn; congruence|]. split; [apply fr_bad; auto|auto].
  - destruct l1 as [|x l1]; cbn [app] in E. { subst l2. exists (encode p ++ s), [], (p :: ps). split; [auto|]. split; [apply fr_end|apply fr_packet; auto]. }
    injection E as <- ->. destruct (IHframing _ _ eq_refl) as (u & p1 & p2 & A & B & C). exists u, (p :: p1), p2. split; [cbn; congruence|]. split; [apply fr_packet; auto|auto].
Qed.
Definition chunk_of (c bs : list Z) : Prop := exists n, c = firstn n bs /\ (840 <= n)%nat.
Lemma framing_parsed : forall tbl s l ps r, framing tbl s l ps r -> exists chunks,
  Forall2 chunk_of chunks (datas l) /\ parsed (s ++ concat chunks) ps r /\ packets l = map encode (filter (acceptableb tbl) ps).
Proof.
  induction 1.
  - exists []. split; [constructor|]. split; [|reflexivity]. cbn [concat]. rewrite app_nil_r. constructor.
  - destruct IHframing as (ch & A & B & C). exists (firstn n bs :: ch). split; [constructor; auto; exists n; auto|]. split; [|exact C]. cbn [concat]. rewrite app_assoc. exact B.
  - destruct IHframing as (ch & A & B & C). exists ch. split; auto. split; auto. cbn [app]. constructor; auto.
  - destruct IHframing as (ch & A & B & C). exists ch. split; auto. split. { rewrite <- app_assoc. constructor; auto. }
    cbn [filter]. destruct (acceptableb tbl p) eqn:E; auto. apply acceptableb_true in E. contradiction.
  - destruct IHframing as (ch & A & B & C). exists ch. split; auto. split. { rewrite <- app_assoc. constructor; auto. }
    cbn [filter]. rewrite (proj2 (acceptableb_true _ _) H0). cbn [map]. unfold packets in *. cbn [flat_map app]. congruence.
Qed.
Lemma junk_framing : forall tbl s l ps r, framing tbl (drop_junk s) l ps r -> framing tbl s l ps r.
Proof. intros tbl s. induction s as [|b s IH]; intros l ps r F; auto. cbn [drop_junk] in F. destruct (is_stx b) eqn:E; auto. apply fr_skip; auto. apply is_stx_not_marker; auto. Qed.

Lemma levs_app : forall a b k, levs (a ++ b) k = levs a k ++ levs b k.
Proof. intros. unfold levs. apply flat_map_app. Qed.
Lemma levs_none : forall its k, no_recv its -> (forall i o, ~ In (IRead i o) its) -> levs its k = [].
Proof.
  intros its k N R. induction its as [|x r IH]; auto. unfold levs in *. cbn [flat_map]. rewrite IH.
  - destruct x; auto; exfalso. { eapply R; left; eauto. } { specialize (N _ (or_introl eq_refl)). discriminate N. }
  - intros y Y. apply N. right; auto.
  - intros i o Y. apply (R i o). right; auto.
Qed.

(* ---- one call of read_msg ------------------------------------------------------------------------------------ *)

Definition fed (rr : rdres) : list (list Z) := match rr with RdBytes a => [a] | RdFail _ => [] end.

Lemma idle_room : forall x s, good x s -> needs_read x = true -> (length s + 840 <= RXMAX)%nat.
Proof.
  intros x s (_ & _ & HB & HI) NR. unfold needs_read in NR. apply Nat.eqb_eq in NR. destruct (HI NR) as [-> | I].
  - apply Nat.leb_le. reflexivity.
  - destruct (incomplete_extends _ HB I) as (p & m & Hp & Ep & Nm). pose proof (encode_length_bounds p Hp) as L.
    assert (X : (length s <= length (encode p))%nat) by (rewrite Ep, app_length; lia). replace RXMAX with (280 * 4)%nat by (apply Nat.eqb_eq; reflexivity). lia.
Qed.

Lemma taken_chunk : forall x s rr, good x s -> (fed rr <> [] -> needs_read x = true) ->
  forall tbl l ps r, framing tbl (rest_of x s ++ taken x s rr) l ps r -> framing tbl (rest_of x s) (map LData (fed rr) ++ l) ps r.
Proof.
  intros x s rr G N tbl l ps r F. destruct rr as [a|q]; cbn [fed map app taken] in *.
  - rewrite N in F by discriminate. pose proof (idle_room x s G (N ltac:(discriminate))) as RM. pose proof (N ltac:(discriminate)) as NR. unfold needs_read in NR. apply Nat.eqb_eq in NR. apply fr_data with (n := (RXMAX - length s)%nat); auto; [lia|].
    intros _. split. { unfold rest_of. rewrite NR. cbn [skipn]. eapply idle_segments; eauto. } unfold rest_of. rewrite NR. cbn [skipn]. replace 1120%nat with RXMAX by (apply Nat.eqb_eq; reflexivity). lia.
  - rewrite app_nil_r in F. auto.
Qed.

Lemma call_framing : forall tbl x s st rr x' st' r, wf_table tbl -> good x s -> wf_rd rr -> (fed rr <> [] -> needs_read x = true) ->
  read_msg tbl x st rr = Ok (x', st', r) ->
  exists s', good x' s' /\
  match r with
  | RetNone _ => exists ps, framing tbl (rest_of x s) (map LData (fed rr)) ps (rest_of x' s') /\ st' = stats_after tbl st ps /\
      (rx_last x' <> 0%nat -> exists p, ps = [p] /\ ~ acceptable tbl p)
  | RetMsg known m => exists p, wf_packet p /\ m = info_of tbl p /\ rx_last x' <> 0%nat /\ slice (rx_data x') 0 (m_len m) = Ok (encode p) /\
      framing tbl (rest_of x s) (map LData (fed rr) ++ [LPacket (encode p)]) [p] (rest_of x' s') /\ st' = stats_after tbl st [p]
  end.
Proof.
  intros tbl x s st rr x' st' r WT G W N H. destruct (read_msg_step tbl x s st rr WT G W) as (x1 & st1 & r1 & E & O). rewrite H in E. injection E as <- <- <-.
  assert (B : bytes (drop_junk (rest_of x s ++ taken x s rr))).
  { destruct G as (_ & _ & HB & _). apply drop_junk_bytes. apply bytes_app. split; [apply bytes_skipn; auto|]. unfold taken. destruct rr as [a|q]; [|constructor].
    destruct (needs_read x); [apply bytes_firstn; exact W|constructor]. }
  exists (drop_junk (rest_of x s ++ taken x s rr)). split; [eapply outcome_good; eauto|].
  remember (drop_junk (rest_of x s ++ taken x s rr)) as t eqn:ET. inversion O; subst x'0 st' r.
  - exists []. split. { rewrite <- (app_nil_r (map LData _)). apply taken_chunk; auto. apply junk_framing. rewrite <- ET. unfold rest_of. rewrite H1. apply fr_end. }
    split; auto. intros X. contradiction.
  - exists [p]. split. { rewrite <- (app_nil_r (map LData _)). apply taken_chunk; auto. apply junk_framing. rewrite <- ET, H2 at 1. rewrite H2, rest_of_last by auto. apply fr_bad; auto. apply fr_end. }
    split. { unfold stats_after. cbn [fold_left]. destruct (acceptableb tbl p) eqn:A; auto. apply acceptableb_true in A. contradiction. }
    intros _. exists p. auto.
  - exists p. rewrite H2 in H0. split; auto. split; auto. split. { rewrite H3. pose proof (encode_length_bounds p H1). lia. }
    split. { change (m_len (info_of tbl p)) with (length (encode p)). eapply holds_slice; eauto. }
    split. { apply taken_chunk; auto. apply junk_framing. rewrite <- ET, H2 at 1. rewrite H2, rest_of_last by auto. apply fr_packet; auto. apply fr_end. }
    unfold stats_after. cbn [fold_left]. rewrite (proj2 (acceptableb_true _ _) H4). auto.
Qed.

(* ---- what leaves the receive buffers alone ---------------------------------------------------------------------- *)

Definition link_of (e : ep) : rx * rstat * bool * bool := (ep_rx e, ep_rstat e, is_tcp e, is_tcp e || ep_fd e).
Definition quiet (w w' : world) : Prop :=
  (length (w_eps w) <= length (w_eps w'))%nat /\
  forall k e', lookup w' k = Some e' -> (exists e, lookup w k = Some e /\ link_of e' = link_of e) \/
    ((length (w_eps w) <= k)%nat /\ exists junk, length junk = RXMAX /\ link_of e' = (rx_fresh junk, rstat0, true, true)).

Lemma quiet_eps : forall w w', w_eps w' = w_eps w -> quiet w w'.
Proof. intros w w' E. split. { rewrite E; auto. } intros k e' L. left. exists e'. split; auto. rewrite <- L. symmetry. apply lookup_same_eps; auto. Qed.
Lemma quiet_refl : forall w, quiet w w.
Proof. intros. apply quiet_eps; auto. Qed.
Lemma quiet_trans : forall a b c, quiet a b -> quiet b c -> quiet a c.
Proof.
  intros a b c [L1 A] [L2 B]. split; [lia|]. intros k e' L. destruct (B _ _ L) as [(e & L0 & E)|(K & J)].
  - destruct (A _ _ L0) as [(e0 & L00 & E0)|(K & J)]; [left; exists e0; split; auto; congruence|right; split; auto; rewrite E; auto].
  - right. split; auto. lia.
Qed.
Lemma quiet_put0 : forall w i e e', lookup w i = Some e -> link_of e' = link_of e -> quiet w (put w i e').
Proof.
  intros w i e e' L E. split. { unfold put. cbn. rewrite set_nth_length. auto. } intros k x X. left. destruct (Nat.eq_dec k i) as [->|N].
  - rewrite (lookup_put_eq _ _ _ _ L) in X. inversion X; subst. eauto.
  - rewrite lookup_put_neq in X by auto. eauto.
Qed.
Lemma quiet_put : forall w y i e e', lookup w i = Some e -> link_of e' = link_of e -> quiet w (put (set_sys w y) i e').
Proof. intros. eapply quiet_trans; [apply (quiet_eps w (set_sys w y)); reflexivity|]. eapply quiet_put0; eauto. Qed.
Lemma tcp_kind : forall k k', same_kind k k' -> (match k' with KTcp _ _ => true | _ => false end) = match k with KTcp _ _ => true | _ => false end.
Proof. intros k k' H. apply class_same in H. destruct k as [| | |[]], k' as [| | |[]]; cbn in *; tauto. Qed.
Lemma same_link : forall e e', same_ep e e' -> link_of e' = link_of e.
Proof.
  intros e e' S. assert (T : is_tcp e' = is_tcp e) by (unfold is_tcp; apply tcp_kind, S). unfold link_of. rewrite (se_rx _ _ S), (se_rstat _ _ S), T. f_equal.
  destruct (is_tcp e) eqn:X; auto. cbn [orb]. apply S; auto.
Qed.
Lemma quiet_routed : forall w w', routed w w' -> quiet w w'.
Proof.
  intros w w' R. split. { rewrite (ro_len _ _ R). auto. } intros k e' L. left. pose proof (ro_ep _ _ R k) as X. rewrite L in X. destruct (lookup w k) as [e|]; [|destruct X].
  exists e. split; auto. apply same_link, X.
Qed.
Lemma quiet_os : forall v w i e o w' rr, os_read v w i e o = Ok (w', rr) -> lookup w i = Some e -> quiet w w'.
Proof.
  intros v w i e o w' rr H L. destruct o as [bs from| |n]; cbn [os_read] in H. 2,3: (injection H as <- <-; apply quiet_refl).
  destruct (ep_kind e) as [bd cu tm|conf peer tm|retry vl|l] eqn:K.
  - inversion H; subst. apply quiet_refl.
  - inv_bind H. inversion H; subst. eapply quiet_put; [eauto|]. unfold link_of, is_tcp. cbn. rewrite K. auto.
  - destruct bs.
    + destruct (_ =? 0)%nat. { inversion H; subst. apply quiet_refl. }
      destruct (tcp_lost v (w_sys w) i e retry) as [y1 e1] eqn:T. inversion H; subst. eapply quiet_put; eauto. apply same_link. eapply same_lost; eauto.
    + inversion H; subst. apply quiet_refl.
  - inversion H; subst. apply quiet_refl.
Qed.
Lemma quiet_baud : forall w i e w', keep_baud w i e = Ok w' -> lookup w i = Some e -> quiet w w'.
Proof.
  intros w i e w' H L. unfold keep_baud in H. destruct (ep_kind e) as [bd cu [t|]|? ? ?|? ?|?] eqn:K; try (inversion H; subst; apply quiet_refl).
  inv_bind H. inversion H; subst. eapply quiet_put; [eauto|]. unfold link_of, is_tcp. cbn. rewrite K. auto.
Qed.
Lemma quiet_mod_fd : forall v y e b y' e' r, mod_fd v y e b = (y', e', r) -> link_of e' = link_of e.
Proof. intros v y e b y' e' r H. unfold mod_fd in H. destruct (ask v y) as [a y1]. destruct (ep_poll e); [destruct (a <? 0)|]; inversion H; subst; auto. Qed.
Lemma quiet_aggregate : forall w w', cb_aggregate w = Ok w' -> quiet w w'.
Proof.
  intros w w' H. unfold cb_aggregate in H.
  assert (K : forall l u u', fold_left (fun rw i => let* w := rw in let* e := get w i in Ok (put w i (set_wstat e (ep_wtotal e) (ep_wbytes e) 0))) l (Ok u) = Ok u' -> quiet u u').
  { assert (NU : forall l (s : res world), (forall u, s <> Ok u) -> forall u', fold_left (fun rw i => let* w := rw in let* e := get w i in Ok (put w i (set_wstat e (ep_wtotal e) (ep_wbytes e) 0))) l s <> Ok u').
    { induction l; intros s N u'; cbn [fold_left]; [apply N|]. apply IHl. intros u. destruct s; cbn; congruence || (exfalso; eapply N; eauto; fail). }
    induction l; intros u u' X; cbn [fold_left] in X. { inversion X; subst. apply quiet_refl. }
    cbn [bind] in X. destruct (get u a) as [e| |] eqn:E; cbn [bind] in X; try (exfalso; eapply NU; [|exact X]; intros; discriminate).
    apply get_lookup in E. eapply quiet_trans; [|apply IHl; exact X]. eapply quiet_put0; eauto. }
  apply K in H. eapply quiet_trans; [|exact H]. apply quiet_eps. reflexivity.
Qed.
Lemma quiet_log_cb : forall w i k f v w' its again, log_cb w i k f v = Ok (w', its, again) -> quiet w w'.
Proof.
  intros w i k f v w' its again H. unfold log_cb in H. inv_bind H. apply get_lookup in E. rename a into e.
  destruct (ep_kind e) as [| | |[g b|a]] eqn:K; try discriminate.
  - inv_bind H. inv_bind H. inversion H; subst. eapply quiet_trans; [|eapply quiet_routed; eapply ctls_routed; [apply (nested_routed NEST)|eassumption]].
    eapply quiet_put; [eauto|]. unfold link_of, is_tcp. cbn. rewrite K. auto.
  - destruct (a_inner a) as [[g b]|]; [|discriminate]. inv_bind H. inv_bind H. inversion H; subst.
    eapply quiet_trans; [|eapply quiet_routed; eapply ctls_routed; [apply (nested_routed NEST)|eassumption]].
    eapply quiet_put; [eauto|]. unfold link_of, is_tcp. cbn. rewrite K. auto.
Qed.
Lemma quiet_run_cb : forall f v w cb w' its again, run_cb f v w cb = Ok (w', its, again) -> quiet w w'.
Proof.
  intros f v w cb w' its again H. destruct cb; cbn [run_cb] in H.
  - inv_bind H. inversion H; subst. apply quiet_aggregate; auto.
  - inversion H; subst. apply quiet_refl.
  - inv_bind H. inversion H; subst. unfold cb_baud in E. inv_bind E. apply get_lookup in E0. match type of E with context [ep_kind ?q] => rename q into a0 end. destruct (ep_kind a0) as [bd cu tm| | |] eqn:K; try discriminate.
    destruct bd; [discriminate|]. destruct (ask _ _). inversion E; subst. eapply quiet_put; [eauto|]. unfold link_of, is_tcp. cbn. rewrite K. auto.
  - inv_bind H. inversion H; subst. unfold cb_nomsg in E. inv_bind E. apply get_lookup in E0. match type of E with context [ep_kind ?q] => rename q into a0 end. destruct (ep_kind a0) as [|c p [t|]| |] eqn:K; try discriminate.
    inv_bind E. inversion E; subst. eapply quiet_put; [eauto|]. unfold link_of, is_tcp. cbn. rewrite K. auto.
  - inv_bind H. inversion H; subst. unfold cb_retry in E. inv_bind E. apply get_lookup in E0. destruct (ep_kind a) as [| |r vl|] eqn:K; try discriminate.
    destruct (ask _ _) as [q y]. destruct (q <? 0). { inversion E; subst. eapply quiet_put; [eauto|]. unfold link_of, is_tcp. cbn. rewrite ?K. auto. }
    unfold add_fd in E. destruct (ask v y) as [q2 y2]. inversion E; subst. eapply quiet_put; [eauto|]. unfold link_of, is_tcp. cbn. rewrite ?K. auto.
  - eapply quiet_log_cb; eauto.
  - eapply quiet_log_cb; eauto.
  - eapply quiet_log_cb; eauto.
Qed.
Lemma quiet_timer : forall f v w t fired w' its, timer_read f v w t fired = Ok (w', its) -> quiet w w'.
Proof.
  intros f v w t fired w' its H. unfold timer_read in H. destruct (find_timer _ _); [|discriminate].
  destruct (_ || _). { inversion H; subst. apply quiet_refl. }
  inv_bind H. inv_bind H. inversion H; subst. apply quiet_run_cb in E. eapply quiet_trans; [exact E|apply quiet_eps; reflexivity].
Qed.
Lemma quiet_conn : forall v w, quiet w (fst (tcp_connection v w)).
Proof.
  intros v w. unfold tcp_connection. destruct (ask v (w_sys w)) as [r y]. destruct (r <? 0). { apply quiet_eps; reflexivity. }
  destruct (ask_bytes RXMAX v y) as [junk y1] eqn:AB. unfold add_fd. destruct (ask v y1) as [q y2]. cbn [fst].
  set (e := set_fd _ _ _). set (w' := set_order _ _). split. { unfold w'. cbn. rewrite app_length. lia. }
  intros k e' L. pose proof (lookup_len _ _ _ L) as LL. unfold w' in LL. cbn in LL. rewrite app_length in LL. cbn in LL.
  destruct (Nat.eq_dec k (length (w_eps w))) as [->|N].
  - right. split; auto. unfold lookup, w' in L. cbn in L. rewrite nth_error_app2, Nat.sub_diag in L by lia. cbn in L. inversion L; subst. exists junk. split; [eapply ask_bytes_ok; eauto|reflexivity].
  - left. exists e'. split; auto. rewrite <- L. symmetry. apply (lookup_app w [Some e]); auto. lia.
Qed.
Lemma quiet_hangups : forall w w' its, process_hangups w = Ok (w', its) -> Inv w -> quiet w w'.
Proof.
  intros w w' its H I. unfold process_hangups in H. destruct (w_hang w).
  - inv_bind H. inversion H; subst; clear H. destruct (hangups_spec _ _ _ _ _ E (inv_sym _ I)) as (A & B & C & D & F).
    split. { cbn. rewrite B. auto. } intros k e' L. left. change (lookup w0 k = Some e') in L. rewrite F in L. destruct (_ && _); [discriminate|]. eauto.
  - inversion H; subst. apply quiet_refl.
Qed.
Lemma quiet_learn : forall n w i id w' e, learn n w i id = Ok w' -> Inv w -> lookup w i = Some e -> n = Datatypes.S (length (w_eps w)) -> quiet w w'.
Proof.
  intros n w i id w' e H I L ->. destruct (learn_exact _ _ _ _ _ _ H I L) as [T _]. split.
  - rewrite (ta_len _ _ _ T). auto.
  - intros k e' L'. left. destruct (taught_lookup_rev _ _ _ _ _ T L') as (e0 & L0 & X). exists e0. split; auto. destruct X as [->|[-> _]]; auto.
Qed.

(* ---- routing without a ULog logger ---------------------------------------------------------------------------------- *)

Definition no_ulog (w : world) : Prop := forall k e, lookup w k = Some e -> never_ulog (ep_kind e).
Lemma no_ulog_routed : forall w w', routed w w' -> no_ulog w -> no_ulog w'.
Proof.
  intros w w' R N k e' L. pose proof (ro_ep _ _ R k) as X. rewrite L in X. destruct (lookup w k) as [e|] eqn:L0; [|destruct X].
  eapply never_class; [|eapply N; eauto]. apply class_same, X.
Qed.
Lemma each_mem : forall sub f v, sub_routed sub -> forall order w mem m u w' mem' ds its u', no_ulog w ->
  route_each sub f v w order mem m u = Ok (w', mem', ds, its, u') -> mem' = mem.
Proof.
  intros sub f v S. induction order as [|i r IH]; intros w mem m u w' mem' ds its u' N H.
  - cbn [route_each] in H. inversion H; auto.
  - rewrite route_each_cons in H. inv_bind H. apply get_lookup in E. destruct (accept_msg _ _ _ _); eauto.
    inv_bind H. inv_bind H. inv_bind H. inversion H; subst; clear H. destruct (deliver_spec _ _ _ _ _ _ _ _ _ _ _ E0 E) as (R & _).
    apply deliver_mem in E0; [|apply never_not; eapply N; eauto]. subst. eapply IH; [|eassumption]. eapply no_ulog_routed; [eapply ctls_routed; eauto|]. eapply no_ulog_routed; eauto.
Qed.
Lemma route_mem : forall n f v w mem m w' mem' ds its, no_ulog w -> route n f v w mem m = Ok (w', mem', ds, its) -> mem' = mem.
Proof.
  intros [|n] f v w mem m w' mem' ds its N H; [discriminate|]. rewrite route_S in H. inv_bind H. inversion H; subst. eapply each_mem; [|exact N|exact E]. apply nested_routed.
Qed.

Definition stays_in (w w' : world) : Prop := forall k, lookup w k <> None -> lookup w' k <> None.
Lemma stays_in_kept : forall w w', kept w w' -> stays_in w w'.
Proof. intros w w' K k N. destruct (lookup w k) as [e|] eqn:L; [|congruence]. destruct (kept_lookup _ _ _ _ K L) as (e' & L' & _). congruence. Qed.

Lemma handle_quiet : forall f v w i e p w' its, handle_msg f v w i (info_of (v_tbl v) p) = Ok (w', its) -> Inv w -> no_ulog w -> lookup w i = Some e -> ep_fd e = true ->
  wf_packet p -> slice (rx_data (ep_rx e)) 0 (m_len (info_of (v_tbl v) p)) = Ok (encode p) ->
  quiet w w' /\ stays_in w w' /\ forall k, levs its k = if Nat.eqb i k then [LPacket (encode p)] else [].
Proof.
  intros f v w i e p w' its H I NU L F WP SL. destruct (handle_inv _ _ _ _ _ _ _ H) as (e0 & pkt & w1 & fresh & L0 & SL0 & CD & C).
  rewrite L in L0. inversion L0; subst e0; clear L0. rewrite SL in SL0. inversion SL0; subst pkt; clear SL0.
  destruct (check_dup_eps _ _ _ _ _ CD) as [EE KD].
  assert (LV : forall m d ds its' k, Forall is_ctl its' -> levs (IRecv i (encode p) m d ds :: its') k = if Nat.eqb i k then [LPacket (encode p)] else []).
  { intros m d ds its' k FC. change (IRecv i (encode p) m d ds :: its') with ([IRecv i (encode p) m d ds] ++ its'). rewrite levs_app, (levs_none its').
    - unfold levs. cbn [flat_map]. rewrite !app_nil_r. reflexivity.
    - intros x X. rewrite Forall_forall in FC. destruct (FC _ X) as (? & ? & ? & ? & ->). reflexivity.
    - intros j o X. rewrite Forall_forall in FC. destruct (FC _ X) as (? & ? & ? & ? & Y). discriminate Y. }
  destruct C as [(_ & -> & ->)|[(_ & AL & -> & ->)|(_ & AL & w2 & e2 & w3 & mem & ds & its' & e3 & LE & L2 & RT & L3 & -> & ->)]].
  - split; [apply quiet_eps; auto|]. split; [apply stays_in_kept; auto|]. intros k. apply LV. constructor.
  - split; [apply quiet_eps; auto|]. split; [apply stays_in_kept; auto|]. intros k. apply LV. constructor.
  - assert (I1 : Inv w1) by (eapply kept_inv; eauto).
    assert (L1 : lookup w1 i = Some e) by (unfold lookup in *; rewrite EE; auto).
    destruct (learn_exact _ _ _ _ _ _ LE I1 L1) as [T _].
    assert (N2 : no_ulog w2).
    { intros k ek LK. destruct (taught_lookup_rev _ _ _ _ _ T LK) as (ek1 & LK1 & TK). pose proof (taught_ep_fields _ _ _ TK) as (_ & _ & _ & T4 & _).
      rewrite T4. rewrite (lookup_same_eps w w1 k EE) in LK1. eapply NU; eauto. }
    pose proof (route_mem _ _ _ _ _ _ _ _ _ _ N2 RT) as ->. pose proof (route_spec _ _ _ _ _ _ _ _ _ _ RT) as (R & _).
    pose proof (ro_ep _ _ R i) as SE. rewrite L2, L3 in SE. cbn in SE.
    split; [|split].
    + eapply quiet_trans; [apply (quiet_eps w w1 EE)|]. eapply quiet_trans; [eapply quiet_learn; eauto|]. eapply quiet_trans; [apply quiet_routed; eauto|].
      eapply quiet_put0; eauto. unfold link_of. rewrite <- (se_rx _ _ SE). destruct e3 as [? ? ? [? ? ?]]. reflexivity.
    + intros k N. destruct (lookup w k) as [ek|] eqn:LK; [|congruence]. rewrite <- (lookup_same_eps w w1 k EE) in LK.
      destruct (taught_lookup _ _ _ _ _ T LK) as (ek2 & LK2 & _). pose proof (ro_ep _ _ R k) as SK. rewrite LK2 in SK. destruct (lookup w3 k) as [ek3|] eqn:LK3; [|destruct SK].
      destruct (Nat.eq_dec k i) as [->|NE]. { rewrite (lookup_put_eq _ _ _ _ L3). congruence. } rewrite lookup_put_neq by auto. congruence.
    + intros k. apply LV. eapply RouterTimers2.route_items; eauto.
Qed.

(* ---- the main loop, with the data just read ----------------------------------------------------------------------------- *)

(* acts that do not read *)
Inductive other (f : nat) (v : env) : world -> list item -> world -> Prop :=
| o_conn : forall w, other f v w (snd (tcp_connection v w)) (fst (tcp_connection v w))
| o_out : forall w i e y e' r, lookup w i = Some e -> mod_fd v (w_sys w) e false = (y, e', r) -> other f v w [] (put (set_sys w y) i e')
| o_timer : forall w t fired w' its, timer_read f v w t fired = Ok (w', its) -> other f v w its w'
| o_exit : forall w c, other f v w [] (set_exit w (Some c))
| o_hang : forall w, other f v w [] (set_hang w true)
| o_hangups : forall w w' its, process_hangups w = Ok (w', its) -> other f v w its w'
| o_sweep : forall w, other f v w [] (set_sys w (sweep_timers (w_sys w))).

Lemma other_act : forall f v w its w', other f v w its w' -> act f v w its w'.
Proof. 
  intros f v w its w' H. destruct H.
  - apply a_conn.
  - eapply a_out; eauto.
  - eapply a_timer; eauto.
  - apply a_exit.
  - apply a_hang.
  - apply a_hangups; auto.
  - apply a_sweep.
Qed.

Inductive mode := Rest | Busy (i : nat) (rr : rdres).
Inductive fact (f : nat) (v : env) : mode -> world -> list item -> mode -> world -> Prop :=
| f_read : forall w i e o w' a, lookup w i = Some e -> ep_fd e = true -> needs_read (ep_rx e) = true -> wf_read o ->
    os_read v w i e o = Ok (w', RdBytes a) -> fact f v Rest w [IRead i o] (Busy i (RdBytes a)) w'
| f_fail : forall w i e o w' r, lookup w i = Some e -> ep_fd e = true -> needs_read (ep_rx e) = true -> wf_read o ->
    os_read v w i e o = Ok (w', RdFail r) -> fact f v Rest w [IRead i o] Rest w'
| f_more : forall w i e, lookup w i = Some e -> ep_fd e = true -> fact f v Rest w [] (Busy i (RdFail 0)) w
| f_stop : forall w i e, lookup w i = Some e -> ep_fd e = false -> fact f v (Busy i (RdFail 0)) w [] Rest w
| f_idle : forall w i e rr x st r, lookup w i = Some e -> ep_fd e = true -> wf_rd rr -> (fed rr <> [] -> needs_read (ep_rx e) = true) ->
    read_msg (v_tbl v) (ep_rx e) (ep_rstat e) rr = Ok (x, st, RetNone r) -> fact f v (Busy i rr) w [] Rest (put w i (set_rx e x st))
| f_recv : forall w i e rr x st known m w1 w2 its, lookup w i = Some e -> ep_fd e = true -> wf_rd rr -> (fed rr <> [] -> needs_read (ep_rx e) = true) ->
    read_msg (v_tbl v) (ep_rx e) (ep_rstat e) rr = Ok (x, st, RetMsg known m) ->
    (if known then keep_baud (put w i (set_rx e x st)) i (set_rx e x st) else Ok (put w i (set_rx e x st))) = Ok w1 ->
    handle_msg f v w1 i m = Ok (w2, its) -> fact f v (Busy i rr) w its (Busy i (RdFail 0)) w2
| f_other : forall w its w', other f v w its w' -> fact f v Rest w its Rest w'.

Inductive facts (f : nat) (v : env) : mode -> world -> list item -> mode -> world -> Prop :=
| fs_nil : forall m w, facts f v m w [] m w
| fs_cons : forall m w its m1 w1 its' m2 w2, fact f v m w its m1 w1 -> facts f v m1 w1 its' m2 w2 -> facts f v m w (its ++ its') m2 w2.

Lemma facts_one : forall f v m w its m' w', fact f v m w its m' w' -> facts f v m w its m' w'.
Proof. intros. rewrite <- (app_nil_r its). econstructor; eauto. constructor. Qed.
Lemma facts_app : forall f v m w a m1 w1 b m2 w2, facts f v m w a m1 w1 -> facts f v m1 w1 b m2 w2 -> facts f v m w (a ++ b) m2 w2.
Proof. intros f v m w a m1 w1 b m2 w2 H. induction H; intros K; cbn; auto. rewrite <- app_assoc. econstructor; eauto. Qed.
Lemma facts_app_nil : forall f v m w a m1 w1 m2 w2, facts f v m w a m1 w1 -> facts f v m1 w1 [] m2 w2 -> facts f v m w a m2 w2.
Proof. intros. rewrite <- (app_nil_r a). eapply facts_app; eauto. Qed.

Lemma read_loop_facts : forall f v n w i rr w' its r, read_loop n f v w i rr = Ok (w', its, r) -> wf_rd rr ->
  (forall e, lookup w i = Some e -> (rr <> RdFail 0 -> ep_fd e = true) /\ (fed rr <> [] -> needs_read (ep_rx e) = true)) -> facts f v (Busy i rr) w its Rest w'.
Proof.
  intros f v. induction n; intros w i rr w' its r H W NR; [discriminate|]. cbn [read_loop] in H. inv_bind H. apply get_lookup in E. rename a into e. destruct (NR _ E) as [NF NN].
  destruct (ep_fd e) eqn:F; cbn [negb] in H.
  2:{ inversion H; subst. apply facts_one. assert (X : rr = RdFail 0). { destruct rr as [a|q]. { exfalso. discriminate NF. discriminate. } destruct (Z.eq_dec q 0) as [->|N]; auto. exfalso. discriminate NF. congruence. }
      subst rr. eapply f_stop; eauto. }
  inv_bind H. match type of H with context [match ?q with RetNone _ => _ | RetMsg _ _ => _ end] => destruct q as [rq|known mq] end.
  - inversion H; subst. apply facts_one. eapply f_idle; eauto.
  - inv_bind H. inv_bind H. inv_bind H. inversion H; subst. eapply facts_app.
    + apply facts_one. eapply f_recv; eauto.
    + eapply IHn; eauto. exact I. intros e' L'. split; [congruence|]. intros X. exfalso. apply X. reflexivity.
Qed.

Lemma os_read_same : forall v w i e o w' a, os_read v w i e o = Ok (w', RdBytes a) -> lookup w i = Some e ->
  exists e', lookup w' i = Some e' /\ ep_fd e' = ep_fd e /\ ep_rx e' = ep_rx e.
Proof.
  intros v w i e o w' a H L. destruct o as [bs from| |n]; cbn [os_read] in H. 2,3: discriminate H.
  destruct (ep_kind e) as [bd cu tm|conf peer tm|retry vl|l] eqn:K. 1,4: (injection H as <- _; eauto).
  - inv_bind H. inversion H; subst. eexists. split; [eapply lookup_put_eq; exact L|]. auto.
  - destruct bs; [|inversion H; subst; eauto]. destruct (_ =? 0)%nat; [discriminate|]. destruct (tcp_lost _ _ _ _ _). discriminate.
Qed.

Lemma handle_read_facts : forall f v w i o w' its r, handle_read f v w i o = Ok (w', its, r) -> wf_read o -> facts f v Rest w its Rest w'.
Proof.
  intros f v w i o w' its r H W. unfold handle_read in H. inv_bind H. apply get_lookup in E. rename a into e.
  destruct (ep_fd e) eqn:F; cbn [negb] in H. 2:{ inversion H; subst. constructor. }
  destruct (needs_read (ep_rx e)) eqn:NR.
  - inv_bind H. pose proof (os_read_wf _ _ _ _ _ _ _ E0 W) as W2.
    match type of H with context [match ?q with RdBytes _ => _ | RdFail _ => _ end] => destruct q as [a|q] end.
    + inv_bind H. inversion H; subst. change (IRead i o :: l) with ([IRead i o] ++ l). eapply fs_cons; [eapply f_read; eauto|].
      eapply read_loop_facts; eauto. destruct (os_read_same _ _ _ _ _ _ _ E0 E) as (e' & L' & FE & RE). intros e2 L2. assert (e2 = e') by congruence. subst e2. rewrite FE, RE. auto.
    + inversion H; subst. apply facts_one. eapply f_fail; eauto.
  - rewrite <- (app_nil_l its). eapply fs_cons; [eapply f_more; eauto|]. eapply read_loop_facts; eauto. exact I. intros e' L'. split; [congruence|]. intros X. exfalso. apply X. reflexivity.
Qed.

Lemma handle_event_facts : forall f v w ev w' its, handle_event f v w ev = Ok (w', its) -> wf_ev ev -> facts f v Rest w its Rest w'.
Proof.
  intros f v w ev w' its H W. assert (ONE : forall a its b, other f v a its b -> facts f v Rest a its Rest b) by (intros; apply facts_one, f_other; auto).
  destruct ev as [|i rd out err|t fired err|]; cbn [handle_event] in H.
  - inversion H; subst. apply ONE. replace its with (snd (tcp_connection v w)) by (rewrite H1; auto).
    replace w' with (fst (tcp_connection v w)) by (rewrite H1; auto). apply o_conn.
  - inv_bind H. inv_bind H. inv_bind H. inv_bind H. inversion H; subst; clear H.
    assert (A1 : facts f v Rest w its Rest w0).
    { destruct rd as [o|].
      - inv_bind E0. inv_bind E0. inversion E0; subst; clear E0. cbn in W. eapply facts_app_nil; [eapply handle_read_facts; eauto|].
        destruct (_ && _); [apply ONE, o_hang|constructor].
      - inversion E0; subst. constructor. }
    apply get_lookup in E1. eapply facts_app_nil; [exact A1|].
    destruct out.
    + destruct (mod_fd v (w_sys w0) a0 false) as [[y2 e2] q] eqn:M. rewrite <- (app_nil_r []). eapply facts_app; [apply ONE; eapply o_out; eauto|].
      destruct (_ && _); [apply ONE, o_exit|constructor].
    + destruct (_ && _); [apply ONE, o_exit|constructor].
  - inv_bind H. inversion H; subst. eapply facts_app_nil; [apply ONE; eapply o_timer; eauto|].
    destruct err; [apply ONE, o_exit|constructor].
  - inversion H; subst. apply ONE, o_exit.
Qed.
Lemma exec_facts : forall f v w0 its w, exec f v w0 its w -> facts f v Rest w0 its Rest w.
Proof.
  intros f v w0 its w H. assert (ONE : forall a its b, other f v a its b -> facts f v Rest a its Rest b) by (intros; apply facts_one, f_other; auto).
  assert (HE : forall evs u u' it, handle_events f v u evs = Ok (u', it) -> Forall wf_ev evs -> facts f v Rest u it Rest u').
  { induction evs as [|e r IH]; intros u u' it X F; cbn [handle_events] in X. { inversion X; subst. constructor. }
    inversion F; subst. inv_bind X. inv_bind X. inversion X; subst. eapply facts_app; [eapply handle_event_facts; eauto|eauto]. }
  induction H. { constructor. }
  eapply facts_app; [eauto|]. unfold step in H2. inv_bind H2. inv_bind H2. inversion H2; subst.
  eapply facts_app; [eapply HE; [exact E|]|].
  - eapply Forall_impl; [|eauto]. intros e [_ X]. destruct e as [|? [?|] ? ?| |]; exact X || exact I.
  - eapply facts_app_nil; [apply ONE, o_hangups; eauto|]. apply ONE, o_sweep.
Qed.
Lemma fact_acts : forall f v m w its m' w', fact f v m w its m' w' -> acts f v w its w'.
Proof.
  intros f v m w its m' w' H. inversion H; subst; try (apply acts_nil); apply acts_one.
  - eapply a_read; eauto.
  - eapply a_read; eauto.
  - eapply a_idle; eauto.
  - eapply a_recv; eauto.
  - apply other_act; auto.
Qed.

(* ---- the invariant ------------------------------------------------------------------------------------------------------- *)

Definition unread (m : mode) (k : nat) : list (list Z) := match m with Busy i rr => if Nat.eqb i k then fed rr else [] | Rest => [] end.
Definition busy (m : mode) (k : nat) : Prop := match m with Busy i _ => i = k | Rest => False end.
Definition after_bad (tbl : table) (ps : list packet) : Prop := exists d p, ps = d ++ [p] /\ ~ acceptable tbl p.

Record framed (tbl : table) (m : mode) (h : list item) (w : world) : Prop := mkFramed {
  fm_new : forall k, (length (w_eps w) <= k)%nat -> levs h k = [];
  fm_ep : forall k e, lookup w k = Some e -> exists s l ps, levs h k = l ++ map LData (unread m k) /\ good (ep_rx e) s /\
    framing tbl [] l ps (rest_of (ep_rx e) s) /\ ep_rstat e = stats_after tbl rstat0 ps /\
    (rx_last (ep_rx e) <> 0%nat -> busy m k \/ is_tcp e = true \/ after_bad tbl ps);
  fm_gone : forall k, lookup w k = None -> exists ps r, framing tbl [] (levs h k) ps r /\ bytes r;
  fm_busy : forall k, busy m k -> exists e, lookup w k = Some e /\ is_tcp e || ep_fd e = true }.

Lemma framed_quiet : forall tbl h w w' its, framed tbl Rest h w -> quiet w w' -> (forall k, levs its k = []) -> framed tbl Rest (h ++ its) w'.
Proof.
  intros tbl h w w' its [FN FE FG FB] [LL Q] N.
  assert (LV : forall k, levs (h ++ its) k = levs h k) by (intros; rewrite levs_app, N, app_nil_r; auto).
  split.
  - intros k K. rewrite LV. apply FN. lia.
  - intros k e' L'. rewrite LV. destruct (Q _ _ L') as [(e & L & E)|(K & junk & J & E)].
    + destruct (FE _ _ L) as (s & l & ps & A & B & C & D & F). unfold link_of in E. injection E as E1 E2 E3 E4. rewrite E1, E2, E3. exists s, l, ps. auto.
    + rewrite (FN _ K). unfold link_of in E. injection E as E1 E2 E3 E4. exists [], [], []. split; auto. rewrite E1, E2. split; [apply good_fresh; auto|]. split; [apply fr_end|]. split; auto.
  - intros k L'. rewrite LV. destruct (lookup w k) as [e|] eqn:L; [|auto]. destruct (FE _ _ L) as (s & l & ps & A & B & C & D & F). cbn [unread map] in A. rewrite app_nil_r in A. rewrite A. exists ps, (rest_of (ep_rx e) s). split; auto. apply bytes_skipn, B.
  - intros k [].
Qed.

Lemma other_levs : forall f v w its w', other f v w its w' -> Inv w -> forall k, levs its k = [].
Proof.
  intros f v w its w' H I k. destruct H; try reflexivity.
  - unfold tcp_connection. destruct (ask v (w_sys w)) as [r y]. destruct (r <? 0); [reflexivity|]. destruct (ask_bytes _ _ _). destruct (add_fd _ _ _). reflexivity.
  - unfold timer_read in H. destruct (find_timer _ _); [|discriminate]. destruct (_ || _). { inversion H; subst. reflexivity. }
    inv_bind H. inv_bind H. inversion H; subst. pose proof (run_cb_ctls _ _ _ _ _ _ _ (inv_logs _ I) E) as CT. apply levs_none.
    + intros x [<-|X]; auto. destruct (CT x X) as (? & ? & ? & (? & -> & _) & _). reflexivity.
    + intros i o [X|X]; [discriminate X|]. destruct (CT _ X) as (? & ? & ? & (? & Y & _) & _). discriminate Y.
  - unfold process_hangups in H. destruct (w_hang w); [|inversion H; reflexivity]. inv_bind H. inversion H; subst.
    destruct (hangups_spec _ _ _ _ _ E (inv_sym _ I)) as (_ & _ & _ & -> & _). apply levs_none.
    + intros x X. apply in_map_iff in X. destruct X as (i & <- & _). reflexivity.
    + intros i o X. apply in_map_iff in X. destruct X as (j & Y & _). discriminate Y.
Qed.
Lemma other_quiet : forall f v w its w', other f v w its w' -> Inv w -> quiet w w'.
Proof.
  intros f v w its w' H I. destruct H; try (apply quiet_eps; reflexivity).
  - apply quiet_conn.
  - eapply quiet_put; eauto. eapply quiet_mod_fd; eauto.
  - eapply quiet_timer; eauto.
  - eapply quiet_hangups; eauto.
Qed.

Lemma levs_read : forall i o k, levs [IRead i o] k = match o with OsData bs _ => if Nat.eqb i k then [LData bs] else [] | _ => [] end.
Proof. intros. unfold levs. cbn [flat_map]. rewrite app_nil_r. destruct o; reflexivity. Qed.

Lemma framed_read : forall tbl v h w w' i e o rr, framed tbl Rest h w -> Inv w -> lookup w i = Some e -> os_read v w i e o = Ok (w', rr) -> ep_fd e = true ->
  framed tbl (match rr with RdBytes _ => Busy i rr | RdFail _ => Rest end) (h ++ [IRead i o]) w'.
Proof.
  intros tbl v h w w' i e o rr F I L OS NR. pose proof (quiet_os _ _ _ _ _ _ _ OS L) as Q. pose proof (kept_os_read _ _ _ _ _ _ _ OS L) as K.
  pose proof (framed_quiet tbl h w w' [] F Q (fun _ => eq_refl)) as F'. rewrite app_nil_r in F'.
  set (m' := match rr with RdBytes _ => Busy i rr | RdFail _ => Rest end).
  assert (LV : forall k, levs (h ++ [IRead i o]) k = levs h k ++ (match o with OsData bs _ => if Nat.eqb i k then [LData bs] else [] | _ => [] end)) by (intros; rewrite levs_app, levs_read; auto).
  assert (LI : lookup w' i <> None) by (apply (stays_in_kept _ _ K); congruence).
  assert (DT : (exists a from, o = OsData a from /\ rr = RdBytes a) \/ (exists from q, o = OsData [] from /\ rr = RdFail q) \/ (exists q, rr = RdFail q /\ forall a from, o <> OsData a from)).
  { destruct o as [bs from| |n]; cbn [os_read] in OS.
    - destruct (ep_kind e) as [bd cu tm|conf peer tm|retry vl|lg].
      + injection OS as _ <-. eauto.
      + inv_bind OS. injection OS as _ <-. eauto.
      + destruct bs. { right; left. destruct (_ =? 0)%nat. { injection OS as _ <-. eauto. } destruct (tcp_lost _ _ _ _ _). injection OS as _ <-. eauto. } injection OS as _ <-. eauto.
      + injection OS as _ <-. eauto.
    - right; right. injection OS as _ <-. eexists. split; eauto. discriminate.
    - right; right. injection OS as _ <-. eexists. split; eauto. discriminate. }
  destruct F' as [FN FE FG FB]. split.
  - intros k KK. rewrite LV, FN by auto. cbn [app]. destruct o as [bs from| |n]; auto. destruct (Nat.eqb_spec i k) as [->|NE]; auto. exfalso. apply LI. unfold lookup. rewrite (proj2 (nth_error_None _ _)); auto.
  - intros k ek LK. destruct (FE _ _ LK) as (s & l & ps & A & B & C & D & G). cbn [unread map] in A. rewrite app_nil_r in A. rewrite LV, A.
    destruct DT as [(a & from & -> & ->)|[(from & q & -> & ->)|(q & -> & NO)]]; unfold m'; cbn [unread fed].
    + exists s, l, ps. split. { destruct (Nat.eqb i k); reflexivity. } split; auto. split; auto. split; auto. intros X. destruct (G X) as [[]|Y]; auto.
    + exists s, (l ++ (if Nat.eqb i k then [LData []] else [])), ps. split. { cbn [map]. rewrite app_nil_r. reflexivity. } split; auto. split; auto.
      destruct (Nat.eqb i k); [|rewrite app_nil_r; auto]. rewrite <- (app_nil_r ps). eapply framing_trans; [exact C|]. apply fr_data with (n := 840%nat); auto; [congruence|]. rewrite firstn_nil, app_nil_r. apply fr_end.
    + exists s, l, ps. split; auto. destruct o; auto. exfalso. eapply NO; reflexivity.
  - intros k LK. rewrite LV. destruct (FG _ LK) as (ps & r & C). assert (NE : Nat.eqb i k = false) by (apply Nat.eqb_neq; intros ->; contradiction). rewrite NE.
    exists ps, r. destruct o; rewrite app_nil_r; auto.
  - assert (BI : exists e', lookup w' i = Some e' /\ is_tcp e' || ep_fd e' = true).
    { destruct (lookup w' i) as [e'|] eqn:L'; [|congruence]. exists e'. split; auto. destruct Q as [_ Q]. destruct (Q _ _ L') as [(e0 & L0 & E)|(KK & _)].
      - assert (e0 = e) by congruence. subst e0. unfold link_of in E. injection E as _ _ _ E4. rewrite E4, NR. apply orb_true_r.
      - apply lookup_len in L. lia. }
    intros k BK. unfold m' in BK. destruct rr; cbn in BK; [subst; auto|destruct BK].
Qed.

Lemma framed_idle : forall tbl h w i e rr x st r, wf_table tbl -> framed tbl (Busy i rr) h w -> lookup w i = Some e -> wf_rd rr -> (fed rr <> [] -> needs_read (ep_rx e) = true) ->
  read_msg tbl (ep_rx e) (ep_rstat e) rr = Ok (x, st, RetNone r) -> framed tbl Rest h (put w i (set_rx e x st)).
Proof.
  intros tbl h w i e rr x st r WT [FN FE FG FB] L W NR RM. destruct (FE _ _ L) as (s & l & ps & A & B & C & D & G).
  destruct (call_framing _ _ _ _ _ _ _ _ WT B W NR RM) as (s' & B' & ps' & C' & D' & G'). cbn [unread] in A. rewrite Nat.eqb_refl in A. split.
  - intros k K. apply FN. unfold put in K. cbn in K. rewrite set_nth_length in K. auto.
  - intros k ek LK. destruct (Nat.eq_dec k i) as [->|NE].
    + rewrite (lookup_put_eq _ _ _ _ L) in LK. injection LK as <-. cbn [ep_rx ep_rstat set_rx]. exists s', (levs h i), (ps ++ ps').
      split. { cbn [unread map]. rewrite app_nil_r. auto. } split; [exact B'|]. split. { rewrite A. eapply framing_trans; eauto. } split. { rewrite stats_after_app. congruence. }
      intros X. destruct (G' X) as (p & -> & NA). right; right. exists ps, p. auto.
    + rewrite lookup_put_neq in LK by auto. destruct (FE _ _ LK) as (s2 & l2 & ps2 & A2 & B2 & C2 & D2 & G2). cbn [unread] in A2. rewrite (proj2 (Nat.eqb_neq i k)) in A2 by auto.
      exists s2, l2, ps2. split; auto. split; auto. split; auto. split; auto. intros X. destruct (G2 X) as [Y|Y]; auto.
  - intros k LK. destruct (Nat.eq_dec k i) as [->|NE]. { rewrite (lookup_put_eq _ _ _ _ L) in LK. discriminate. } rewrite lookup_put_neq in LK by auto. auto.
  - intros k [].
Qed.

Lemma framed_recv : forall f v h w i e rr x st known m w1 w2 its, let tbl := v_tbl v in wf_table tbl -> Inv w -> no_ulog w -> framed tbl (Busy i rr) h w -> lookup w i = Some e -> ep_fd e = true ->
  wf_rd rr -> (fed rr <> [] -> needs_read (ep_rx e) = true) -> read_msg tbl (ep_rx e) (ep_rstat e) rr = Ok (x, st, RetMsg known m) ->
  (if known then keep_baud (put w i (set_rx e x st)) i (set_rx e x st) else Ok (put w i (set_rx e x st))) = Ok w1 ->
  handle_msg f v w1 i m = Ok (w2, its) -> framed tbl (Busy i (RdFail 0)) (h ++ its) w2.
Proof.
  intros f v h w i e rr x st known m w1 w2 its tbl WT I NU [FN FE FG FB] L FD W NR RM KB HM. destruct (FE _ _ L) as (s & l & ps & A & B & C & D & G).
  destruct (call_framing _ _ _ _ _ _ _ _ WT B W NR RM) as (s' & B' & p & WP & -> & RL & SL & C' & D'). cbn [unread] in A. rewrite Nat.eqb_refl in A.
  destruct (recv_before f v w i e rr x st known _ w1 WT I L FD W RM KB _ _ HM) as (K1 & _ & e1 & p1 & L1 & F1 & KE & RX & _).
  assert (I1 : Inv w1) by (eapply kept_inv; eauto).
  assert (N1 : no_ulog w1). { intros k ek LK. destruct (kept_lookup_rev _ _ _ _ K1 LK) as (e0 & L0 & KE0). eapply never_class; [apply KE0|eapply NU; eauto]. }
  assert (LP : lookup (put w i (set_rx e x st)) i = Some (set_rx e x st)) by (eapply lookup_put_eq; eauto).
  assert (Q1 : quiet (put w i (set_rx e x st)) w1). { destruct known; [eapply quiet_baud; eauto|]. injection KB as <-. apply quiet_refl. }
  rewrite <- RX in SL. destruct (handle_quiet f v w1 i e1 p w2 its HM I1 N1 L1 F1 WP SL) as (Q2 & S2 & LV).
  assert (Q : quiet (put w i (set_rx e x st)) w2) by (eapply quiet_trans; eauto). destruct Q as [LL Q]. unfold put in LL. cbn in LL. rewrite set_nth_length in LL.
  assert (LH : forall k, levs (h ++ its) k = levs h k ++ (if Nat.eqb i k then [LPacket (encode p)] else [])) by (intros; rewrite levs_app, LV; auto).
  split.
  - intros k K. rewrite LH, FN by lia. destruct (Nat.eqb_spec i k) as [->|NE]; auto. apply lookup_len in L. lia.
  - intros k ek LK. rewrite LH. destruct (Q _ _ LK) as [(e0 & L0 & E)|(K & junk & J & E)].
    + unfold link_of in E. injection E as E1 E2 E3 E4. rewrite E1, E2, E3. destruct (Nat.eq_dec k i) as [->|NE].
      * rewrite LP in L0. injection L0 as <-. cbn [ep_rx ep_rstat set_rx]. rewrite Nat.eqb_refl. exists s', (levs h i ++ [LPacket (encode p)]), (ps ++ [p]).
        split. { cbn [unread fed]. rewrite Nat.eqb_refl. cbn [map]. rewrite app_nil_r. auto. } split; auto.
        split. { rewrite A, <- app_assoc. eapply framing_trans; eauto. } split. { rewrite stats_after_app. congruence. } intros _. left. reflexivity.
      * rewrite lookup_put_neq in L0 by auto. destruct (FE _ _ L0) as (s2 & l2 & ps2 & A2 & B2 & C2 & D2 & G2). cbn [unread fed] in A2 |- *.
        rewrite (proj2 (Nat.eqb_neq i k)) in * by auto. rewrite app_nil_r. exists s2, l2, ps2. split; auto.
    + unfold put in K. cbn in K. rewrite set_nth_length in K. rewrite (FN _ K). assert (NE : Nat.eqb i k = false) by (apply Nat.eqb_neq; intros ->; apply lookup_len in L; lia). rewrite NE.
      unfold link_of in E. injection E as E1 E2 E3 E4. exists [], [], []. split. { cbn [unread]. rewrite NE. auto. } rewrite E1, E2. split; [apply good_fresh; auto|]. split; [apply fr_end|]. split; auto.
  - intros k LK. rewrite LH. assert (L0 : lookup w k = None).
    { destruct (lookup w k) as [e0|] eqn:L0; auto. exfalso. destruct (kept_lookup _ _ _ _ K1 L0) as (e0' & L0' & _). apply (S2 k); congruence. }
    assert (NE : Nat.eqb i k = false) by (apply Nat.eqb_neq; intros ->; congruence). rewrite NE, app_nil_r. auto.
  - intros k BK. cbn in BK. subst k. destruct (lookup w2 i) as [e2|] eqn:L2; [|exfalso; apply (S2 i); congruence]. exists e2. split; auto. destruct (Q _ _ L2) as [(e0 & L0 & E)|(K & _)].
    + rewrite LP in L0. injection L0 as <-. unfold link_of in E. injection E as _ _ _ E4. rewrite E4. unfold is_tcp. cbn. rewrite FD. apply orb_true_r.
    + unfold put in K. cbn in K. rewrite set_nth_length in K. apply lookup_len in L. lia.
Qed.

Lemma framed_fact : forall f v m h w its m' w', wf_table (v_tbl v) -> fact f v m w its m' w' -> Inv w -> no_ulog w -> framed (v_tbl v) m h w -> framed (v_tbl v) m' (h ++ its) w'.
Proof.
  intros f v m h w its m' w' WT A I NU F. inversion A; subst.
  - apply (framed_read (v_tbl v) v h w w' i e o (RdBytes a)); auto.
  - apply (framed_read (v_tbl v) v h w w' i e o (RdFail r)); auto.
  - rewrite app_nil_r. destruct F as [FN FE FG FB]. split; auto.
    + intros k ek LK. destruct (FE _ _ LK) as (s & l & ps & A1 & B & C & D & G). exists s, l, ps. split. { cbn [unread fed]. destruct (Nat.eqb i k); auto. } split; auto. split; auto. split; auto. intros X. destruct (G X) as [[]|Y]; auto.
    + intros k BK. cbn in BK. subst k. exists e. split; auto. rewrite H0. apply orb_true_r.
  - rewrite app_nil_r. destruct F as [FN FE FG FB]. split; auto.
    + intros k ek LK. destruct (FE _ _ LK) as (s & l & ps & A1 & B & C & D & G). exists s, l, ps. split. { cbn [unread fed] in A1 |- *. destruct (Nat.eqb i k); auto. } split; auto. split; auto. split; auto.
      intros X. destruct (G X) as [Y|Y]; auto. cbn in Y. subst k. right; left. assert (ek = e) by congruence. subst ek. destruct (FB i eq_refl) as (e0 & L0 & O). assert (e0 = e) by congruence. subst e0. rewrite H0, orb_false_r in O. auto.
    + intros k [].
  - rewrite app_nil_r. eapply framed_idle; eauto.
  - eapply framed_recv; eauto.
  - eapply framed_quiet; eauto. { eapply other_quiet; eauto. } eapply other_levs; eauto.
Qed.

(* ---- the initial state --------------------------------------------------------------------------------------------------- *)

Definition unused (e : ep) : Prop := (exists junk, length junk = RXMAX /\ ep_rx e = rx_fresh junk) /\ ep_rstat e = rstat0.

Lemma unused_new : forall k fd junk ids fl g v y y', ask_bytes RXMAX v y = (junk, y') -> unused (new_ep k fd junk ids fl g).
Proof. intros k fd junk ids fl g v y y' A. split; [|reflexivity]. exists junk. split; [|reflexivity]. apply ask_bytes_ok in A. apply A. Qed.

Lemma setup_unused : forall v y i c y' e, setup_ep v y i c = Some (y', e) -> unused e.
Proof.
  intros v y i c y' e H.
  assert (FD : forall y e0, unused e0 -> Some (add_fd v y e0) = Some (y', e) -> unused e).
  { intros y0 e0 F X. assert (X1 : add_fd v y0 e0 = (y', e)) by congruence. unfold add_fd in X1. destruct (ask v y0). injection X1 as _ <-. exact F. }
  unfold setup_ep in H. destruct (ec_kind c).
  - unfold setup_uart in H. destruct (_ || _); [discriminate|]. destruct (ask_bytes RXMAX v y) as [junk y1] eqn:AB.
    destruct (ask v y1) as [o y2]. destruct (o <? 0); [discriminate|]. destruct (ask v y2) as [s y3]. destruct (_ && _); [discriminate|].
    destruct (if (length bauds =? 1)%nat then _ else _) as [t y4]. destruct (if flow then _ else _) as [fl y5]. destruct (fl <? 0); [discriminate|].
    apply (fun A => FD _ _ A H). eapply unused_new; eauto.
  - unfold setup_udp in H. destruct (negb _); [discriminate|]. destruct (ask_bytes RXMAX v y) as [junk y1] eqn:AB.
    destruct (ask v y1) as [o y2]. destruct (o <? 0); [discriminate|]. destruct (if server then _ else _) as [t y4].
    apply (fun A => FD _ _ A H). eapply unused_new; eauto.
  - unfold setup_tcp in H. destruct (negb _); [discriminate|]. destruct (ask_bytes RXMAX v y) as [junk y1] eqn:AB.
    destruct (ask v y1) as [o y2]. destruct (o <? 0).
    + assert (X : schedule_reconnect v y2 i (new_ep (KTcp retry true) false junk [] (ec_filters c) (ec_group c)) retry = (y', e)) by congruence. unfold schedule_reconnect in X.
      pose proof (unused_new (KTcp retry true) false junk [] (ec_filters c) (ec_group c) _ _ _ AB) as N.
      destruct (retry <=? 0). { injection X as _ <-. exact N. } destruct (add_timer _ _ _ _). injection X as _ <-. exact N.
    + apply (fun A => FD _ _ A H). eapply unused_new; eauto.
Qed.
Lemma setup_all_unused : forall v cs y eps y' eps', setup_all v y eps cs = Some (y', eps') -> Forall (fun o => exists e, o = Some e /\ unused e) eps ->
  Forall (fun o => exists e, o = Some e /\ unused e) eps'.
Proof.
  induction cs as [|c cs IH]; intros y eps y' eps' H F; cbn [setup_all] in H. { injection H as _ <-. auto. }
  destruct (setup_ep v y (length eps) c) as [[y1 e]|] eqn:S; [|discriminate]. apply setup_unused in S. eapply IH; [exact H|].
  apply Forall_app. split; auto. constructor; [|constructor]. eauto.
Qed.
Lemma setup_log_unused : forall v y i c y' l, setup_log v y i c = (y', l) -> Forall unused l.
Proof.
  intros v y i c y' l. unfold setup_log. destruct (ask_bytes RXMAX v y) as [junk y1] eqn:AB.
  destruct (new_logger v y1 i c) as [lg y2]. destruct (lc_tlog c).
  - destruct (ask_bytes RXMAX v (mark_unfinished_logs v y2)) as [junk' y3] eqn:AB'. intros H. injection H as _ <-.
    apply Forall_cons; [eapply unused_new; exact AB|]. apply Forall_cons; [eapply unused_new; exact AB'|]. apply Forall_nil.
  - intros H. injection H as _ <-. apply Forall_cons; [eapply unused_new; exact AB|]. apply Forall_nil.
Qed.
Lemma start_unused : forall v y c w k e, start v y c = Some w -> lookup w k = Some e -> unused e.
Proof.
  intros v y c w k e H. unfold start in H. destruct (setup_all v y [] _) as [[y1 eps]|] eqn:S; [|discriminate].
  pose proof (setup_all_unused _ _ _ _ _ _ S (Forall_nil _)) as U.
  destruct (tcp_server _ _ _) as [sv y2].
  assert (LF : forall y3 logs, (match cf_log c with None => (y2, []) | Some lc => setup_log v y2 (length (link_groups eps)) lc end) = (y3, logs) -> Forall unused logs).
  { intros y3 logs X. destruct (cf_log c). { eapply setup_log_unused; eauto. } injection X as _ <-. constructor. }
  destruct (match cf_log c with None => _ | Some _ => _ end) as [y3 logs] eqn:LG. specialize (LF _ _ eq_refl).
  destruct (if cf_stats c then _ else _) as [t1 y4]. destruct (add_timer v y4 5000 CbAggregate) as [t2 y5]. injection H as <-.
  unfold lookup. cbn [w_eps]. destruct (Nat.lt_ge_cases k (length (link_groups eps))) as [A|A].
  - rewrite nth_error_app1 by auto. unfold link_groups. rewrite link_from_spec. destruct (nth_error eps k) as [o|] eqn:N; [|discriminate].
    apply nth_error_In in N. rewrite Forall_forall in U. destruct (U _ N) as (e0 & -> & UE). intros X.
    destruct (is_empty (ep_group e0)); [injection X as <-; exact UE|].
    destruct (link_one_spec (0 + k) eps 0 e0) as (l & E & _). rewrite E in X. injection X as <-. exact UE.
  - rewrite nth_error_app2 by auto. rewrite nth_error_map. destruct (nth_error logs _) as [e0|] eqn:N; [|discriminate]. cbn [option_map]. intros X. injection X as <-.
    apply nth_error_In in N. rewrite Forall_forall in LF. auto.
Qed.
Lemma framed_start : forall tbl v y c w, start v y c = Some w -> framed tbl Rest [] w.
Proof.
  intros tbl v y c w S. split; auto.
  - intros k e L. destruct (start_unused _ _ _ _ _ _ S L) as ((junk & J & E) & R). rewrite E, R. exists [], [], []. split; auto.
    split; [apply good_fresh; auto|]. split; [apply fr_end|]. split; auto.
  - intros k L. exists [], []. split; [apply fr_end|constructor].
  - intros k [].
Qed.

(* ---- every run ------------------------------------------------------------------------------------------------------------ *)

Lemma framed_facts : forall f v c m w its m' w', wf_table (v_tbl v) -> ~ ulog_configured c -> facts f v m w its m' w' ->
  forall h, Inv w -> ulog_pos c w -> framed (v_tbl v) m h w -> Inv w' /\ ulog_pos c w' /\ framed (v_tbl v) m' (h ++ its) w'.
Proof.
  intros f v c m w its m' w' WT NC H. induction H as [m w|m w its m1 w1 its' m2 w2 A B IH]; intros h I U F. { rewrite app_nil_r. auto. }
  assert (NU : no_ulog w). { intros k e L. apply (U k e L). auto. }
  pose proof (framed_fact _ _ _ h _ _ _ _ WT A I NU F) as F'.
  assert (X : Inv w1 /\ ulog_pos c w1).
  { apply fact_acts in A. clear - A WT I U. induction A as [w|w its w1 its' w2 A B IH]; auto. apply IH. { eapply inv_act; eauto. } eapply ulog_pos_act; eauto. }
  destruct X as [I1 U1]. rewrite app_assoc. apply IH; auto.
Qed.
Lemma framed_runs : forall f v c its w, wf_table (v_tbl v) -> ~ ulog_configured c -> runs f v c its w -> framed (v_tbl v) Rest its w.
Proof.
  intros f v c its w WT NC (d & pos & w0 & S & E). change its with ([] ++ its).
  apply (framed_facts f v c Rest w0 its Rest w WT NC); [apply exec_facts; auto| | |].
  - eapply inv_start; eauto.
  - eapply ulog_pos_start; eauto.
  - eapply framed_start; eauto.
Qed.
