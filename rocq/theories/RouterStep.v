(* The invariant holds in every reachable state. *)
From Verif Require Import Base Mav SpecFrame Frame FrameProofs FrameRefine FrameLink Dedup SpecAccept Accept AcceptProofs Names Sys LogFile LogFileProofs ULog Loggers LogInv LogStep RouterCtl Router RouterRoute RouterRoute2 RouterSetup RouterActs RouterInv RouterLearn.

(* ---- acts that keep it --------------------------------------------------------------------------------- *)

Lemma kept_lost : forall v y i e retry y' e' b, ep_kind e = KTcp retry b -> tcp_lost v y i e retry = (y', e') -> kept_ep e e'.
Proof. intros. apply kept_same. eapply same_lost; eauto. Qed.

Lemma kept_set_kind : forall e k, class (ep_kind e) k -> kept_ep e (set_kind e k).
Proof. intros. split; auto. Qed.

Lemma kept_os_read : forall v w i e o w' rr, os_read v w i e o = Ok (w', rr) -> lookup w i = Some e -> kept w w'.
Proof.
  intros v w i e o w' rr H L. destruct o as [bs from| |n]; cbn [os_read] in H; try (inversion H; subst; apply kept_refl).
  destruct (ep_kind e) as [bd cu tm|conf peer tm|retry vl|l] eqn:K.
  - inversion H; subst. apply kept_refl.
  - inv_bind H. inversion H; subst. eapply kept_put; eauto. apply kept_set_kind. rewrite K. cbn; auto.
  - destruct bs.
    + destruct (_ =? 0)%nat. { inversion H; subst. apply kept_refl. }
      destruct (tcp_lost v (w_sys w) i e retry) as [y1 e1] eqn:T. inversion H; subst. eapply kept_put; eauto. eapply kept_lost; eauto.
    + inversion H; subst. apply kept_refl.
  - inversion H; subst. apply kept_refl.
Qed.

Lemma kept_set_rx : forall e x st, (rx_ok (ep_rx e) -> rx_ok x) -> kept_ep e (set_rx e x st).
Proof. intros. split; auto using class_refl. Qed.

Lemma kept_baud : forall w i e w', keep_baud w i e = Ok w' -> lookup w i = Some e -> kept w w'.
Proof.
  intros w i e w' H L. unfold keep_baud in H. destruct (ep_kind e) as [bd cu [t|]|? ? ?|? ?|?] eqn:K; try (inversion H; subst; apply kept_refl).
  inv_bind H. inversion H; subst. eapply kept_put; eauto. apply kept_set_kind. rewrite K. cbn. auto.
Qed.

Lemma kept_mod_fd : forall v y e b y' e' r, mod_fd v y e b = (y', e', r) -> kept_ep e e'.
Proof.
  intros v y e b y' e' r H. unfold mod_fd in H. destruct (ask v y) as [a y1]. destruct (ep_poll e) eqn:P.
  - destruct (a <? 0); inversion H; subst; auto using kept_ep_refl. split; cbn; auto using class_refl. congruence.
  - inversion H; subst. apply kept_ep_refl.
Qed.

Lemma kept_aggregate : forall w w', cb_aggregate w = Ok w' -> kept w w'.
Proof.
  intros w w' H. unfold cb_aggregate in H.
  assert (K : forall l u u', fold_left (fun rw i => let* w := rw in let* e := get w i in Ok (put w i (set_wstat e (ep_wtotal e) (ep_wbytes e) 0))) l (Ok u) = Ok u' -> kept u u').
  { assert (NU : forall l (s : res world), (forall u, s <> Ok u) -> forall u', fold_left (fun rw i => let* w := rw in let* e := get w i in Ok (put w i (set_wstat e (ep_wtotal e) (ep_wbytes e) 0))) l s <> Ok u').
    { induction l; intros s N u'; cbn [fold_left]; [apply N|]. apply IHl. intros u. destruct s; cbn; congruence || (exfalso; eapply N; eauto; fail). }
    induction l; intros u u' X; cbn [fold_left] in X. { inversion X; subst. apply kept_refl. }
    cbn [bind] in X. destruct (get u a) as [e| |] eqn:E; cbn [bind] in X; try (exfalso; eapply NU; [|exact X]; intros; discriminate).
    apply get_lookup in E. eapply kept_trans; [|apply IHl; exact X]. eapply kept_put0; eauto. split; auto using class_refl. }
  apply K in H. eapply kept_trans; [|exact H]. split; auto. intros i. apply kept_opt_refl.
Qed.

Lemma kept_log_cb : forall w i k f v w' its again, log_cb w i k f v = Ok (w', its, again) ->
  (forall g b y g' b' cs ag, k g b = Ok (y, g', b', cs, ag) -> Forall ctl_ok cs /\ is_ulog b' = is_ulog b) -> kept w w'.
Proof.
  intros w i k f v w' its again H C. unfold log_cb in H. inv_bind H. apply get_lookup in E. rename a into e.
  destruct (ep_kind e) as [| | |[g b|a]] eqn:K; try discriminate.
  - inv_bind H. inv_bind H. inversion H; subst. apply C in E0. destruct E0 as [E0 EU]. eapply kept_trans; [|eapply kept_ctls; eauto].
    eapply kept_put; eauto. apply kept_set_kind. rewrite K. first [exact EU|exact I].
  - destruct (a_inner a) as [[g b]|]; [|discriminate]. inv_bind H. inv_bind H. inversion H; subst. apply C in E0. destruct E0 as [E0 EU]. eapply kept_trans; [|eapply kept_ctls; eauto].
    eapply kept_put; eauto. apply kept_set_kind. rewrite K. first [exact EU|exact I].
Qed.

Lemma kept_run_cb : forall f v w cb w' its again, run_cb f v w cb = Ok (w', its, again) -> kept w w'.
Proof.
  intros f v w cb w' its again H. destruct cb; cbn [run_cb] in H.
  - inv_bind H. inversion H; subst. apply kept_aggregate; auto.
  - inversion H; subst. apply kept_refl.
  - inv_bind H. inversion H; subst. unfold cb_baud in E. inv_bind E. apply get_lookup in E0. match type of E with context [ep_kind ?q] => rename q into a0 end. destruct (ep_kind a0) as [bd cu tm| | |] eqn:K; try discriminate.
    destruct bd; [discriminate|]. destruct (ask _ _). inversion E; subst. eapply kept_put; eauto. apply kept_set_kind. rewrite K. cbn; auto.
  - inv_bind H. inversion H; subst. unfold cb_nomsg in E. inv_bind E. apply get_lookup in E0. match type of E with context [ep_kind ?q] => rename q into a0 end. destruct (ep_kind a0) as [|c p [t|]| |] eqn:K; try discriminate.
    inv_bind E. inversion E; subst. eapply kept_put; eauto. apply kept_set_kind. rewrite K. cbn; auto.
  - inv_bind H. inversion H; subst. unfold cb_retry in E. inv_bind E. apply get_lookup in E0. destruct (ep_kind a) as [| |r vl|] eqn:K; try discriminate.
    assert (T : is_tcp a = true) by (unfold is_tcp; rewrite K; auto).
    destruct (ask _ _) as [q y]. destruct (q <? 0). { inversion E; subst. eapply kept_put; eauto. split; auto using class_refl; congruence. }
    unfold add_fd in E. destruct (ask v y) as [q2 y2]. inversion E; subst. eapply kept_put; eauto. split; auto; try congruence. cbn. rewrite K. cbn; auto.
  - eapply kept_log_cb; eauto. intros g b y g' b' cs ag X. cbn in X. destruct (lcb_start (w_sys w) g b) as [[y1 g1] cs1] eqn:E. inversion X; subst. split; auto. eapply ctl_cb_start; eauto.
  - eapply kept_log_cb; eauto. intros g b y g' b' cs ag X. cbn in X. inversion X; subst. auto.
  - eapply kept_log_cb; eauto. intros g b y g' b' cs ag X. cbn in X. inv_bind X. inversion X; subst. split; [eapply ctl_cb_alive; eauto|eapply alive_kind; eauto].
Qed.

Lemma kept_timer : forall f v w t fired w' its, timer_read f v w t fired = Ok (w', its) -> kept w w'.
Proof.
  intros f v w t fired w' its H. unfold timer_read in H. destruct (find_timer _ _); [|discriminate].
  destruct (_ || _). { inversion H; subst. apply kept_refl. }
  inv_bind H. inv_bind H. inversion H; subst. apply kept_run_cb in E. eapply kept_trans; [exact E|apply kept_sys].
Qed.

(* ---- hang-ups ------------------------------------------------------------------------------------------------ *)

Lemma held_spec : forall w i, held w i = true <-> exists k e, lookup w k = Some e /\ In i (ep_members e).
Proof.
  intros. unfold held, lookup. rewrite existsb_exists. split.
  - intros ([e|] & I & H); [|discriminate]. apply existsb_exists in H. destruct H as (j & J & E). apply Nat.eqb_eq in E. subst j.
    apply In_nth_error in I. destruct I as (k & K). exists k, e. rewrite K. auto.
  - intros (k & e & L & I). destruct (nth_error (w_eps w) k) as [[x|]|] eqn:N; inversion L; subst x. exists (Some e). split. { eapply nth_error_In; eauto. }
    apply existsb_exists. exists i. split; auto. apply Nat.eqb_refl.
Qed.

Definition sym (w : world) : Prop :=
  forall i e j, lookup w i = Some e -> In j (ep_members e) -> exists e', lookup w j = Some e' /\ In i (ep_members e').
Lemma inv_sym : forall w, Inv w -> sym w.
Proof.
  intros w I i e j L J. destruct (i_mem w I i e j L J) as (N & e' & L' & G). exists e'. split; auto. eapply (i_clique w I); eauto using grouped_sym.
Qed.

Definition valid_at (w : world) (i : nat) : bool := match lookup w i with Some e => is_valid e | None => true end.

Lemma lookup_drop_eq : forall w i, lookup (set_eps w (set_nth i None (w_eps w))) i = None.
Proof.
  intros. unfold lookup. cbn. destruct (Nat.lt_ge_cases i (length (w_eps w))).
  - rewrite nth_error_set_nth_eq; auto.
  - rewrite (proj2 (nth_error_None _ _)); auto. rewrite set_nth_length. auto.
Qed.
Lemma lookup_drop_neq : forall w i k, i <> k -> lookup (set_eps w (set_nth i None (w_eps w))) k = lookup w k.
Proof. intros. unfold lookup. cbn. rewrite nth_error_set_nth_neq; auto. Qed.

Lemma hangups_spec : forall order w w' o its, hangups w order = Ok (w', o, its) -> sym w ->
  w' = set_eps w (w_eps w') /\ length (w_eps w') = length (w_eps w) /\
  o = filter (valid_at w) order /\ its = map IGone (filter (fun i => negb (valid_at w i)) order) /\
  (forall k, lookup w' k = if existsb (Nat.eqb k) order && negb (valid_at w k) && negb (held w k) then None else lookup w k).
Proof.
  induction order as [|i r IH]; intros w w' o its H S; cbn [hangups] in H.
  - inversion H; subst. repeat split; auto. destruct w'; auto.
  - inv_bind H. apply get_lookup in E. rename a into e. cbn [filter existsb].
    assert (VA : valid_at w i = is_valid e) by (unfold valid_at; rewrite E; auto). rewrite VA.
    destruct (is_valid e) eqn:V.
    + inv_bind H. inversion H; subst; clear H. destruct (IH _ _ _ _ E0 S) as (A & B & C & D & F). cbn [negb].
      repeat split; auto. { congruence. } intros k. rewrite F. destruct (Nat.eqb_spec k i) as [->|N]; cbn [orb]; auto.
      rewrite VA. cbn [negb]. rewrite !andb_false_r. auto.
    + destruct (held w i) eqn:HD.
      * inv_bind H. inversion H; subst; clear H. destruct (IH _ _ _ _ E0 S) as (A & B & C & D & F). cbn [negb map].
        repeat split; auto. { congruence. } intros k. rewrite F. destruct (Nat.eqb_spec k i) as [->|N]; cbn [orb]; auto.
        rewrite HD. cbn [negb]. rewrite !andb_false_r. auto.
      * set (w1 := set_eps w (set_nth i None (w_eps w))) in *. inv_bind H. inversion H; subst; clear H.
        assert (M0 : ep_members e = []).
        { destruct (ep_members e) as [|j q] eqn:M; auto. exfalso. assert (IJ0 : In j (ep_members e)) by (rewrite M; left; auto). destruct (S i e j E IJ0) as (ej & LJ & IJ).
          assert (X : held w i = true) by (apply held_spec; eauto). congruence. }
        assert (NH : forall k ek, lookup w k = Some ek -> ~ In i (ep_members ek)).
        { intros k ek LK X. assert (Y : held w i = true) by (apply held_spec; eauto). congruence. }
        assert (S1 : sym w1).
        { intros a ea j LA J. destruct (Nat.eq_dec i a) as [<-|NA]. { unfold w1 in LA. rewrite lookup_drop_eq in LA. discriminate. }
          unfold w1 in LA. rewrite lookup_drop_neq in LA by auto. destruct (S a ea j LA J) as (ej & LJ & IJ). exists ej. split; auto.
          unfold w1. rewrite lookup_drop_neq; auto. intros ->. exact (NH a ea LA J). }
        assert (HE : forall k, held w1 k = held w k).
        { intros k. apply eq_true_iff_eq. rewrite !held_spec. split; intros (a & ea & LA & J).
          - destruct (Nat.eq_dec i a) as [<-|NA]. { unfold w1 in LA. rewrite lookup_drop_eq in LA. discriminate. }
            unfold w1 in LA. rewrite lookup_drop_neq in LA by auto. eauto.
          - exists a, ea. split; auto. unfold w1. rewrite lookup_drop_neq; auto. intros <-. rewrite E in LA. inversion LA; subst. rewrite M0 in J. destruct J. }
        destruct (IH _ _ _ _ E0 S1) as (A & B & C & D & F).
        assert (NI : ~ In i r).
        { (* a second occurrence would be a use after free *)
          intros X. clear - E0 X.
          assert (G : forall q u u' uo ui, hangups u q = Ok (u', uo, ui) -> In i q -> lookup u i = None -> False).
          { induction q as [|c q IH]; intros u u' uo ui H J L; [destruct J|]. cbn [hangups] in H. inv_bind H. apply get_lookup in E.
            destruct J as [->|J]; [congruence|]. match type of H with context [is_valid ?z] => destruct (is_valid z) end.
            - inv_bind H. eapply IH; eauto.
            - inv_bind H. eapply IH; eauto. destruct (held u c); auto. destruct (Nat.eq_dec c i) as [->|N]; [congruence|]. rewrite lookup_drop_neq; auto. }
          eapply G; eauto. apply lookup_drop_eq. }
        assert (VN : forall k, k <> i -> valid_at w1 k = valid_at w k).
        { intros k N. unfold valid_at, w1. rewrite lookup_drop_neq; auto. }
        cbn [negb map].
        split. { rewrite A. reflexivity. } split. { rewrite B. unfold w1. cbn. apply set_nth_length. }
        split. { rewrite C. apply filter_ext_in. intros a X. apply VN. intros ->; auto. }
        split. { rewrite D. do 2 f_equal. apply filter_ext_in. intros a X. f_equal. apply VN. intros ->; auto. }
        intros k. rewrite F. destruct (Nat.eqb_spec k i) as [->|N]; cbn [orb].
        -- rewrite VA, HD. cbn [negb andb]. unfold w1. rewrite lookup_drop_eq. destruct (_ && _ && _); auto.
        -- rewrite VN, HE by auto. unfold w1. rewrite lookup_drop_neq by auto. auto.
Qed.

Lemma inv_sub : forall w w', Inv w -> (forall i e, lookup w' i = Some e -> lookup w i = Some e) ->
  (forall i e j, lookup w' i = Some e -> In j (ep_members e) -> lookup w' j = lookup w j) ->
  NoDup (w_order w') -> (forall i, In i (w_order w') -> lookup w' i <> None) -> w_unknown w' = w_unknown w -> Inv w'.
Proof.
  intros w w' I S M N A U. split; auto.
  - intros i e L. apply S in L. eapply (i_logs w I); eauto.
  - intros i e j L J. pose proof (M i e j L J) as X. apply S in L. destruct (i_mem w I i e j L J) as (NE & e' & L' & G). split; auto. exists e'. split; auto. congruence.
  - intros i e j e' L L' NE G. apply S in L, L'. eapply (i_clique w I); eauto.
  - intros i e j e' L L' G. apply S in L, L'. eapply (i_same w I); eauto.
  - intros i e L. apply S in L. eapply (i_ids w I); eauto.
  - intros i e L. apply S in L. eapply (i_rx w I); eauto.
  - rewrite U. apply I.
Qed.

Lemma inv_hangups : forall w w' its, process_hangups w = Ok (w', its) -> Inv w -> Inv w'.
Proof.
  intros w w' its H I. unfold process_hangups in H. destruct (w_hang w); [|inversion H; subst; auto].
  inv_bind H. inversion H; subst; clear H. destruct (hangups_spec _ _ _ _ _ E (inv_sym _ I)) as (A & B & C & D & F).
  assert (LK : forall k, lookup (set_hang (set_order w0 l0) false) k = lookup w0 k) by reflexivity.
  eapply (inv_sub w); auto.
  - intros i e L. rewrite LK, F in L. destruct (_ && _); [discriminate|auto].
  - intros i e j L J. rewrite LK in *. rewrite F in L |- *. destruct (existsb (Nat.eqb i) (w_order w) && negb (valid_at w i) && negb (held w i)); [discriminate|].
    assert (X : held w j = true) by (apply held_spec; eauto). rewrite X. cbn [negb]. rewrite andb_false_r. auto.
  - cbn. rewrite C. apply NoDup_filter. apply I.
  - cbn [w_order set_hang set_order]. intros i X. rewrite LK. rewrite C in X. apply filter_In in X. destruct X as [X V]. rewrite F, V. cbn [negb]. rewrite andb_false_r. cbn [andb].
    apply (i_alive w I); auto.
  - cbn. rewrite A. reflexivity.
Qed.

(* ---- a new TCP client ------------------------------------------------------------------------------------------ *)

Lemma ask_bytes_ok : forall n v y r y', ask_bytes n v y = (r, y') -> length r = n /\ bytes r.
Proof.
  induction n; intros v y r y' H; cbn [ask_bytes] in H. { inversion H; subst. split; auto. constructor. }
  destruct (ask v y) as [b y1]. destruct (ask_bytes n v y1) as [q y2] eqn:E. inversion H; subst. apply IHn in E. destruct E. split; [cbn; auto|].
  constructor; auto. unfold is_byte, u8. apply Z.mod_pos_bound. lia.
Qed.
Lemma rx_ok_fresh : forall n v y r y', ask_bytes n v y = (r, y') -> n = RXMAX -> rx_ok (rx_fresh r).
Proof. intros n v y r y' H ->. apply ask_bytes_ok in H. destruct H as [L B]. split; auto. exists []. apply good_fresh; auto. Qed.

Lemma lookup_app : forall w l w' k, w_eps w' = w_eps w ++ l -> (k < length (w_eps w))%nat -> lookup w' k = lookup w k.
Proof. intros w l w' k E L. unfold lookup. rewrite E, nth_error_app1; auto. Qed.

Lemma inv_conn : forall v w, Inv w -> Inv (fst (tcp_connection v w)).
Proof.
  intros v w I. unfold tcp_connection. destruct (ask v (w_sys w)) as [r y]. destruct (r <? 0). { apply (kept_inv w); auto. apply kept_sys. }
  destruct (ask_bytes RXMAX v y) as [junk y1] eqn:AB. unfold add_fd. destruct (ask v y1) as [q y2]. cbn [fst].
  set (e := set_fd (new_ep (KTcp 0 true) true junk [] no_filters []) true (if q <? 0 then None else Some false)).
  set (w' := set_order _ _). set (n := length (w_eps w)).
  assert (LN : lookup w' n = Some e).
  { unfold lookup, w'. cbn. rewrite nth_error_app2 by (unfold n; lia). unfold n. rewrite Nat.sub_diag. reflexivity. }
  assert (LO : forall k x, lookup w' k = Some x -> (k = n /\ x = e) \/ lookup w k = Some x).
  { intros k x L. pose proof (lookup_len _ _ _ L) as LL. unfold w' in LL. cbn in LL. rewrite app_length in LL. cbn in LL.
    destruct (Nat.eq_dec k n) as [->|N]. { left. split; auto. congruence. }
    right. rewrite <- L. symmetry. apply (lookup_app w [Some e]); auto. lia. }
  assert (LI : forall k x, lookup w k = Some x -> lookup w' k = Some x).
  { intros k x L. rewrite <- L. apply (lookup_app w [Some e]); auto. eapply lookup_len; eauto. }
  assert (GE : ep_group e = []) by reflexivity.
  split.
  - unfold w'. cbn.
    assert (ND : NoDup (w_order w)) by apply I. assert (NI : ~ In n (w_order w)).
    { intros X. apply (i_alive w I) in X. destruct (lookup w n) eqn:Z0; [|congruence]. apply lookup_len in Z0. unfold n in Z0. lia. }
    clear - ND NI. induction (w_order w) as [|a l IH]; cbn; [repeat constructor; auto|]. inversion ND; subst. constructor.
    + intros X. apply in_app_or in X. destruct X as [X|[X|[]]]; auto. apply NI. left; auto.
    + apply IH; auto. intros X. apply NI. right; auto.
  - unfold w' at 1. cbn. intros k X. apply in_app_or in X. destruct X as [X|[<-|[]]].
    + apply (i_alive w I) in X. destruct (lookup w k) eqn:Z0; [|congruence]. rewrite (LI _ _ Z0). congruence.
    + fold n. rewrite LN. congruence.
  - intros k x L G. destruct (LO _ _ L) as [[-> ->]|L0]; [discriminate|]. eapply (i_logs w I); eauto.
  - intros k x j L J. destruct (LO _ _ L) as [[-> ->]|L0]; [destruct J|]. destruct (i_mem w I k x j L0 J) as (NE & e' & L' & G). split; auto. exists e'. split; auto.
  - intros k x j x' L L' NE G. destruct (LO _ _ L) as [[-> ->]|L0]. { destruct G as [_ G]. congruence. }
    destruct (LO _ _ L') as [[-> ->]|L0']. { destruct G as [G1 G2]. congruence. } eapply (i_clique w I); eauto.
  - intros k x j x' L L' G. destruct (LO _ _ L) as [[-> ->]|L0]. { destruct G as [_ G]. congruence. }
    destruct (LO _ _ L') as [[-> ->]|L0']. { destruct G as [G1 G2]. congruence. } eapply (i_same w I); eauto.
  - intros k x L. destruct (LO _ _ L) as [[-> ->]|L0]. { cbn. split; constructor. } eapply (i_ids w I); eauto.
  - intros k x L. destruct (LO _ _ L) as [[-> ->]|L0]. { cbn. eapply rx_ok_fresh; eauto. } eapply (i_rx w I); eauto.
  - unfold w'. cbn. apply I.
Qed.

(* ---- receiving a packet ----------------------------------------------------------------------------------------- *)

Lemma check_dup_eps : forall v w pkt w' b, check_dup v w pkt = Ok (w', b) -> w_eps w' = w_eps w /\ kept w w'.
Proof.
  intros v w pkt w' b H. unfold check_dup in H. destruct (_ =? 0). { inversion H; subst. split; auto. apply kept_refl. }
  destruct (ask v (w_sys w)) as [now y]. inv_bind H. inversion H; subst. split; auto.
  eapply kept_trans; [apply (kept_sys w y)|apply kept_dedup].
Qed.

Lemma handle_inv : forall f v w i m w' its, handle_msg f v w i m = Ok (w', its) ->
  exists e pkt w1 fresh, lookup w i = Some e /\ slice (rx_data (ep_rx e)) 0 (m_len m) = Ok pkt /\ check_dup v w pkt = Ok (w1, fresh) /\
  ((fresh = false /\ w' = w1 /\ its = [IRecv i pkt m Duplicate []]) \/
   (fresh = true /\ allowed_in (ep_filters e) m = false /\ w' = w1 /\ its = [IRecv i pkt m Refused []]) \/
   (fresh = true /\ allowed_in (ep_filters e) m = true /\ exists w2 e2 w3 mem ds its' e3,
      learn (Datatypes.S (length (w_eps w1))) w1 i (m_ssys m * 256 + m_scomp m) = Ok w2 /\ lookup w2 i = Some e2 /\
      route NEST f v w2 (rx_data (ep_rx e2)) m = Ok (w3, mem, ds, its') /\ lookup w3 i = Some e3 /\
      w' = put w3 i (set_rx e3 (mkRx mem (rx_len (ep_rx e3)) (rx_last (ep_rx e3))) (ep_rstat e3)) /\
      its = IRecv i pkt m Routed ds :: its')).
Proof.
  intros f v w i m w' its H. unfold handle_msg in H. inv_bind H. apply get_lookup in E. rename a into e. inv_bind H. rename a into pkt. inv_bind H.
  exists e, pkt, w0, b. repeat split; auto. destruct b; cbn [negb] in H.
  - right. destruct (allowed_in (ep_filters e) m) eqn:A; cbn [negb] in H.
    + right. split; auto. split; auto. inv_bind H. inv_bind H. inv_bind H. inv_bind H. inversion H; subst. apply get_lookup in E3, E5.
      do 7 eexists. repeat split; eauto.
    + left. inversion H; subst. auto.
  - left. inversion H; subst. auto.
Qed.

Lemma wf_meta_info : forall tbl p, wf_packet p -> wf_meta (info_of tbl p).
Proof.
  intros tbl p (H1&H2&H3&H4&H5&H6&H7&H8). unfold wf_meta, info_of. cbn.
  assert (N : forall o, 0 <= nth o (p_payload p) 0 < 256).
  { intros o. destruct (Nat.lt_ge_cases o (length (p_payload p))). { unfold bytes in H6; rewrite Forall_forall in H6; apply H6; apply nth_In; auto. } rewrite nth_overflow by auto. lia. }
  assert (T : forall fld, -1 <= target_spec p fld < 256).
  { intros [[o|]|]; cbn; try lia; specialize (N o); lia. }
  repeat split; try apply H2; try apply H3; try apply T.
  - destruct (p_ver p); [unfold is_byte in H8; lia|lia].
  - destruct (p_ver p); [unfold is_byte in H8; lia|lia].
Qed.

Definition sender (m : minfo) : Z := m_ssys m * 256 + m_scomp m.

Lemma inv_handle : forall f v w i m w' its e, handle_msg f v w i m = Ok (w', its) -> Inv w -> lookup w i = Some e -> ep_fd e = true ->
  rx_last (ep_rx e) <> 0%nat -> wf_meta m -> Inv w'.
Proof.
  intros f v w i m w' its e H I L F RL (B1 & B2 & _). destruct (handle_inv _ _ _ _ _ _ _ H) as (e0 & pkt & w1 & fresh & L0 & SL & CD & C).
  rewrite L in L0. inversion L0; subst e0; clear L0. destruct (check_dup_eps _ _ _ _ _ CD) as [EE KD].
  assert (I1 : Inv w1) by (eapply kept_inv; eauto).
  destruct C as [(_ & -> & _)|[(_ & _ & -> & _)|(_ & _ & w2 & e2 & w3 & mem & ds & its' & e3 & LE & L2 & RT & L3 & -> & _)]]; auto.
  assert (L1 : lookup w1 i = Some e) by (unfold lookup in *; rewrite EE; auto).
  assert (NL : is_log e = false). { destruct (is_log e) eqn:G; auto. destruct (i_logs w I i e L G) as (_ & _ & X & _). congruence. }
  unfold is_byte in *.
  assert (I2 : Inv w2) by (eapply learn_inv_world; eauto; lia).
  pose proof (route_spec _ _ _ _ _ _ _ _ _ _ RT) as (R & MO & _ & _). pose proof (kept_route _ _ _ _ _ _ _ _ _ RT) as K3.
  assert (I3 : Inv w3) by (eapply kept_inv; eauto).
  apply (kept_inv w3); auto. eapply kept_put0; eauto. apply kept_set_rx. intros X.
  pose proof (ro_ep _ _ R i) as SE. rewrite L2, L3 in SE. cbn in SE. apply rx_ok_changed; auto.
  - rewrite (se_rx _ _ SE). auto.
  - rewrite (se_rx _ _ SE). destruct (learn_exact _ _ _ _ _ _ LE I1 L1) as [T _]. destruct (taught_lookup _ _ _ _ _ T L1) as (x & LX & TX).
    rewrite L2 in LX. inversion LX; subst. apply taught_ep_fields in TX. destruct TX as (_ & _ & _ & _ & -> & _). auto.
Qed.

(* the endpoint when handle_msg is called *)
Lemma recv_before : forall f v w i e rr x st known m w1, wf_table (v_tbl v) -> Inv w -> lookup w i = Some e -> ep_fd e = true -> wf_rd rr ->
  read_msg (v_tbl v) (ep_rx e) (ep_rstat e) rr = Ok (x, st, RetMsg known m) ->
  (if known then keep_baud (put w i (set_rx e x st)) i (set_rx e x st) else Ok (put w i (set_rx e x st))) = Ok w1 ->
  forall its w2, handle_msg f v w1 i m = Ok (w2, its) ->
  kept w w1 /\ w_dedup w1 = w_dedup w /\ exists e1 p, lookup w1 i = Some e1 /\ ep_fd e1 = true /\ kept_ep e e1 /\ ep_rx e1 = x /\ rx_last x <> 0%nat /\
  wf_packet p /\ acceptable (v_tbl v) p /\ m = info_of (v_tbl v) p /\ m_len m = length (encode p) /\ slice (rx_data x) 0 (m_len m) = Ok (encode p).
Proof.
  intros f v w i e rr x st known m w1 WT I L F WR RM KB its w2 _.
  destruct (read_msg_ok _ _ _ _ _ _ _ WT (i_rx w I i e L) WR RM) as [RX P]. destruct (P known m eq_refl) as (p & P1 & P2 & P3 & P4 & P5 & P6).
  assert (KE : kept_ep e (set_rx e x st)) by (apply kept_set_rx; auto).
  assert (LP : lookup (put w i (set_rx e x st)) i = Some (set_rx e x st)) by (eapply lookup_put_eq; eauto).
  assert (K0 : kept w (put w i (set_rx e x st))) by (eapply kept_put0; eauto).
  assert (K1 : kept (put w i (set_rx e x st)) w1). { destruct known. { eapply kept_baud; eauto. } inversion KB; subst. apply kept_refl. }
  split; [eapply kept_trans; eauto|].
  assert (FIN : forall e1 u, lookup u i = Some e1 -> ep_fd e1 = ep_fd e -> kept_ep e e1 -> ep_rx e1 = x -> w_dedup u = w_dedup w -> w_dedup u = w_dedup w /\ exists e1 p, lookup u i = Some e1 /\ ep_fd e1 = true /\ kept_ep e e1 /\ ep_rx e1 = x /\ rx_last x <> 0%nat /\
    wf_packet p /\ acceptable (v_tbl v) p /\ m = info_of (v_tbl v) p /\ m_len m = length (encode p) /\ slice (rx_data x) 0 (m_len m) = Ok (encode p)).
  { intros e1 u A B C D DD. split; auto. exists e1, p. rewrite B. tauto. }
  destruct known.
  - unfold keep_baud in KB. destruct (ep_kind (set_rx e x st)) as [bd cu [t|]|? ? ?|? ?|?] eqn:K;
      try (inversion KB; subst w1; apply (FIN (set_rx e x st)); auto; fail).
    inv_bind KB. inversion KB; subst w1. apply (FIN (set_kind (set_rx e x st) (KUart bd cu None))); auto.
    { eapply lookup_put_eq. exact LP. } { eapply kept_ep_trans; [exact KE|]. apply kept_set_kind. rewrite K. cbn; auto. }
  - inversion KB; subst w1. apply (FIN (set_rx e x st)); auto.
Qed.

Lemma inv_act : forall f v w its w', wf_table (v_tbl v) -> act f v w its w' -> Inv w -> Inv w'.
Proof.
  intros f v w its w' WT A I. inversion A; subst.
  - eapply kept_inv; [eapply kept_os_read; eauto|auto].
  - eapply kept_inv; [|exact I]. eapply kept_put0; eauto. apply kept_set_rx. intros X. eapply read_msg_ok; eauto.
  - destruct (recv_before f v w i e rr x st known m w1 WT I H H0 H1 H2 H3 _ _ H4) as (K & _ & e1 & p & L1 & F1 & KE & RX & RL & P1 & P2 & P3 & _).
    eapply inv_handle; eauto. { eapply kept_inv; eauto. } { rewrite RX; auto. } subst m. apply wf_meta_info; auto.
  - apply inv_conn; auto.
  - eapply kept_inv; [|exact I]. eapply kept_put; eauto. eapply kept_mod_fd; eauto.
  - eapply kept_inv; [eapply kept_timer; eauto|auto].
  - eapply kept_inv; [apply kept_exit|auto].
  - eapply kept_inv; [apply kept_hang|auto].
  - eapply inv_hangups; eauto.
  - eapply kept_inv; [apply kept_sys|auto].
Qed.
