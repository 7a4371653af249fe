(* The timers of the router: which live timers there are in a reachable state, and what can happen to them. *)
From Verif Require Import Base Mav Frame Dedup Accept Names NamesProofs Sys LogFile LogFileProofs ULog Loggers LogInv LogStep LogMono
  RouterCtl Router RouterRoute RouterSetup RouterActs RouterInv RouterStep.

(* the endpoint a callback works on *)
Definition owner (cb : callback) : option nat :=
  match cb with
  | CbAggregate | CbStats => None
  | CbBaud i | CbNoMsg i | CbRetry i | CbLogStart i | CbFsync i | CbAlive i => Some i
  end.
Definition fits (cb : callback) (k : kind) : Prop :=
  match cb, k with
  | CbBaud _, KUart _ _ _ | CbNoMsg _, KUdp _ _ _ | CbRetry _, KTcp _ _ | CbLogStart _, KLog _ | CbFsync _, KLog _ | CbAlive _, KLog _ => True
  | _, _ => False
  end.

Definition alive (y : sys) (t : timer) : Prop := In t (y_timers y) /\ tm_dead t = false.

(* the live timers of endpoint [k]; [arm]: the interval of the timer of a UDP client *)
Definition held_timers (v : env) (arm : Z) (y : sys) (k : nat) (e : ep) : Prop :=
  (forall t, alive y t -> owner (tm_cb t) = Some k -> fits (tm_cb t) (ep_kind e)) /\
  match ep_kind e with
  | KUart _ _ p => ptr_ok y p (CbBaud k) /\ (forall t, alive y t -> tm_cb t = CbBaud k -> p = Some (tm_id t) /\ tm_ms t = 5000)
  | KUdp _ _ p => ptr_ok y p (CbNoMsg k) /\ (forall t, alive y t -> tm_cb t = CbNoMsg k -> p = Some (tm_id t) /\ tm_ms t = arm)
  | KTcp r vl =>
    (vl = false -> r <= 0) /\
    (forall t, alive y t -> tm_cb t = CbRetry k -> ep_fd e = false /\ 0 < r /\ tm_ms t = u32 (1000 * r)) /\
    (forall t t', alive y t -> alive y t' -> tm_cb t = CbRetry k -> tm_cb t' = CbRetry k -> t' = t) /\
    ((forall p, v_tmr v p = true) -> ep_fd e = false -> 0 < r -> exists t, alive y t /\ tm_cb t = CbRetry k)
  | KLog (LFile g _) => l_ep g = k /\ linv y g
  | KLog (LAuto a) => a_ep a = k /\
    match a_inner a with
    | Some (g, _) => l_ep g = k /\ linv y g
    | None => forall t, alive y t -> LogInv.log_cb (tm_cb t) <> Some k
    end
  end.

Record T (v : env) (arm : nat -> Z) (w : world) : Prop := mkT {
  t_sys : sys_ok (w_sys w);
  t_ep : forall k e, lookup w k = Some e -> held_timers v (arm k) (w_sys w) k e;
  t_owner : forall t k, alive (w_sys w) t -> owner (tm_cb t) = Some k -> exists e, lookup w k = Some e }.

(* only live timers of endpoint [k] changed *)
Definition frame (k : nat) (y y' : sys) : Prop :=
  sys_ok y' /\ forall t j, owner (tm_cb t) = Some j -> j <> k -> (alive y t <-> alive y' t).

Lemma frame_refl : forall k y, sys_ok y -> frame k y y.
Proof. intros. split; auto. tauto. Qed.
Lemma frame_trans : forall k a b c, frame k a b -> frame k b c -> frame k a c.
Proof. intros k a b c [A1 A2] [B1 B2]. split; auto. intros t j O N. rewrite (A2 t j O N). eauto. Qed.
Lemma frame_same : forall k y y', y_timers y' = y_timers y -> y_next y' = y_next y -> sys_ok y -> frame k y y'.
Proof. intros k y y' A B S. unfold frame, sys_ok, alive. rewrite A, B. split; auto. tauto. Qed.
Lemma frame_mono : forall k y g y' g', calm y g y' g' -> sys_ok y -> frame k y y'.
Proof. intros k y g y' g' [] S. apply frame_same; auto. Qed.

Lemma same_id : forall y t s, sys_ok y -> In t (y_timers y) -> In s (y_timers y) -> tm_id t = tm_id s -> t = s.
Proof.
  intros y t s (ND & _) I I' E. clear - ND I I' E. induction (y_timers y) as [|a l IH]; [destruct I|].
  cbn in ND. inversion ND; subst. destruct I as [->|I], I' as [->|I']; auto.
  - exfalso. apply H1. rewrite E. apply in_map; auto.
  - exfalso. apply H1. rewrite <- E. apply in_map; auto.
Qed.

Lemma frame_add : forall v y ms cb r y' k, add_timer v y ms cb = (r, y') -> sys_ok y -> owner cb = Some k \/ owner cb = None -> frame k y y'.
Proof.
  intros v y ms cb r y' k H S O. destruct (add_timer_spec _ _ _ _ _ _ H S) as (S' & _ & _ & _ & R). split; auto.
  intros t j Q N. unfold alive. destruct r as [id|].
  - destruct R as (_ & R & _). rewrite R. split; intros [I D]; split; auto. { right; auto. }
    destruct I as [<-|I]; auto. cbn [tm_cb] in Q. destruct O; congruence.
  - destruct R as [R _]. rewrite R. tauto.
Qed.

Lemma del_spec : forall y id y', del_timer y id = Ok y' -> sys_ok y ->
  sys_ok y' /\ y_timers y' = mark_dead id (y_timers y) /\ (forall t, alive y' t <-> alive y t /\ tm_id t <> id).
Proof.
  intros y id y' H S. unfold del_timer in H. destruct (has_timer y id); inversion H; subst; clear H.
  cbn [y_timers set_timers]. split.
  { destruct S as [ND LT]. split; cbn [y_timers y_next set_timers].
    - fold (mark_dead id (y_timers y)). rewrite mark_dead_ids. auto.
    - apply Forall_forall. intros s Hs. apply in_map_iff in Hs. destruct Hs as (s0 & <- & I0).
      rewrite Forall_forall in LT. specialize (LT _ I0). destruct (Nat.eqb _ _); auto. }
  split; [reflexivity|]. intros t. unfold alive. cbn [y_timers set_timers]. fold (mark_dead id (y_timers y)). split.
  - intros [I D]. destruct (mark_dead_in _ _ _ I D). auto.
  - intros [[I D] N]. split; auto. apply mark_dead_keeps; auto.
Qed.
Lemma frame_del : forall y id y' t k, del_timer y id = Ok y' -> sys_ok y -> alive y t -> tm_id t = id -> owner (tm_cb t) = Some k ->
  frame k y y'.
Proof.
  intros y id y' t k H S A E O. destruct (del_spec _ _ _ H S) as (S' & _ & R). split; auto. intros s j Q N. rewrite R.
  split; [|tauto]. intros B. split; auto. intros X. apply N. assert (Z : s = t); [|congruence]. apply (same_id y); [exact S|apply B|apply A|congruence].
Qed.

Lemma mod_spec : forall y id ms y', mod_timer y id ms = Ok y' -> sys_ok y -> sys_ok y' /\
  (forall t, alive y' t <-> (alive y t /\ tm_id t <> id) \/ (exists s, alive y s /\ tm_id s = id /\ t = mkTimer id (tm_cb s) (u32 ms) false)).
Proof.
  intros y id ms y' H S. unfold mod_timer in H. destruct (has_timer y id); inversion H; subst; clear H. split.
  { destruct S as [ND LT]. split; cbn [y_timers y_next set_timers].
    - rewrite map_map. erewrite map_ext; [exact ND|]. intros t. cbn. destruct (Nat.eqb _ _); auto.
    - apply Forall_forall. intros s Hs. apply in_map_iff in Hs. destruct Hs as (s0 & <- & I0).
      rewrite Forall_forall in LT. specialize (LT _ I0). destruct (Nat.eqb _ _); auto. }
  intros t. unfold alive. cbn [y_timers set_timers]. rewrite in_map_iff. split.
  - intros [(s & E & I) D]. destruct (Nat.eqb_spec (tm_id s) id) as [X|X].
    + right. exists s. subst t. cbn [tm_dead] in D. rewrite D, X. auto.
    + left. subst t. auto.
  - intros [[[I D] N]|(s & [I D] & E & ->)].
    + split; auto. exists t. split; auto. destruct (Nat.eqb_spec (tm_id t) id); congruence.
    + split; auto. exists s. split; auto. rewrite E, Nat.eqb_refl, D. auto.
Qed.
Lemma frame_mod : forall y id ms y' t k, mod_timer y id ms = Ok y' -> sys_ok y -> alive y t -> tm_id t = id -> owner (tm_cb t) = Some k ->
  frame k y y'.
Proof.
  intros y id ms y' t k H S A E O. destruct (mod_spec _ _ _ _ H S) as (S' & R). split; auto. intros s j P N. rewrite R.
  split.
  - intros B. left. split; auto. intros X. apply N. assert (Z : s = t); [|congruence]. apply (same_id y); [exact S|apply B|apply A|congruence].
  - intros [[B _]|(q & B & Q & ->)]; auto. cbn [tm_cb] in P. exfalso. apply N. assert (Z : q = t); [|congruence]. apply (same_id y); [exact S|apply B|apply A|congruence].
Qed.

Lemma frame_own : forall k y y', own k y y' -> sys_ok y' -> frame k y y'.
Proof.
  intros k y y' (O & _) S. split; auto. intros t j Q N. unfold alive.
  assert (M : mine k t = false).
  { unfold mine. destruct (tm_cb t); cbn in *; auto; destruct (Nat.eqb_spec i k); auto; congruence. }
  assert (X : forall l, In t (others k l) <-> In t l).
  { intros l. unfold others. rewrite filter_In, M. cbn. tauto. }
  rewrite <- (X (y_timers y)), <- O, (X (y_timers y')). tauto.
Qed.

Lemma live_alive : forall y id cb, live y id cb <-> exists t, alive y t /\ tm_id t = id /\ tm_cb t = cb.
Proof. intros. unfold live, alive. split; intros (t & A); exists t; tauto. Qed.

Lemma ptr_frame : forall k y y' p cb, frame k y y' -> owner cb <> Some k -> owner cb <> None -> ptr_ok y p cb -> ptr_ok y' p cb.
Proof.
  intros k y y' [id|] cb [_ F] N NN P; cbn [ptr_ok] in *; auto. rewrite live_alive in *. destruct P as (t & A & E & C).
  exists t. split; auto. subst cb. destruct (owner (tm_cb t)) as [j|] eqn:O; [|congruence]. apply (F t j); auto.
Qed.

Lemma linv_frame : forall k y y' g, frame k y y' -> l_ep g <> k -> linv y g -> linv y' g.
Proof.
  intros k y y' g F N [A B C D E G]. split; auto; try (eapply ptr_frame; eauto; cbn; congruence).
  destruct F as [_ F]. intros t I Dd.
  assert (X : owner (tm_cb t) = Some (l_ep g) -> alive y t) by (intros O; apply (F t _ O); [auto|split; auto]).
  repeat split; intros Q; (assert (Y : alive y t) by (apply X; rewrite Q; reflexivity)); destruct Y as [Y _]; apply (G t Y Dd); auto.
Qed.

Lemma held_frame : forall v arm k y y' j e, frame k y y' -> j <> k -> held_timers v arm y j e -> held_timers v arm y' j e.
Proof.
  intros v arm k y y' j e F N (A & B). pose proof F as [_ F'].
  assert (X : forall t, alive y' t -> owner (tm_cb t) = Some j -> alive y t).
  { intros t H O. apply (F' t j); auto. }
  assert (X' : forall t, alive y t -> owner (tm_cb t) = Some j -> alive y' t).
  { intros t H O. apply (F' t j); auto. }
  split. { intros t H O. apply A; auto. }
  destruct (ep_kind e) as [b c p|c pe p|r vl|[g b|a]].
  - destruct B as [B1 B2]. split; [eapply ptr_frame; eauto; cbn; congruence|]. intros t H C. apply B2; auto. apply X; auto. rewrite C; auto.
  - destruct B as [B1 B2]. split; [eapply ptr_frame; eauto; cbn; congruence|]. intros t H C. apply B2; auto. apply X; auto. rewrite C; auto.
  - destruct B as (B0 & B1 & B2 & B3). split; auto. assert (Y : forall t, alive y' t -> tm_cb t = CbRetry j -> alive y t).
    { intros t H C. apply X; auto. rewrite C; auto. }
    repeat split; try (eapply B1; eauto). { intros t t' H H' C C'. apply B2; auto. }
    intros G Fd R. destruct (B3 G Fd R) as (t & H & C). exists t. split; auto. apply X'; auto. rewrite C; auto.
  - destruct B as [B1 B2]. split; auto. eapply linv_frame; eauto. congruence.
  - destruct B as [B1 B2]. split; auto. destruct (a_inner a) as [[g b]|].
    + destruct B2 as [B2 B3]. split; auto. eapply linv_frame; eauto. congruence.
    + intros t H C. apply (B2 t); auto. apply X; auto. destruct (tm_cb t); cbn in *; congruence.
Qed.

Lemma held_same : forall v arm y k e e', ep_kind e' = ep_kind e -> ep_fd e' = ep_fd e -> held_timers v arm y k e -> held_timers v arm y k e'.
Proof. intros v arm y k e e' A B. unfold held_timers. rewrite A, B. auto. Qed.
Lemma held_sys : forall v arm y y' k e, y_timers y' = y_timers y -> held_timers v arm y k e -> held_timers v arm y' k e.
Proof.
  intros v arm y y' k e E. unfold held_timers, alive, ptr_ok, live. rewrite E.
  intros [A B]. split; auto. destruct (ep_kind e) as [| | |[g b|a]]; auto.
  - destruct B; split; auto. eapply linv_timers; eauto.
  - destruct B; split; auto. destruct (a_inner a) as [[g b]|]; auto. destruct H0; split; auto. eapply linv_timers; eauto.
Qed.

Lemma T_put : forall v arm arm' w k e y' e', T v arm w -> lookup w k = Some e -> frame k (w_sys w) y' -> held_timers v (arm' k) y' k e' ->
  (forall j, j <> k -> arm' j = arm j) -> T v arm' (put (set_sys w y') k e').
Proof.
  intros v arm arm' w k e y' e' [A B C] L F H R.
  assert (L2 : forall j x, lookup (put (set_sys w y') k e') j = Some x -> (j = k /\ x = e') \/ (j <> k /\ lookup w j = Some x)).
  { intros j x Q. destruct (Nat.eq_dec j k) as [->|N].
    - rewrite (lookup_put_eq _ _ _ e) in Q by (rewrite lookup_sys; auto). left. split; congruence.
    - rewrite lookup_put_neq, lookup_sys in Q by auto. auto. }
  split; cbn [w_sys put set_eps set_sys].
  - apply F.
  - intros j x Q. destruct (L2 j x Q) as [[-> ->]|[N Q2]]; auto. rewrite (R j N). eapply held_frame; eauto.
  - intros t j At O. destruct (Nat.eq_dec j k) as [->|N].
    + exists e'. apply (lookup_put_eq _ _ _ e). rewrite lookup_sys; auto.
    + rewrite lookup_put_neq, lookup_sys by auto. apply (C t j); auto. apply (proj2 F t j O N). exact At.
Qed.

Lemma T_ext : forall v arm arm' w, (forall k, arm' k = arm k) -> T v arm w -> T v arm' w.
Proof. intros v arm arm' w E [A B C]. split; auto. intros k e L. rewrite E. auto. Qed.

(* the same timers, endpoints of the same kind *)
Definition alike (w w' : world) : Prop :=
  y_timers (w_sys w') = y_timers (w_sys w) /\ y_next (w_sys w') = y_next (w_sys w) /\
  (forall k, match lookup w k, lookup w' k with
             | Some e, Some e' => ep_kind e' = ep_kind e /\ ep_fd e' = ep_fd e
             | None, None => True
             | _, _ => False
             end).
Lemma alike_refl : forall w, alike w w.
Proof. intros. split; auto. split; auto. intros k. destruct (lookup w k); auto. Qed.
Lemma alike_eps : forall w w', w_sys w' = w_sys w -> w_eps w' = w_eps w -> alike w w'.
Proof.
  intros w w' A B. unfold alike. rewrite A. split; auto. split; auto. intros k. unfold lookup. rewrite B.
  destruct (nth_error (w_eps w) k) as [[e|]|]; auto.
Qed.
Lemma alike_trans : forall a b c, alike a b -> alike b c -> alike a c.
Proof.
  intros a b c (A1 & A2 & A3) (B1 & B2 & B3). split; [congruence|]. split; [congruence|]. intros k. specialize (A3 k). specialize (B3 k).
  destruct (lookup a k), (lookup b k), (lookup c k); try tauto. destruct A3, B3. split; congruence.
Qed.
Lemma T_alike : forall v arm w w', alike w w' -> T v arm w -> T v arm w'.
Proof.
  intros v arm w w' (A & N & L) [B C D]. split.
  - unfold sys_ok. rewrite A, N. auto.
  - intros k e' Q. specialize (L k). rewrite Q in L. destruct (lookup w k) as [e|] eqn:Q2; [|destruct L].
    eapply held_sys; eauto. destruct L. eapply held_same; eauto.
  - intros t k [I At] O. rewrite A in I. destruct (D t k (conj I At) O) as (e & Q). specialize (L k). rewrite Q in L.
    destruct (lookup w' k); [eauto|destruct L].
Qed.
Lemma alike_put : forall w k e e', lookup w k = Some e -> ep_kind e' = ep_kind e -> ep_fd e' = ep_fd e -> alike w (put w k e').
Proof.
  intros w k e e' L A B. split; auto. split; auto. intros j. destruct (Nat.eq_dec j k) as [->|N].
  - rewrite L, (lookup_put_eq _ _ _ e L). auto.
  - rewrite lookup_put_neq by auto. destruct (lookup w j); auto.
Qed.
Lemma alike_ask : forall w k e e' y, lookup w k = Some e -> ep_kind e' = ep_kind e -> ep_fd e' = ep_fd e ->
  y_timers y = y_timers (w_sys w) -> y_next y = y_next (w_sys w) -> alike w (put (set_sys w y) k e').
Proof.
  intros w k e e' y L A B C D. split; auto. split; auto. intros j. destruct (Nat.eq_dec j k) as [->|N].
  - rewrite L, (lookup_put_eq _ _ _ e) by (rewrite lookup_sys; auto). auto.
  - rewrite lookup_put_neq, lookup_sys by auto. destruct (lookup w j); auto.
Qed.

(* the step a function of the router makes: the list of timers grows, and the timers stay in order *)
Definition good (v : env) (w w' : world) : Prop := mono (w_sys w) (w_sys w') /\ forall arm, T v arm w -> T v arm w'.
Lemma good_refl : forall v w, good v w w.
Proof. intros. split; auto. apply mono_refl. Qed.
Lemma good_trans : forall v a b c, good v a b -> good v b c -> good v a c.
Proof. intros v a b c [A1 A2] [B1 B2]. split; auto. eapply mono_trans; eauto. Qed.
Lemma good_alike : forall v w w', alike w w' -> good v w w'.
Proof. intros v w w' A. split. { apply mono_same; apply A. } intros arm. apply T_alike; auto. Qed.

Lemma held_fits : forall v arm y k e, held_timers v arm y k e -> forall t, alive y t -> owner (tm_cb t) = Some k -> fits (tm_cb t) (ep_kind e).
Proof. intros v arm y k e [A _]. auto. Qed.

(* ---- the reconnect timer ------------------------------------------------------------------------------- *)

Lemma lost_held : forall v arm y k e r vl y' e', tcp_lost v y k e r = (y', e') -> sys_ok y -> ep_kind e = KTcp r vl -> ep_fd e = true ->
  held_timers v arm y k e -> frame k y y' /\ held_timers v arm y' k e'.
Proof.
  intros v arm y k e r vl y' e' H S K Fd [A B]. rewrite K in A, B. destruct B as (B0 & B1 & B2 & B3).
  assert (NO : forall t, alive y t -> tm_cb t <> CbRetry k).
  { intros t At C. destruct (B1 t At C). congruence. }
  unfold tcp_lost, schedule_reconnect in H. destruct (0 <? r) eqn:R.
  - assert (R2 : r <=? 0 = false) by lia. rewrite R2 in H. destruct (add_timer v y (1000 * r) (CbRetry k)) as [id y1] eqn:AT.
    inversion H; subst; clear H. split. { eapply frame_add; eauto; reflexivity. }
    destruct (add_timer_spec _ _ _ _ _ _ AT S) as (S' & _ & _ & _ & Q).
    assert (X : forall t, alive y' t -> alive y t \/ (t = mkTimer (y_next y) (CbRetry k) (u32 (1000 * r)) false /\ id <> None)).
    { intros t [I D]. destruct id as [id|]. { destruct Q as (-> & Q & _). rewrite Q in I. destruct I as [<-|I]; [right; split; auto; congruence|left; split; auto]. }
      destruct Q as [Q _]. rewrite Q in I. left; split; auto. }
    split; cbn [ep_kind set_kind set_fd ep_fd].
    + intros t At O. destruct (X t At) as [Y|[-> _]]; [|exact Logic.I]. specialize (A t Y O). destruct (tm_cb t); auto.
    + split; [discriminate|]. repeat split.
      * destruct (X t H) as [Y|[-> _]]; [destruct (NO t Y H0)|]. lia.
      * destruct (X t H) as [Y|[-> _]]; [destruct (NO t Y H0)|]. reflexivity.
      * intros t t' Ht Ht' C C'. destruct (X t Ht) as [Y|[-> _]]; [destruct (NO t Y C)|].
        destruct (X t' Ht') as [Y|[-> _]]; [destruct (NO t' Y C')|]. reflexivity.
      * intros G _ _. unfold add_timer in AT. rewrite G in AT. cbn [negb] in AT. inversion AT; subst. eexists. split.
        { split; [left; reflexivity|reflexivity]. } reflexivity.
  - inversion H; subst; clear H. split. { apply frame_refl; auto. }
    split; cbn [ep_kind set_kind ep_fd].
    + intros t At O. specialize (A t At O). destruct (tm_cb t); auto.
    + split; [intros _; lia|]. repeat (split; auto).
Qed.

(* ---- writing --------------------------------------------------------------------------------------------- *)

Lemma log_held : forall v arm y k e l l' y', held_timers v arm y k e -> ep_kind e = KLog l -> own k y y' -> sys_ok y' ->
  match l' with
  | LFile g _ => l_ep g = k /\ linv y' g
  | LAuto a => a_ep a = k /\
    match a_inner a with
    | Some (g, _) => l_ep g = k /\ linv y' g
    | None => forall t, alive y' t -> LogInv.log_cb (tm_cb t) <> Some k
    end
  end -> held_timers v arm y' k (set_kind e (KLog l')).
Proof.
  intros v arm y k e l l' y' [A _] K (O & _) S L. rewrite K in A. split; cbn [ep_kind set_kind]; auto.
  intros t At Ow. destruct (mine k t) eqn:M.
  - unfold mine in M. destruct (tm_cb t); cbn in M; try discriminate; exact Logic.I.
  - assert (I : In t (others k (y_timers y'))) by (unfold others; apply filter_In; rewrite M; split; auto; apply At).
    rewrite O in I. apply filter_In in I. specialize (A t). destruct (tm_cb t); try exact Logic.I; apply A; auto; (split; [apply I|apply At]).
Qed.

Lemma lwrite_held : forall f v arm y k e l g b mem m y' g' b' mem' cs, lwrite f v y g b mem m = Ok (y', g', b', mem', cs) -> sys_ok y -> linv y g -> l_ep g = k ->
  held_timers v arm y k e -> ep_kind e = KLog l -> mono y y' /\ frame k y y' /\ own k y y' /\ sys_ok y' /\ linv y' g' /\ l_ep g' = k.
Proof.
  intros f v arm y k e l g b mem m y' g' b' mem' cs H S L E Hd K.
  pose proof (mono_lwrite _ _ _ _ _ _ _ _ _ _ _ _ H) as M. pose proof (lwrite_step _ _ _ _ _ _ _ _ _ _ _ _ H) as [A1 A2 A3 A4].
  assert (L2 : linv y (learn_target g m)) by (apply learn_inv; auto). destruct (learn_ep g m) as (E2 & _).
  specialize (A1 S L2). specialize (A2 S L2). specialize (A3 S L2). destruct (A4 S L2) as (A5 & _). rewrite E2, E in *.
  assert (F : frame k y y') by (apply frame_own; auto). auto 10.
Qed.

Lemma new_linv : forall y k ext mf ml md fc, (forall t, alive y t -> LogInv.log_cb (tm_cb t) <> Some k) -> linv y (lg_new k ext mf ml md fc).
Proof.
  intros y k ext mf ml md fc H. split; cbn [l_ep l_open l_tstart l_tfsync l_talive lg_new ptr_ok]; auto.
  intros t I D. specialize (H t (conj I D)). repeat split; intros Q; rewrite Q in H; cbn in H; congruence.
Qed.

Lemma write_held : forall f v arm y k e mem m y' e' mem' ret call cs, write_ep f v y k e mem m = Ok (y', e', mem', ret, call, cs) ->
  sys_ok y -> held_timers v arm y k e -> mono y y' /\ frame k y y' /\ held_timers v arm y' k e'.
Proof.
  intros f v arm y k e mem m y' e' mem' ret call cs H S Hd. unfold write_ep in H.
  assert (ASK : forall len r y1, os_write v y len = (r, y1) -> y_timers y1 = y_timers y /\ y_next y1 = y_next y).
  { intros len r y1 Q. unfold os_write, ask in Q. inversion Q; subst. auto. }
  assert (SAME : forall y1 e1, y_timers y1 = y_timers y /\ y_next y1 = y_next y -> ep_kind e1 = ep_kind e -> ep_fd e1 = ep_fd e ->
    mono y y1 /\ frame k y y1 /\ held_timers v arm y1 k e1).
  { intros y1 e1 [Q1 Q2] Q3 Q4. split; [apply mono_same; auto|]. split; [apply frame_same; auto|].
    eapply held_sys; eauto. eapply held_same; eauto. }
  destruct (ep_kind e) as [b c p|c pe p|r vl|[g b|a]] eqn:K.
  - destruct (ep_fd e) eqn:Fd; cbn [negb] in H.
    2:{ inversion H; subst. apply SAME; auto. }
    destruct (os_write v y _) as [w y1] eqn:W. apply ASK in W. destruct (w =? - EAGAIN); inversion H; subst; apply SAME; auto.
  - destruct (ep_fd e) eqn:Fd; cbn [negb] in H.
    2:{ inversion H; subst. apply SAME; auto. }
    destruct (snd pe =? 0). { inversion H; subst. apply SAME; auto. }
    destruct (os_write v y _) as [w y1] eqn:W. apply ASK in W. destruct (w <? 0); inversion H; subst; apply SAME; auto.
  - destruct (ep_fd e) eqn:Fd; cbn [negb] in H.
    2:{ inversion H; subst. apply SAME; auto. }
    destruct (os_write v y _) as [w y1] eqn:W. apply ASK in W. destruct (w <? 0). 2:{ inversion H; subst; apply SAME; auto. }
    destruct (w =? - EPIPE).
    + destruct (tcp_lost v y1 k e r) as [y2 e2] eqn:TL. assert (y2 = y' /\ e2 = e') by (inversion H; auto). destruct H0; subst. clear H.
      assert (S1 : sys_ok y1) by (destruct W as [W1 W2]; unfold sys_ok; rewrite W1, W2; auto).
      assert (Hd1 : held_timers v arm y1 k e) by (eapply held_sys; [apply W|auto]).
      destruct (lost_held _ arm _ _ _ _ _ _ _ TL S1 K Fd Hd1) as [F1 H1]. split; [|split; auto].
      * unfold tcp_lost, schedule_reconnect in TL. eapply mono_trans; [apply mono_same; apply W|].
        destruct (0 <? r). 2:{ inversion TL; subst. apply mono_refl. }
        destruct (r <=? 0). { inversion TL; subst. apply mono_refl. }
        destruct (add_timer v y1 (1000 * r) (CbRetry k)) as [id y3] eqn:AT. inversion TL; subst. eapply mono_add; eauto.
      * eapply frame_trans; [apply frame_same; [apply W|apply W|auto]|auto].
    + inversion H; subst; apply SAME; auto.
  - inv_bind H. inversion H; subst; clear H. match goal with Q : lwrite _ _ _ _ _ _ _ = _ |- _ => rename Q into LW end.
    pose proof Hd as [_ Hd2]. rewrite K in Hd2. destruct Hd2 as [EP LI].
    destruct (lwrite_held _ _ _ _ _ _ _ _ _ _ _ _ _ _ _ _ LW S LI EP Hd K) as (M & F & O & S' & L' & EP'). split; auto. split; auto.
    eapply log_held; eauto.
  - inv_bind H. inversion H; subst; clear H. match goal with Q : auto_write _ _ _ _ _ _ = _ |- _ => rename Q into AW end.
    pose proof Hd as [_ Hd2]. rewrite K in Hd2. destruct Hd2 as [EP LI]. unfold auto_write in AW. destruct (a_inner a) as [[g b]|] eqn:IN.
    + destruct LI as [EP2 LI]. inv_bind AW. inversion AW; subst; clear AW. match goal with Q : lwrite _ _ _ _ _ _ _ = _ |- _ => rename Q into LW end.
      destruct (lwrite_held _ _ _ _ _ _ _ _ _ _ _ _ _ _ _ _ LW S LI EP2 Hd K) as (M & F & O & S' & L' & EP'). split; auto. split; auto.
      eapply log_held; eauto. cbn [a_ep a_inner]. auto.
    + match type of AW with context [if negb ?c then _ else _] => destruct (negb c) end.
      { inversion AW; subst; clear AW. split; [apply mono_refl|]. split; [apply frame_refl; auto|]. eapply log_held; eauto using own_refl. }
      inv_bind AW. destruct (_ =? 12).
      { match type of AW with context [ask_bytes ?n v y] => destruct (ask_bytes n v y) as [junk y1] eqn:J end.
        assert (Y1 : y1 = y') by (clear - AW; inversion AW; auto). subst y1. pose proof (f_equal (fun r => match r with Ok (_, a, _, _) => a | _ => a end) AW) as A1.
        cbn beta iota in A1. clear AW. rename J into JJ. assert (CA : forall g, calm y g y' g) by (intros; eapply calm_ask_bytes; eauto).
        pose proof (CA (lg_new 0 [] 0 0 MAlways 0)) as CA1.
        split; [eapply mono_calm; eauto|]. split; [eapply frame_mono; eauto|].
        eapply log_held; eauto. { eapply calm_own; eauto. } { eapply calm_sys; eauto. }
        rewrite <- A1. cbn [a_ep a_inner new_inner]. split; auto. split; auto.
        rewrite EP. apply new_linv. intros t [I D]. rewrite (ca_timers _ _ _ _ CA1) in I. apply LI. split; auto. }
      destruct (_ =? 3).
      { pose proof (f_equal (fun r => match r with Ok (y, _, _, _) => y | _ => y end) AW) as A0.
        pose proof (f_equal (fun r => match r with Ok (_, a, _, _) => a | _ => a end) AW) as A1. cbn beta iota in A0, A1. subst y'. clear AW.
        split; [apply mono_refl|]. split; [apply frame_refl; auto|]. eapply log_held; eauto using own_refl.
        rewrite <- A1. cbn [a_ep a_inner new_inner]. split; auto. split; auto. rewrite EP. apply new_linv. auto. }
      inversion AW; subst; clear AW. split; [apply mono_refl|]. split; [apply frame_refl; auto|]. eapply log_held; eauto using own_refl.
Qed.

(* ---- routing ----------------------------------------------------------------------------------------------- *)

Lemma T_put1 : forall v w k e y' e', lookup w k = Some e -> mono (w_sys w) y' ->
  (forall arm, sys_ok (w_sys w) -> held_timers v arm (w_sys w) k e -> frame k (w_sys w) y' /\ held_timers v arm y' k e') ->
  good v w (put (set_sys w y') k e').
Proof.
  intros v w k e y' e' L M H. split; [exact M|]. intros arm Tw. destruct (H (arm k)) as [F Hd]; [apply Tw|apply Tw; auto|].
  eapply T_put; eauto.
Qed.

Lemma mod_fd_same2 : forall v y e b y' e' r, mod_fd v y e b = (y', e', r) ->
  y_timers y' = y_timers y /\ y_next y' = y_next y /\ ep_kind e' = ep_kind e /\ ep_fd e' = ep_fd e.
Proof.
  intros v y e b y' e' r H. unfold mod_fd, ask in H. destruct (ep_poll e); [destruct (_ <? 0)|]; inversion H; subst; auto.
Qed.

Definition sub_good (v : env) (sub : world -> ctl -> res (world * list delivery * list item)) : Prop :=
  forall w c w' ds its, sub w c = Ok (w', ds, its) -> good v w w'.

Lemma ctls_good : forall v sub, sub_good v sub -> forall cs w i w' its, route_ctls sub w i cs = Ok (w', its) -> good v w w'.
Proof.
  intros v sub G. induction cs as [|c cs IH]; intros w i w' its H; cbn [route_ctls] in H. { inversion H; subst. apply good_refl. }
  inv_bind H. inv_bind H. inversion H; subst. eapply good_trans; [eapply G; eauto|eapply IH; eauto].
Qed.

Lemma deliver_good : forall f v w i e mem m y e1 mem' ret call cs y2 e2 req, lookup w i = Some e ->
  write_ep f v (w_sys w) i e mem m = Ok (y, e1, mem', ret, call, cs) ->
  (if ret =? - EAGAIN then let '(y, e, r) := mod_fd v y e1 true in (y, e, Some r) else (y, e1, None)) = (y2, e2, req) ->
  good v w (put (set_sys w y2) i e2).
Proof.
  intros f v w i e mem m y e1 mem' ret call cs y2 e2 req L W M.
  assert (Q : y_timers y2 = y_timers y /\ y_next y2 = y_next y /\ ep_kind e2 = ep_kind e1 /\ ep_fd e2 = ep_fd e1).
  { destruct (ret =? - EAGAIN). 2:{ inversion M; subst; auto. }
    destruct (mod_fd v y e1 true) as [[y3 e3] r3] eqn:MF. inversion M; subst. eapply mod_fd_same2; eauto. }
  destruct Q as (Q1 & Q2 & Q3 & Q4). split.
  { cbn [w_sys put set_eps set_sys]. eapply mono_trans; [|apply mono_same; eauto].
    clear - W. (* the list of timers grows, whatever the state *)
    unfold write_ep in W.
    assert (OW : forall len r y1, os_write v (w_sys w) len = (r, y1) -> mono (w_sys w) y1).
    { intros len r y1 Q. unfold os_write, ask in Q. inversion Q; subst. apply mono_same; reflexivity. }
    destruct (ep_kind e) as [b c p|c pe p|r vl|[g b|a]] eqn:K.
    - destruct (negb (ep_fd e)). { inversion W; subst. apply mono_refl. }
      destruct (os_write v (w_sys w) _) as [q y1] eqn:O. apply OW in O. destruct (q =? - EAGAIN); inversion W; subst; auto.
    - destruct (negb (ep_fd e)). { inversion W; subst. apply mono_refl. }
      destruct (snd pe =? 0). { inversion W; subst. apply mono_refl. }
      destruct (os_write v (w_sys w) _) as [q y1] eqn:O. apply OW in O. destruct (q <? 0); inversion W; subst; auto.
    - destruct (negb (ep_fd e)). { inversion W; subst. apply mono_refl. }
      destruct (os_write v (w_sys w) _) as [q y1] eqn:O. apply OW in O. destruct (q <? 0). 2:{ inversion W; subst; auto. }
      destruct (q =? - EPIPE). 2:{ inversion W; subst; auto. }
      destruct (tcp_lost v y1 i e r) as [y3 e3] eqn:TL. inversion W; subst. eapply mono_trans; [exact O|].
      unfold tcp_lost, schedule_reconnect in TL. destruct (0 <? r). 2:{ inversion TL; subst. apply mono_refl. }
      destruct (r <=? 0). { inversion TL; subst. apply mono_refl. }
      destruct (add_timer v y1 (1000 * r) (CbRetry i)) as [id y4] eqn:AT. inversion TL; subst. eapply mono_add; eauto.
    - inv_bind W. inversion W; subst. eapply mono_lwrite; eauto.
    - inv_bind W. inversion W; subst. unfold auto_write in E. destruct (a_inner a) as [[g b]|].
      + inv_bind E. inversion E; subst. eapply mono_lwrite; eauto.
      + match type of E with context [if negb ?c then _ else _] => destruct (negb c) end. { inversion E; subst. apply mono_refl. }
        inv_bind E. destruct (_ =? 12).
        { match type of E with context [ask_bytes ?n v ?z] => destruct (ask_bytes n v z) as [junk y1] eqn:J end.
          assert (Y1 : y1 = y) by (clear - E; inversion E; auto). subst y1. clear E.
          eapply mono_calm. eapply (calm_ask_bytes _ _ _ (lg_new 0 [] 0 0 MAlways 0)); eauto. }
        destruct (_ =? 3).
        { assert (Y1 : w_sys w = y) by (clear - E; inversion E; auto). rewrite Y1. apply mono_refl. }
        inversion E; subst. apply mono_refl. }
  intros arm Tw. destruct (write_held _ _ (arm i) _ _ _ _ _ _ _ _ _ _ _ W) as (_ & F & Hd); [apply Tw|apply Tw; auto|].
  assert (F2 : frame i y y2) by (apply frame_same; auto; apply F).
  eapply T_put; eauto. { eapply frame_trans; eauto. } eapply held_sys; eauto. eapply held_same; eauto.
Qed.

Lemma deliver_good2 : forall f v w i e mem m w' mem' d cs, deliver f v w i e mem m = Ok (w', mem', d, cs) -> lookup w i = Some e -> good v w w'.
Proof.
  intros f v w i e mem m w' mem' d cs H L. unfold deliver in H. inv_bind H. inv_bind H.
  match goal with W : write_ep _ _ _ _ _ _ _ = Ok (?y, ?e1, _, ?ret, _, _) |- _ =>
    pose proof (fun y2 e2 req => deliver_good _ _ _ _ _ _ _ _ _ _ _ _ _ y2 e2 req L W) as D;
    destruct (if ret =? - EAGAIN then let '(y, e, r) := mod_fd v y e1 true in (y, e, Some r) else (y, e1, None)) as [[y2 e2] req] end.
  specialize (D _ _ _ eq_refl). inversion H; subst; clear H. eapply good_trans; [exact D|].
  apply good_alike. match goal with |- alike _ (if ?c then _ else _) => destruct c end; apply alike_eps; reflexivity.
Qed.

Lemma each_good : forall v sub f, sub_good v sub -> forall order w mem m u w' mem' ds its u',
  route_each sub f v w order mem m u = Ok (w', mem', ds, its, u') -> good v w w'.
Proof.
  intros v sub f G. induction order as [|i r IH]; intros w mem m u w' mem' ds its u' H.
  { cbn [route_each] in H. inversion H; subst. apply good_refl. }
  rewrite route_each_cons in H. inv_bind H. apply get_lookup in E. destruct (accept_msg _ _ _ _).
  - inv_bind H. inv_bind H. inv_bind H. inversion H; subst; clear H.
    match goal with R : deliver _ _ _ _ _ _ _ = _, R1 : route_ctls _ _ _ _ = _, R2 : route_each _ _ _ _ _ _ _ _ = _ |- _ =>
      eapply good_trans; [eapply deliver_good2; eauto|]; eapply good_trans; [eapply ctls_good; eauto|]; eapply IH; eauto end.
  - eapply IH; eauto.
  - eapply IH; eauto.
Qed.

Lemma route_good : forall v f n w mem m w' mem' ds its, route n f v w mem m = Ok (w', mem', ds, its) -> good v w w'.
Proof.
  intros v f. induction n as [|n IH]; intros w mem m w' mem' ds its H; [discriminate|]. cbn [route] in H. inv_bind H. inversion H; subst; clear H.
  match goal with R : route_each _ _ _ _ _ _ _ _ = _ |- _ => apply each_good in R; rename R into R1 end.
  - eapply good_trans; [exact R1|]. apply good_alike. match goal with |- alike _ (if ?c then _ else _) => destruct c end; apply alike_eps; reflexivity.
  - intros x c x' ds' its' H. inv_bind H. inversion H; subst. eapply IH; eauto.
Qed.
Lemma sub_is_good : forall v f, sub_good v (route_sub f v).
Proof. intros v f w c w' ds its H. unfold route_sub in H. inv_bind H. inversion H; subst. eapply route_good; eauto. Qed.

(* ---- receiving ----------------------------------------------------------------------------------------------- *)

Lemma learn_alike : forall n w i id w', learn n w i id = Ok w' -> alike w w'.
Proof.
  induction n; intros w i id w' H; [discriminate|]. cbn [learn] in H. inv_bind H. apply get_lookup in E.
  destruct (contains _ _). { inversion H; subst. apply alike_refl. }
  assert (A : alike w (put w i (set_ids a (ep_ids a ++ [id])))) by (eapply alike_put; eauto).
  eapply alike_trans; [exact A|]. clear A E. revert H. generalize (put w i (set_ids a (ep_ids a ++ [id]))). generalize (ep_members a).
  induction l as [|j r IHr]; intros x H. { inversion H; subst. apply alike_refl. }
  inv_bind H. eapply alike_trans; [eapply IHn; eauto|]. eapply IHr; eauto.
Qed.

Lemma dup_alike : forall v w pkt w' b, check_dup v w pkt = Ok (w', b) -> alike w w'.
Proof.
  intros v w pkt w' b H. unfold check_dup in H. destruct (_ =? 0). { inversion H; subst. apply alike_refl. }
  destruct (ask v (w_sys w)) as [now y] eqn:A. inv_bind H. unfold ask in A. inversion A; subst. inversion H; subst.
  split; auto. split; auto. intros k. unfold lookup. cbn. destruct (nth_error (w_eps w) k) as [[e|]|]; auto.
Qed.

Lemma msg_good : forall f v w i m w' its, handle_msg f v w i m = Ok (w', its) -> good v w w'.
Proof.
  intros f v w i m w' its H. unfold handle_msg in H. inv_bind H. inv_bind H. inv_bind H.
  match goal with D : check_dup _ _ _ = _ |- _ => apply dup_alike in D; apply (good_alike v) in D; rename D into GD end.
  destruct (negb b). { inversion H; subst; auto. }
  destruct (negb _). { inversion H; subst; auto. }
  inv_bind H. inv_bind H. inv_bind H. inv_bind H. inversion H; subst; clear H.
  match goal with D : learn _ _ _ _ = _ |- _ => apply learn_alike in D; apply (good_alike v) in D; rename D into GL end.
  match goal with R : route _ _ _ _ _ _ = _ |- _ => apply route_good in R; rename R into GR end.
  eapply good_trans; [exact GD|]. eapply good_trans; [exact GL|]. eapply good_trans; [exact GR|].
  match goal with G : get ?x i = Ok ?e |- good _ ?x _ => apply get_lookup in G; apply good_alike; eapply alike_put; eauto end.
Qed.

Lemma baud_good : forall v w i e w', keep_baud w i e = Ok w' -> lookup w i = Some e -> good v w w'.
Proof.
  intros v w i e w' H L. unfold keep_baud in H. destruct (ep_kind e) as [b c [t|]|c pe p|r vl|l] eqn:K; try (inversion H; subst; apply good_refl).
  inv_bind H. inversion H; subst; clear H. apply (T_put1 _ _ _ e); auto. { eapply mono_del; eauto. }
  intros arm S [A B]. rewrite K in A, B. destruct B as [B1 B2]. cbn [ptr_ok] in B1. apply live_alive in B1. destruct B1 as (x & X1 & X2 & X3).
  split. { eapply frame_del; eauto. rewrite X3; auto. }
  destruct (del_spec _ _ _ E S) as (S' & _ & R). split; cbn [ep_kind set_kind].
  - intros q Q O. apply R in Q. destruct Q as [Q _]. specialize (A q Q O). destruct (tm_cb q); auto.
  - split; [exact Logic.I|]. intros q Q C. apply R in Q. destruct Q as [Q N]. destruct (B2 q Q C). congruence.
Qed.

(* ---- the interval of the timer of a UDP client, and what an act does to it --------------------------------------- *)

Definition arm_step (k : nat) (ms : Z) (it : item) : Z :=
  match it with
  | IRead i (OsData _ _) => if Nat.eqb i k then 5000 else ms
  | IFire _ (CbNoMsg i) => if Nat.eqb i k then 0 else ms
  | _ => ms
  end.

Lemma held_arm : forall v arm arm' y k e, (forall c p t, ep_kind e <> KUdp c p t) -> held_timers v arm y k e -> held_timers v arm' y k e.
Proof. intros v arm arm' y k e N. unfold held_timers. destruct (ep_kind e); auto. destruct (N conf peer tmo eq_refl). Qed.

Lemma os_read_T : forall v w i e o w' rr arm, os_read v w i e o = Ok (w', rr) -> lookup w i = Some e -> ep_fd e = true ->
  mono (w_sys w) (w_sys w') /\ (T v arm w -> T v (fun k => arm_step k (arm k) (IRead i o)) w').
Proof.
  intros v w i e o w' rr arm H L Fd. unfold os_read in H.
  destruct o as [bs from| |n]; try (inversion H; subst; split; [apply mono_refl|auto]).
  assert (NU : w' = w -> (forall c p t, ep_kind e <> KUdp c p t) -> mono (w_sys w) (w_sys w') /\ (T v arm w -> T v (fun k => arm_step k (arm k) (IRead i (OsData bs from))) w')).
  { intros -> N. split; [apply mono_refl|]. intros [A B C]. split; auto. intros k x Q. cbn [arm_step]. destruct (Nat.eqb_spec i k) as [->|NE]; auto.
    assert (x = e) by congruence. subst x. eapply held_arm; eauto. }
  destruct (ep_kind e) as [b c p|c pe p|r vl|l] eqn:K.
  - inversion H; subst. apply NU; auto. intros; discriminate.
  - inv_bind H. inversion H; subst; clear H. destruct p as [t|].
    + split. { eapply mono_mod; eauto. } intros Tw. assert (Hd : held_timers v (arm i) (w_sys w) i e) by (apply Tw; auto).
      destruct Hd as [A B]. rewrite K in A, B. destruct B as [B1 B2]. cbn [ptr_ok] in B1. pose proof B1 as B1'. apply live_alive in B1. destruct B1 as (x & X1 & X2 & X3).
      destruct (mod_spec _ _ _ _ E (t_sys _ _ _ Tw)) as (S' & R).
      apply (T_put _ arm _ _ _ e); auto.
      * eapply frame_mod; eauto. apply Tw. rewrite X3; auto.
      * cbn [arm_step]. rewrite Nat.eqb_refl. split; cbn [ep_kind set_kind].
        -- intros q Q O. apply R in Q. destruct Q as [[Q _]|(s & Q & E' & ->)]; cbn [tm_cb] in *.
           ++ specialize (A q Q O). destruct (tm_cb q); auto.
           ++ specialize (A s Q O). destruct (tm_cb s); auto.
        -- split. { cbn [ptr_ok]. apply live_alive. exists (mkTimer t (CbNoMsg i) (u32 5000) false). split; auto. apply R. right. exists x. rewrite X3. auto. }
           intros q Q C. apply R in Q. destruct Q as [[Q N]|(s & Q & E' & ->)]; cbn [tm_cb tm_id tm_ms] in *; [|split; auto].
           destruct (B2 q Q C). congruence.
      * intros j N. cbn [arm_step]. destruct (Nat.eqb_spec i j); congruence.
    + inversion E; subst a. split. { apply mono_refl. } intros Tw. assert (Hd : held_timers v (arm i) (w_sys w) i e) by (apply Tw; auto).
      destruct Hd as [A B]. rewrite K in A, B. destruct B as [_ B2]. apply (T_put _ arm _ _ _ e); auto.
      * apply frame_refl. apply Tw.
      * split; cbn [ep_kind set_kind]. { intros q Q O. specialize (A q Q O). destruct (tm_cb q); auto. }
        split; [exact Logic.I|]. intros q Q C. destruct (B2 q Q C). discriminate.
      * intros j N. cbn [arm_step]. destruct (Nat.eqb_spec i j); congruence.
  - destruct bs as [|b0 bs]. 2:{ inversion H; subst. apply NU; auto. intros; discriminate. }
    destruct (_ =? 0)%nat. { inversion H; subst. apply NU; auto. intros; discriminate. }
    destruct (tcp_lost v (w_sys w) i e r) as [y1 e1] eqn:TL. inversion H; subst; clear H. split.
    { cbn [w_sys put set_eps set_sys]. unfold tcp_lost, schedule_reconnect in TL. destruct (0 <? r). 2:{ inversion TL; subst. apply mono_refl. }
      destruct (r <=? 0). { inversion TL; subst. apply mono_refl. }
      destruct (add_timer v (w_sys w) (1000 * r) (CbRetry i)) as [id y4] eqn:AT. inversion TL; subst. eapply mono_add; eauto. }
    intros Tw. assert (Hd : held_timers v (arm i) (w_sys w) i e) by (apply Tw; auto).
    destruct (lost_held _ (arm i) _ _ _ _ _ _ _ TL (t_sys _ _ _ Tw) K Fd Hd) as [F1 H1].
    apply (T_put _ arm _ _ _ e); auto.
    + eapply held_arm; eauto. intros c p t. unfold tcp_lost in TL. destruct (0 <? r).
      * destruct (schedule_reconnect _ _ _ _ _). inversion TL; subst. cbn. discriminate.
      * inversion TL; subst. cbn. discriminate.
    + intros j N. cbn [arm_step]. destruct (Nat.eqb_spec i j); congruence.
  - inversion H; subst. apply NU; auto. intros; discriminate.
Qed.
