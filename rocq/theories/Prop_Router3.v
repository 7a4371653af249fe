(* C32, C35, C36, C38, C40, C41: reconnection, fallback and baud rate timers, removed timers, poll errors and dangling
   pointers, over every configuration and every run of the router. *)
From Verif Require Import Base Mav SpecCrc SpecFrame Frame FrameProofs FrameLink Dedup Accept Names NamesProofs Sys LogFile LogFileProofs ULog Loggers LogInv LogStep LogMono
  RouterCtl Router RouterRoute RouterRoute2 RouterSetup RouterActs RouterInv RouterLearn RouterStep RouterStart RouterHist SpecRouter SpecLife RouterTrace
  RouterLife RouterLife2 RouterLife3 RouterLife4 RouterTimers RouterTimers2 RouterLife5 RouterStays Prop_Router2 ExFrame ExRouter.

(* ---- specification ------------------------------------------------------------------------------------------------ *)

(* the timers that can still run a callback satisfying [p] *)
Definition waiting (w : world) (p : callback -> bool) : list timer := filter (fun t => negb (tm_dead t) && p (tm_cb t)) (y_timers (w_sys w)).
Definition is_retry (k : nat) (cb : callback) : bool := match cb with CbRetry i => Nat.eqb i k | _ => false end.
Definition is_fallback (k : nat) (cb : callback) : bool := match cb with CbNoMsg i => Nat.eqb i k | _ => false end.
Definition is_baud (k : nat) (cb : callback) : bool := match cb with CbBaud i => Nat.eqb i k | _ => false end.

(* a datagram was received on endpoint k; the fallback timer of endpoint k fired *)
Definition datagram (k : nat) (x : item) : Prop := exists bs from, x = IRead k (OsData bs from).
Definition fallback (k : nat) (x : item) : Prop := exists t, x = IFire t (CbNoMsg k).

(* any continuation: events handled one after the other, and ends of iterations of the main loop *)
Inductive later (f : nat) (v : env) : world -> list item -> world -> Prop :=
| later_nil : forall w, later f v w [] w
| later_event : forall w ev w1 its w2 its', wf_ev ev -> handle_event f v w ev = Ok (w1, its) -> later f v w1 its' w2 -> later f v w (its ++ its') w2
| later_end : forall w w1 its w2 its', process_hangups w = Ok (w1, its) -> later f v (set_sys w1 (sweep_timers (w_sys w1))) its' w2 -> later f v w (its ++ its') w2.

(* timer t existed, and is marked for removal or gone *)
Definition removed (w : world) (t : nat) : Prop :=
  (t < y_next (w_sys w))%nat /\ forall tm, In tm (y_timers (w_sys w)) -> tm_id tm = t -> tm_dead tm = true.

(* the object an event is for exists *)
Definition target_alive (w : world) (ev : event) : Prop :=
  match ev with
  | EServer => w_server w = true
  | EEp i _ _ _ => exists e, lookup w i = Some e
  | ETimer t _ _ => exists tm, In tm (y_timers (w_sys w)) /\ tm_id tm = t
  | ESignal => True
  end.

(* ---- continuations -------------------------------------------------------------------------------------------------- *)

Lemma later_acts : forall f v w its w', later f v w its w' -> acts f v w its w'.
Proof.
  intros f v w its w' H. induction H.
  - constructor.
  - eapply acts_app; [eapply handle_event_acts; eauto|auto].
  - eapply acts_app; [|exact IHlater]. eapply acts_app_nil; [apply acts_one, a_hangups; eauto|]. apply acts_one, a_sweep.
Qed.
Lemma later_app : forall f v w a w1 b w2, later f v w a w1 -> later f v w1 b w2 -> later f v w (a ++ b) w2.
Proof.
  intros f v w a w1 b w2 H. induction H; intros K; cbn; auto; rewrite <- app_assoc.
  - eapply later_event; eauto.
  - eapply later_end; eauto.
Qed.
(* every continuation of the program is one *)
Lemma later_exec : forall f v w0 its w, exec f v w0 its w -> later f v w0 its w.
Proof.
  intros f v w0 its w H. induction H. { constructor. }
  eapply later_app; [eauto|]. clear IHexec H H0. unfold step in H2. inv_bind H2. inv_bind H2. inversion H2; subst; clear H2.
  assert (W : Forall wf_ev evs). { eapply Forall_impl; [|eauto]. intros e [_ X]. destruct e as [|? [?|] ? ?| |]; exact X || exact I. }
  match goal with X : handle_events _ _ _ _ = Ok (?p, ?q) |- _ => rename X into HE; rename p into w1; rename q into i1 end.
  apply later_app with w1.
  - clear - HE W. revert w w1 i1 HE. induction evs as [|ev evs IH]; intros w w1 i1 HE; cbn [handle_events] in HE. { inversion HE; subst. constructor. }
    inversion W; subst. inv_bind HE. inv_bind HE. inversion HE; subst. eapply later_event; eauto.
  - match goal with |- later _ _ _ ?i _ => rewrite <- (app_nil_r i) end. eapply later_end; eauto. constructor.
Qed.

Lemma acts_keep : forall f v w its w', wf_table (v_tbl v) -> acts f v w its w' -> Inv w ->
  Inv w' /\ fresh_ids (w_sys w) (w_sys w') /\ ((exists arm, T v arm w) -> exists arm, T v arm w').
Proof.
  intros f v w its w' WT A. induction A; intros I. { split; auto. split; auto. apply fresh_refl. }
  destruct (act_T _ _ _ _ _ WT H I) as [F Q]. destruct IHA as (I2 & F2 & Q2). { eapply inv_act; eauto. }
  split; auto. split. { eapply fresh_trans; eauto. } intros (arm & Tw). apply Q2. exists (arms arm its). auto.
Qed.
Lemma reach_keep : forall f v c h w0 its w, wf_table (v_tbl v) -> runs f v c h w0 -> later f v w0 its w -> Inv w /\ exists arm, T v arm w.
Proof.
  intros f v c h w0 its w WT R L. apply later_acts in L. assert (I : Inv w0). { apply (runs_ind f v c (fun _ w => Inv w)) in R; auto.
    - intros. eapply inv_start; eauto. - intros. eapply inv_act; eauto. }
  destruct (acts_keep _ _ _ _ _ WT L I) as (A & _ & B). split; auto. apply B. exists (arm_after h). eapply T_runs; eauto.
Qed.

(* ---- timers as lists ---------------------------------------------------------------------------------------------------- *)

Lemma waiting_In : forall w p t, In t (waiting w p) <-> alive (w_sys w) t /\ p (tm_cb t) = true.
Proof. intros w p t. unfold waiting, alive. rewrite filter_In, andb_true_iff, negb_true_iff. tauto. Qed.
Lemma waiting_one : forall v arm w p, T v arm w -> (forall t t', In t (waiting w p) -> In t' (waiting w p) -> t' = t) ->
  waiting w p = [] \/ exists t, waiting w p = [t].
Proof.
  intros v arm w p Tw U. destruct (t_sys _ _ _ Tw) as [ND _].
  assert (N : NoDup (waiting w p)). { unfold waiting. apply NoDup_filter. eapply NoDup_map_inv; eauto. }
  destruct (waiting w p) as [|t [|t' l]]; auto. { eauto. } exfalso. assert (t' = t) by (apply U; [left|right; left]; auto). subst. inversion N; subst. apply H1. left. auto.
Qed.

(* ---- C32: one reconnection timer ---------------------------------------------------------------------------------------------- *)

(* A TCP client with a positive reconnect interval: connected with no timer pending, or disconnected with exactly one,
   armed with the interval (in milliseconds, a 32-bit number).  Provided the system can create timers. *)
Theorem C32_one_retry : forall f v c its w k r e, wf_table (v_tbl v) -> timers_work v -> runs f v c its w -> lookup w k = Some e ->
  tcp_conf c k = Some r -> 0 < r ->
  if ep_fd e then waiting w (is_retry k) = [] else exists t, waiting w (is_retry k) = [t] /\ tm_ms t = u32 (1000 * r).
Proof.
  intros f v c its w k r e WT TW R L TC P. pose proof (T_runs f v c its w WT R) as Tw. pose proof (lf_kind _ _ _ (life_runs f v c its w WT R) k e L) as KL.
  destruct (t_ep _ _ _ Tw k e L) as [_ H]. unfold kind_life in KL.
  assert (CK : exists vl, ep_kind e = KTcp r vl).
  { unfold tcp_conf, uart_conf, udp_conf in *. destruct (ep_kind e) as [b cu p|cf pe p|r1 vl|l].
    - destruct KL as [KL _]. destruct (nth_error (confs c) k); [|discriminate]. destruct (ec_kind e0); discriminate.
    - destruct KL as (s & KL & _). destruct (nth_error (confs c) k); [|discriminate]. destruct (ec_kind e0); discriminate.
    - destruct KL as [[KL|[KL _]] _]; [exists vl; congruence|]. apply nth_error_None in KL. rewrite KL in TC. discriminate.
    - apply nth_error_None in KL. rewrite KL in TC. discriminate. }
  destruct CK as (vl & K). rewrite K in H. destruct H as (_ & H1 & H2 & H3).
  assert (IR : forall t, In t (waiting w (is_retry k)) <-> alive (w_sys w) t /\ tm_cb t = CbRetry k).
  { intros t. rewrite waiting_In. unfold is_retry. destruct (tm_cb t); split; intros [A B]; split; auto; try discriminate. apply Nat.eqb_eq in B. congruence. inversion B. apply Nat.eqb_refl. }
  destruct (waiting_one v _ w (is_retry k) Tw) as [E|(t & E)].
  { intros t t' A B. apply IR in A, B. destruct A, B. eapply H2; eauto. }
  - destruct (ep_fd e) eqn:F; auto. destruct (H3 TW eq_refl P) as (t & A & B). exfalso. assert (X : In t (waiting w (is_retry k))) by (apply IR; auto). rewrite E in X. destruct X.
  - assert (X : In t (waiting w (is_retry k))) by (rewrite E; left; auto). apply IR in X. destruct X as [A B]. destruct (H1 t A B) as (F & _ & M). rewrite F. eauto.
Qed.

(* whether or not timers can be created, there is never a second one, and none while connected *)
Theorem C32_never_two : forall f v c its w k, wf_table (v_tbl v) -> runs f v c its w ->
  waiting w (is_retry k) = [] \/ exists t e r, waiting w (is_retry k) = [t] /\ lookup w k = Some e /\ ep_fd e = false /\
    tcp_conf c k = Some r /\ 0 < r /\ tm_ms t = u32 (1000 * r).
Proof.
  intros f v c its w k WT R. pose proof (T_runs f v c its w WT R) as Tw.
  assert (IR : forall t, In t (waiting w (is_retry k)) <-> alive (w_sys w) t /\ tm_cb t = CbRetry k).
  { intros t. rewrite waiting_In. unfold is_retry. destruct (tm_cb t); split; intros [A B]; split; auto; try discriminate. apply Nat.eqb_eq in B. congruence. inversion B. apply Nat.eqb_refl. }
  assert (Q : forall t, In t (waiting w (is_retry k)) -> exists e r vl, lookup w k = Some e /\ ep_kind e = KTcp r vl /\ ep_fd e = false /\ 0 < r /\ tm_ms t = u32 (1000 * r) /\
             forall t', In t' (waiting w (is_retry k)) -> t' = t).
  { intros t X. apply IR in X. destruct X as [A B]. destruct (t_owner _ _ _ Tw t k A) as (e & L). { rewrite B. auto. }
    destruct (t_ep _ _ _ Tw k e L) as [H0 H]. specialize (H0 t A). rewrite B in H0. specialize (H0 eq_refl). destruct (ep_kind e) as [| |r vl|] eqn:K; try destruct H0.
    destruct H as (_ & H1 & H2 & _). destruct (H1 t A B) as (F & P & M). exists e, r, vl. repeat split; auto. intros t' X. apply IR in X. destruct X. eapply H2; eauto. }
  destruct (waiting w (is_retry k)) as [|t l] eqn:W; auto. right. destruct (Q t) as (e & r & vl & L & K & F & P & M & U). { left; auto. }
  destruct (waiting_one v _ w (is_retry k) Tw) as [E|(t1 & E)].
  { rewrite W. intros a b A B. destruct (Q a A) as (? & ? & ? & _ & _ & _ & _ & _ & U2). auto. }
  - congruence.
  - exists t, e, r. rewrite W in E. injection E as -> ->. split; auto. split; auto. split; auto. split; auto.
    pose proof (lf_kind _ _ _ (life_runs f v c its w WT R) k e L) as KL. unfold kind_life in KL. rewrite K in KL. destruct KL as [[KL|[_ KL]] _]; auto. lia.
Qed.

(* ---- C35: fallback of UDP clients -------------------------------------------------------------------------------------------------- *)

Lemma arm_app : forall a b k, arm_after (a ++ b) k = fold_left (arm_step k) b (arm_after a k).
Proof. intros. unfold arm_after. apply fold_left_app. Qed.
Lemma arm_same : forall b k m, (forall x, In x b -> ~ datagram k x) -> (forall x, In x b -> ~ fallback k x) -> fold_left (arm_step k) b m = m.
Proof.
  induction b as [|x b IH]; intros k m D F; cbn [fold_left]; auto. rewrite IH; [|intros; apply D; right; auto|intros; apply F; right; auto].
  assert (N1 : ~ datagram k x) by (apply D; left; auto). assert (N2 : ~ fallback k x) by (apply F; left; auto).
  destruct x as [i [bs from| |n]|? ? ? ? ?|? ? ? ?|t cb|?|?]; cbn [arm_step]; auto.
  - destruct (Nat.eqb_spec i k); auto. subst. destruct N1. unfold datagram. eauto.
  - destruct cb; auto. destruct (Nat.eqb_spec i k); auto. subst. destruct N2. unfold fallback. eauto.
Qed.
Lemma arm_const : forall b k m, (m = 0 -> forall x, In x b -> ~ datagram k x) -> (m = 5000 -> forall x, In x b -> ~ fallback k x) -> m = 0 \/ m = 5000 -> fold_left (arm_step k) b m = m.
Proof.
  induction b as [|x b IH]; intros k m D F M; cbn [fold_left]; auto.
  assert (X : arm_step k m x = m).
  { destruct x as [i [bs from| |n]|? ? ? ? ?|? ? ? ?|t cb|?|?]; cbn [arm_step]; auto.
    - destruct (Nat.eqb_spec i k); auto. destruct M as [M|M]; auto. destruct (D M (IRead i (OsData bs from))). { left; auto. } subst. unfold datagram. eauto.
    - destruct cb; auto. destruct (Nat.eqb_spec i k); auto. destruct M as [M|M]; auto. destruct (F M (IFire t (CbNoMsg i))). { left; auto. } subst. unfold fallback. eauto. }
  rewrite X. apply IH; auto; intros; [apply D|apply F]; auto; right; auto.
Qed.

(* A UDP client has exactly one fallback timer.  It is armed with 5 seconds by every datagram, until it fires; it is not
   armed before the first datagram, nor after it fired until the next datagram. *)
Theorem C35_armed : forall f v c its w k cf e, wf_table (v_tbl v) -> timers_work v -> runs f v c its w -> lookup w k = Some e -> udp_conf c k = Some (false, cf) ->
  exists t, waiting w (is_fallback k) = [t] /\
  (forall pre x post, its = pre ++ x :: post -> datagram k x -> (forall y, In y post -> ~ fallback k y) -> tm_ms t = 5000) /\
  (forall pre x post, its = pre ++ x :: post -> fallback k x -> (forall y, In y post -> ~ datagram k y) -> tm_ms t = 0) /\
  ((forall y, In y its -> ~ datagram k y) -> tm_ms t = 0).
Proof.
  intros f v c its w k cf e WT TW R L UC. pose proof (T_runs f v c its w WT R) as Tw. pose proof (lf_kind _ _ _ (life_runs f v c its w WT R) k e L) as KL.
  pose proof (holds_runs f v c its w WT R k e L) as HO. destruct (t_ep _ _ _ Tw k e L) as [_ H]. pose proof (life_conf _ _ _ _ KL) as CK. unfold holds in HO.
  assert (CC : exists s a p, conf_kind c k = Some (CUdp s a p)).
  { unfold udp_conf, conf_kind in *. destruct (nth_error (confs c) k) as [e0|]; [|discriminate]. cbn. destruct (ec_kind e0); try discriminate. eauto. }
  destruct CC as (s & a & p0 & CC). rewrite CC in CK.
  destruct (ep_kind e) as [b cu p|cf1 pe p|r vl|l]; try (exfalso; destruct CK as (? & ? & CK); discriminate CK).
  2:{ exfalso. destruct (CK [] false) as [_ X]. destruct (X _ _ _ eq_refl). }
  2:{ exfalso. destruct (CK [] false) as [_ X]. destruct (X _ _ _ eq_refl). }
  clear CK KL. assert (PN : p <> None) by (apply HO; auto; congruence). destruct p as [id|]; [|congruence]. destruct H as [H1 H2]. cbn [ptr_ok] in H1. apply live_alive in H1.
  destruct H1 as (t & A & E1 & E2). destruct (H2 t A E2) as [_ M].
  assert (IR : forall t, In t (waiting w (is_fallback k)) <-> alive (w_sys w) t /\ tm_cb t = CbNoMsg k).
  { intros t0. rewrite waiting_In. unfold is_fallback. destruct (tm_cb t0); split; intros [P B]; split; auto; try discriminate. apply Nat.eqb_eq in B. congruence. inversion B. apply Nat.eqb_refl. }
  exists t. split.
  { destruct (waiting_one v _ w (is_fallback k) Tw) as [E|(t1 & E)].
    - intros q q' X Y. apply IR in X, Y. destruct X as [X1 X2], Y as [Y1 Y2]. destruct (H2 _ X1 X2), (H2 _ Y1 Y2). apply (same_id (w_sys w)); [apply Tw|apply Y1|apply X1|congruence].
    - exfalso. assert (X : In t (waiting w (is_fallback k))) by (apply IR; auto). rewrite E in X. destruct X.
    - rewrite E. f_equal. assert (X : In t (waiting w (is_fallback k))) by (apply IR; auto). rewrite E in X. destruct X as [X|[]]; auto. }
  rewrite M. split; [|split].
  - intros pre x post E (bs & from & ->) N. rewrite E, arm_app. cbn [fold_left arm_step]. rewrite Nat.eqb_refl. apply arm_const; auto. discriminate.
  - intros pre x post E (t1 & ->) N. rewrite E, arm_app. cbn [fold_left arm_step]. rewrite Nat.eqb_refl. apply arm_const; auto. discriminate.
  - intros N. unfold arm_after. apply arm_const; auto. discriminate.
Qed.

(* after it fired, messages are sent to the configured address until the next datagram *)
Theorem C35_fallback : forall f v c its w pre x mid y post d cf, wf_table (v_tbl v) -> runs f v c its w -> its = pre ++ x :: mid ++ y :: post ->
  fallback (dl_to d) x -> (forall z, In z mid -> ~ datagram (dl_to d) z) -> In d (made y) -> udp_conf c (dl_to d) = Some (false, cf) -> snd cf <> 0 ->
  exists r, dl_call d = DSent (Some cf) r.
Proof.
  intros f v c its w pre x mid y post d cf WT R E (t & ->) N D UC NZ.
  destruct (C34_destination f v c its w (pre ++ IFire t (CbNoMsg (dl_to d)) :: mid) y post d false cf WT R) as [_ B]; auto. { rewrite E, <- app_assoc. auto. }
  assert (P : peer_after cf (pre ++ IFire t (CbNoMsg (dl_to d)) :: mid) (dl_to d) = cf).
  { unfold peer_after. rewrite fold_left_app. cbn [fold_left peer_step]. rewrite Nat.eqb_refl. clear - N. induction mid as [|z m IH]; auto. cbn [fold_left].
    assert (X : peer_step cf (dl_to d) cf z = cf). { destruct z as [i [bs from| |n]|? ? ? ? ?|? ? ? ?|t cb|?|?]; cbn [peer_step]; auto.
      - destruct (Nat.eqb_spec i (dl_to d)); auto. destruct (N (IRead i (OsData bs from))). { left; auto. } subst. unfold datagram. eauto.
      - destruct cb; auto. destruct (Nat.eqb i (dl_to d)); auto. }
    rewrite X. apply IH. intros z0 Z. apply N. right; auto. }
  rewrite P in B. auto.
Qed.

(* ---- C36: baud rates --------------------------------------------------------------------------------------------------------------- *)

(* each tick steps to the next rate, cyclically, starting with the first *)
Theorem C36_cyclic : forall f v c its w k b e, wf_table (v_tbl v) -> runs f v c its w -> lookup w k = Some e -> uart_conf c k = Some b ->
  exists p, ep_kind e = KUart b (Nat.modulo (ticks its k) (length b)) p.
Proof.
  intros f v c its w k b e WT R L UC. pose proof (lf_kind _ _ _ (life_runs f v c its w WT R) k e L) as KL. pose proof (life_conf _ _ _ _ KL) as CK. unfold kind_life in KL.
  assert (CC : exists b f, conf_kind c k = Some (CUart b f)).
  { unfold uart_conf, conf_kind in *. destruct (nth_error (confs c) k) as [e0|]; [|discriminate]. cbn. destruct (ec_kind e0); try discriminate. eauto. }
  destruct CC as (b1 & fl & CC). rewrite CC in CK.
  destruct (ep_kind e) as [b2 cu p|cf1 pe p|r vl|l].
  - destruct KL as (X & _ & _ & ->). rewrite UC in X. inversion X; subst. eauto.
  - destruct CK as (? & ? & ? & CK). discriminate CK.
  - destruct (CK b1 fl) as [X _]. destruct (X eq_refl).
  - destruct (CK b1 fl) as [X _]. destruct (X eq_refl).
Qed.

(* while several rates are configured and no packet with a known id arrived, the timer is there, every 5 seconds *)
Theorem C36_cycling : forall f v c its w k b e, wf_table (v_tbl v) -> timers_work v -> runs f v c its w -> lookup w k = Some e -> uart_conf c k = Some b ->
  length b <> 1%nat -> (forall x, In x its -> ~ known_on (v_tbl v) k x) -> exists t, waiting w (is_baud k) = [t] /\ tm_ms t = 5000.
Proof.
  intros f v c its w k b e WT TW R L UC NB NK. destruct (C36_cyclic _ _ _ _ _ _ _ _ WT R L UC) as (p & K). pose proof (T_runs f v c its w WT R) as Tw.
  pose proof (holds_runs f v c its w WT R k e L) as HO. destruct (t_ep _ _ _ Tw k e L) as [_ H]. unfold holds in HO. rewrite K in HO, H. destruct HO as (_ & _ & HO). destruct H as [H1 H2].
  destruct p as [id|]. 2:{ destruct (HO TW NB eq_refl) as (x & X & Y). destruct (NK x X Y). }
  cbn [ptr_ok] in H1. apply live_alive in H1. destruct H1 as (t & A & E1 & E2). destruct (H2 t A E2) as [_ M].
  assert (IR : forall t, In t (waiting w (is_baud k)) <-> alive (w_sys w) t /\ tm_cb t = CbBaud k).
  { intros t0. rewrite waiting_In. unfold is_baud. destruct (tm_cb t0); split; intros [P B]; split; auto; try discriminate. apply Nat.eqb_eq in B. congruence. inversion B. apply Nat.eqb_refl. }
  exists t. split; auto. assert (X : In t (waiting w (is_baud k))) by (apply IR; auto).
  destruct (waiting_one v _ w (is_baud k) Tw) as [E|(t1 & E)].
  - intros q q' Y Z. apply IR in Y, Z. destruct Y as [Y1 Y2], Z as [Z1 Z2]. destruct (H2 _ Y1 Y2), (H2 _ Z1 Z2). apply (same_id (w_sys w)); [apply Tw|apply Z1|apply Y1|congruence].
  - rewrite E in X. destruct X.
  - rewrite E in *. destruct X as [->|[]]. auto.
Qed.

Lemma no_tick_after : forall f v c its w, wf_table (v_tbl v) -> runs f v c its w ->
  forall pre post t k x, its = pre ++ IFire t (CbBaud k) :: post -> In x pre -> ~ known_on (v_tbl v) k x.
Proof.
  intros f v c its w WT R.
  apply (proj2 (A := life c its w /\ T v (arm_after its) w /\ forall k e, lookup w k = Some e -> holds v c its k e)).
  apply (runs_ind f v c (fun its w => (life c its w /\ T v (arm_after its) w /\ forall k e, lookup w k = Some e -> holds v c its k e) /\
    forall pre post t k x, its = pre ++ IFire t (CbBaud k) :: post -> In x pre -> ~ known_on (v_tbl v) k x)); auto.
  - intros d pos w0 S. split; [split; [eapply life_start; eauto|split; [apply (start_T v d pos c); auto|intros; eapply holds_start; eauto]]|]. intros pre post t k x E. destruct pre; discriminate.
  - intros h u it u' I [(LF & Tw & HO) P] A. split; [split; [eapply life_act; eauto|split]|].
    + destruct (act_T f v u it u' WT A I) as [_ Q]. eapply T_ext; [|exact (Q _ Tw)]. intros k. unfold arm_after, arms. rewrite fold_left_app. reflexivity.
    + intros k e L. eapply holds_act; eauto.
    + intros pre post t k x E X. destruct (split_app _ _ _ _ _ _ E) as [(q & X1)|(q & X1 & X2)]. { eapply P; eauto. }
      assert (F : In (IFire t (CbBaud k)) it) by (rewrite X2; apply in_or_app; right; left; auto).
      assert (QN : q = []). { destruct q as [|y q]; auto. exfalso. destruct (act_shape _ _ _ _ _ WT A I) as [SH _]. destruct (SH y (q ++ IFire t (CbBaud k) :: post) (IFire t (CbBaud k)) X2) as [(? & ? & ? & ? & Z)|(? & Z)]; [apply in_or_app; right; left; auto|discriminate|discriminate]. }
      subst q. rewrite app_nil_r in X1. subst pre. intros KN.
      destruct (act_fired _ _ _ _ _ _ _ WT A I F) as (tm & AL & _ & CB). destruct (t_owner _ _ _ Tw tm k AL) as (e & L). { rewrite CB. auto. }
      destruct (t_ep _ _ _ Tw k e L) as [H0 H1]. specialize (H0 tm AL). rewrite CB in H0. specialize (H0 eq_refl). specialize (HO k e L). unfold holds in HO. destruct (ep_kind e); try destruct H0.
      destruct H1 as [_ H1]. destruct (H1 tm AL CB) as [Z _]. destruct HO as (_ & HO & _). rewrite HO in Z; [discriminate Z|eauto].
Qed.

(* the first packet with a known id stops the cycling for good: no later tick, the rate stays what it was *)
Theorem C36_stops : forall f v c its w k pre x post, wf_table (v_tbl v) -> runs f v c its w -> its = pre ++ x :: post -> known_on (v_tbl v) k x ->
  (forall t, ~ In (IFire t (CbBaud k)) post) /\ ticks its k = ticks pre k /\ waiting w (is_baud k) = [].
Proof.
  intros f v c its w k pre x post WT R E K. pose proof (no_tick_after f v c its w WT R) as N.
  assert (A : forall t, ~ In (IFire t (CbBaud k)) post).
  { intros t X. apply in_split in X. destruct X as (a & b & X). apply (N (pre ++ x :: a) b t k x); auto. { rewrite E, X, <- app_assoc. auto. } apply in_or_app. right. left. auto. }
  split; auto. split.
  - rewrite E. unfold ticks. rewrite filter_app, app_length. cbn [filter]. destruct K as (bs & m & d & ds & -> & _). cbn [is_tick].
    assert (F : filter (is_tick k) post = []). { clear - A. induction post as [|y p IH]; auto. cbn [filter]. destruct (is_tick k y) eqn:Y.
      - exfalso. destruct y as [| | |t cb| |]; try discriminate. destruct cb; try discriminate. cbn in Y. apply Nat.eqb_eq in Y. subst. apply (A t). left. auto.
      - apply IH. intros t X. apply (A t). right. auto. }
    rewrite F. cbn. lia.
  - destruct (waiting w (is_baud k)) as [|tm l] eqn:W; auto. exfalso. assert (X : In tm (waiting w (is_baud k))) by (rewrite W; left; auto). apply waiting_In in X. destruct X as [AL B].
    assert (CB : tm_cb tm = CbBaud k). { unfold is_baud in B. destruct (tm_cb tm); try discriminate. apply Nat.eqb_eq in B. congruence. }
    pose proof (T_runs f v c its w WT R) as Tw. destruct (t_owner _ _ _ Tw tm k AL) as (e & L). { rewrite CB. auto. }
    pose proof (holds_runs f v c its w WT R k e L) as HO.
    destruct (t_ep _ _ _ Tw k e L) as [H0 H1]. specialize (H0 tm AL). rewrite CB in H0. specialize (H0 eq_refl). unfold holds in HO. destruct (ep_kind e); try destruct H0.
    destruct H1 as [_ H1]. destruct (H1 tm AL CB) as [Z _]. destruct HO as (_ & HO & _). rewrite HO in Z; [discriminate Z|]. exists x. split; auto. rewrite E. apply in_or_app. right. left. auto.
Qed.

(* ---- C38: a removed timer never fires ---------------------------------------------------------------------------------------------------- *)

Theorem C38_never_fires : forall f v c h w0 its0 w its w' t, wf_table (v_tbl v) -> runs f v c h w0 -> later f v w0 its0 w -> removed w t ->
  later f v w its w' -> forall cb, ~ In (IFire t cb) its.
Proof.
  intros f v c h w0 its0 w its w' t WT R L0 RM L cb. destruct (reach_keep _ _ _ _ _ _ _ WT R L0) as [I _]. apply later_acts in L. clear R L0.
  revert RM I. induction L as [w|w i1 w1 i2 w2 A L IH]; intros RM I X; [destruct X|]. apply in_app_or in X. destruct X as [X|X].
  - destruct (act_fired _ _ _ _ _ _ _ WT A I X) as (tm & [AL D] & E & _). destruct RM as [_ RM]. rewrite (RM tm AL E) in D. discriminate.
  - revert X. apply IH; [|eapply inv_act; eauto]. destruct (act_T _ _ _ _ _ WT A I) as [[F1 F2] _]. destruct RM as [R1 R2]. split; [lia|].
    intros tm Z E. destruct (F2 tm Z) as [Q|(s & S1 & S2 & _ & S4)]; [lia|]. apply S4. apply R2; auto. congruence.
Qed.

(* removing a timer, and a callback that asks not to be repeated, leave it removed *)
Theorem C38_deleted : forall f v c h w0 its0 w t y, wf_table (v_tbl v) -> runs f v c h w0 -> later f v w0 its0 w -> del_timer (w_sys w) t = Ok y -> removed (set_sys w y) t.
Proof.
  intros f v c h w0 its0 w t y WT R L D. destruct (reach_keep _ _ _ _ _ _ _ WT R L) as [_ (arm & Tw)]. destruct (t_sys _ _ _ Tw) as [ND LT]. unfold del_timer in D. destruct (has_timer (w_sys w) t) eqn:HT; [|discriminate]. inversion D; subst; clear D. split.
  - cbn. unfold has_timer in HT. apply existsb_exists in HT. destruct HT as (s & S & E). apply Nat.eqb_eq in E. rewrite Forall_forall in LT. specialize (LT s S). lia.
  - cbn [w_sys set_sys set_timers y_timers]. intros tm X E. apply in_map_iff in X. destruct X as (s & <- & S). destruct (Nat.eqb_spec (tm_id s) t); auto.
Qed.
Theorem C38_not_repeated : forall f v c h w0 its0 w t err w1 w' its tm, wf_table (v_tbl v) -> runs f v c h w0 -> later f v w0 its0 w ->
  find_timer (w_sys w) t = Some tm -> tm_dead tm = false -> run_cb f v w (tm_cb tm) = Ok (w1, its, false) ->
  handle_event f v w (ETimer t true err) = Ok (w', IFire t (tm_cb tm) :: its) -> removed w' t.
Proof.
  intros f v c h w0 its0 w t err w1 w' its tm WT R L F D RC H. destruct (reach_keep _ _ _ _ _ _ _ WT R L) as [I (arm & Tw)].
  assert (LT : (t < y_next (w_sys w))%nat).
  { unfold find_timer in F. apply find_some in F. destruct F as [F E]. apply Nat.eqb_eq in E. destruct (t_sys _ _ _ Tw) as [_ LT]. rewrite Forall_forall in LT. specialize (LT _ F). lia. }
  cbn [handle_event] in H. inv_bind H. match goal with X : timer_read _ _ _ _ _ = Ok (?q, ?l) |- _ => rename X into TR; rename q into w2; rename l into l2 end.
  assert (R2 : removed w2 t).
  { pose proof (stays_timer _ _ _ _ _ _ _ TR (inv_logs _ I)) as [[[[NX _] _] _] _]. unfold timer_read in TR. rewrite F, D in TR. cbn [negb orb] in TR. rewrite RC in TR. cbn [bind] in TR.
    inv_bind TR. inversion TR; subst; clear TR. split; [lia|]. unfold del_timer in E. destruct (has_timer (w_sys w1) t); [|discriminate]. inversion E; subst; clear E.
    cbn [w_sys set_sys set_timers y_timers]. intros q X Y. apply in_map_iff in X. destruct X as (s & <- & S). destruct (Nat.eqb_spec (tm_id s) t); auto. }
  inversion H; subst. destruct err; auto.
Qed.

(* ---- C40: poll errors ----------------------------------------------------------------------------------------------------------------------- *)

(* in any state the program can be in when it handles the event: an error on a UART, a UDP endpoint or a timer asks for
   exit with failure (1); on a TCP endpoint it does not, nor does any event without error, other than a signal *)
Theorem C40_critical : forall f v c h w0 its0 w i rd out w' its e, wf_table (v_tbl v) -> runs f v c h w0 -> later f v w0 its0 w -> lookup w i = Some e ->
  (forall r vl, ep_kind e <> KTcp r vl) -> handle_event f v w (EEp i rd out true) = Ok (w', its) -> w_exit w' = Some 1.
Proof.
  intros f v c h w0 its0 w i rd out w' its e WT R L LE NT H. destruct (reach_keep _ _ _ _ _ _ _ WT R L) as [I _].
  destruct (event_there _ _ _ _ _ _ H (inv_logs _ I)) as [_ X]. cbn [wants_exit] in X. rewrite LE in X. unfold is_critical in X. destruct (ep_kind e); auto. destruct (NT retry valid eq_refl).
Qed.
Theorem C40_timer : forall f v c h w0 its0 w t fired w' its, wf_table (v_tbl v) -> runs f v c h w0 -> later f v w0 its0 w ->
  handle_event f v w (ETimer t fired true) = Ok (w', its) -> w_exit w' = Some 1.
Proof.
  intros f v c h w0 its0 w t fired w' its WT R L H. destruct (reach_keep _ _ _ _ _ _ _ WT R L) as [I _]. destruct (event_there _ _ _ _ _ _ H (inv_logs _ I)) as [_ X]. exact X.
Qed.
Theorem C40_tcp : forall f v c h w0 its0 w i rd out err w' its e r vl, wf_table (v_tbl v) -> runs f v c h w0 -> later f v w0 its0 w -> lookup w i = Some e ->
  ep_kind e = KTcp r vl -> handle_event f v w (EEp i rd out err) = Ok (w', its) -> w_exit w' = w_exit w.
Proof.
  intros f v c h w0 its0 w i rd out err w' its e r vl WT R L LE K H. destruct (reach_keep _ _ _ _ _ _ _ WT R L) as [I _].
  destruct (event_there _ _ _ _ _ _ H (inv_logs _ I)) as [_ X]. cbn [wants_exit] in X. rewrite LE in X. unfold is_critical in X. rewrite K in X. destruct err; auto.
Qed.
Theorem C40_no_error : forall f v c h w0 its0 w ev w' its, wf_table (v_tbl v) -> runs f v c h w0 -> later f v w0 its0 w ->
  match ev with EServer => True | EEp _ _ _ err => err = false | ETimer _ _ err => err = false | ESignal => False end ->
  handle_event f v w ev = Ok (w', its) -> w_exit w' = w_exit w.
Proof.
  intros f v c h w0 its0 w ev w' its WT R L N H. destruct (reach_keep _ _ _ _ _ _ _ WT R L) as [I _].
  destruct (event_there _ _ _ _ _ _ H (inv_logs _ I)) as [_ X]. destruct ev; cbn [wants_exit] in X; subst; auto. destruct N.
Qed.

Definition critical_error (w : world) (ev : event) : Prop :=
  match ev with
  | EEp i _ _ true => exists e, lookup w i = Some e /\ forall r vl, ep_kind e <> KTcp r vl
  | ETimer _ _ true => True
  | _ => False
  end.
(* the iteration in which the error is reported is the last one *)
Theorem C40_last_iteration : forall f v c h w pre ev post w' its, wf_table (v_tbl v) -> runs f v c h w -> Forall (wf_event w) (pre ++ ev :: post) ->
  critical_error w ev -> ~ In ESignal post -> step f v w (pre ++ ev :: post) = Ok (w', its) ->
  w_exit w' = Some 1 /\ forall batches, run f v w' batches = Ok (w', []).
Proof.
  intros f v c h w pre ev post w' its WT R W CE NS H. destruct (reach_keep _ _ _ _ _ _ _ WT R (later_nil f v w)) as [I _].
  assert (WV : Forall wf_ev (pre ++ ev :: post)). { eapply Forall_impl; [|eauto]. intros e [_ X]. destruct e as [|? [?|] ? ?| |]; exact X || exact Logic.I. }
  assert (E : w_exit w' = Some 1).
  2:{ split; auto. intros [|b l]; cbn [run]; auto. rewrite E. auto. }
  unfold step in H. inv_bind H. inv_bind H. inversion H; subst; clear H.
  rename E into HE, w1 into w9, w0 into w1.
  assert (X1 : w_exit w1 = Some 1).
  { assert (ST : still_there w w) by apply there_refl. clear W R. set (wx := w) in ST at 1. assert (CX : critical_error wx ev) by exact CE. clearbody wx. clear CE.
    revert w I ST l HE. induction pre as [|p pre IH]; intros w I ST l HE; cbn [app handle_events] in HE; inv_bind HE; inv_bind HE; inversion HE; subst; clear HE; cbn [app] in WV; inversion WV; subst.
    - match goal with X : handle_event _ _ _ _ = Ok (?q, _) |- _ => rename X into HV; rename q into w2 end. destruct (event_there _ _ _ _ _ _ HV (inv_logs _ I)) as [_ X].
      assert (Y : wants_exit w ev = Some 1).
      { destruct ev as [|i rd out [|]|t fr [|]|]; cbn in CX; try destruct CX; auto. destruct H as [LE NT]. destruct (proj2 ST _ _ LE) as (e' & L' & CL). cbn [wants_exit]. rewrite L'.
        rewrite (class_critical _ _ CL). unfold is_critical. destruct (ep_kind x); auto. destruct (NT retry valid eq_refl). }
      rewrite Y in X. apply event_inv in HV; auto. match goal with Q : handle_events _ _ w2 _ = _ |- _ => rename Q into HP end.
      clear - WT HP X HV NS H2. revert w2 X HV w1 l2 HP. induction post as [|q post IH]; intros w2 X HV w1 l2 HP; cbn [handle_events] in HP. { inversion HP; subst. auto. }
      inv_bind HP. inv_bind HP. inversion HP; subst. inversion H2; subst.
      match goal with Q : handle_event _ _ w2 _ = Ok (?q2, _) |- _ => destruct (event_there _ _ _ _ _ _ Q (inv_logs _ HV)) as [_ Y]; apply event_inv in Q; auto end.
      eapply (fun a b => IH a b w); [| | | |exact E0]; auto. { intros Z. apply NS. right. auto. }
      rewrite Y, X. destruct q as [|? ? ? [|]|? ? [|]|]; cbn [wants_exit]; auto. { destruct (lookup _ _); auto. destruct (is_critical _); auto. } exfalso. apply NS. left. auto.
    - match goal with X : handle_event _ _ _ _ = Ok (?q, _) |- _ => rename X into HV; rename q into w2 end. destruct (event_there _ _ _ _ _ _ HV (inv_logs _ I)) as [S2 _].
      apply event_inv in HV; auto. eapply IH; [| |eapply there_trans; eauto|eassumption]; auto. }
  match goal with X : process_hangups _ = _ |- _ => rename X into PH end. cbn. unfold process_hangups in PH. destruct (w_hang w1); [|inversion PH; subst; auto].
  inv_bind PH. inversion PH; subst. cbn. destruct (reach_keep _ _ _ _ _ _ _ WT R (later_nil f v w)) as [I0 _].
  destruct (events_there _ _ _ _ _ _ WT HE WV I) as [_ I1]. destruct (hangups_spec _ _ _ _ _ E (inv_sym _ I1)) as (A & _). rewrite A. exact X1.
Qed.

(* ---- C41: no dangling pointers ----------------------------------------------------------------------------------------------------------------- *)

(* when the events of a batch are handled one after the other, each still finds its object *)
Theorem C41_dispatch : forall f v c h w pre ev post w1 its, wf_table (v_tbl v) -> runs f v c h w -> Forall (wf_event w) (pre ++ ev :: post) ->
  handle_events f v w pre = Ok (w1, its) -> target_alive w1 ev.
Proof.
  intros f v c h w pre ev post w1 its WT R W H. destruct (reach_keep _ _ _ _ _ _ _ WT R (later_nil f v w)) as [I _].
  assert (WV : Forall wf_ev (pre ++ ev :: post)). { eapply Forall_impl; [|eauto]. intros e [_ X]. destruct e as [|? [?|] ? ?| |]; exact X || exact Logic.I. }
  apply Forall_app in W, WV. destruct W as [_ W], WV as [WV _]. inversion W; subst. destruct H2 as [RG _]. pose proof H as H0.
  destruct (events_there _ _ _ _ _ _ WT H WV I) as [[[F M] E] _]. destruct ev as [|i rd out err|t fr err|]; cbn [target_alive registered] in *; auto.
  - assert (X : w_server w1 = w_server w); [|congruence]. clear - WT H WV I. revert w I its H. induction pre as [|p pre IH]; intros w I its H; cbn [handle_events] in H. { inversion H; auto. }
    inv_bind H. inv_bind H. inversion H; subst. inversion WV; subst. match goal with Q : handle_event _ _ w _ = Ok (?q, _) |- _ => rename q into w2; rename Q into HV end.
    assert (I2 : Inv w2) by (eapply event_inv; eauto). match goal with Q : handle_events _ _ w2 _ = _ |- _ => rewrite (IH H3 _ I2 _ Q) end. apply handle_event_acts in HV; auto.
    clear - WT HV I. induction HV; auto. rewrite IHHV; [|eapply inv_act; eauto]. eapply act_server; eauto.
  - destruct (lookup w i) as [e|] eqn:L; [|discriminate]. destruct (E _ _ L) as (e' & L' & _). eauto.
  - unfold has_timer in RG. apply existsb_exists in RG. destruct RG as (s & S & Q). apply Nat.eqb_eq in Q. destruct (M s S) as (s' & S' & Q'). exists s'. split; auto. congruence.
Qed.

(* and at every moment: the endpoints in the list, the members of groups and the endpoints the callbacks of timers work on
   exist, and are of the kind the callback expects *)
Theorem C41_references : forall f v c h w0 its w, wf_table (v_tbl v) -> runs f v c h w0 -> later f v w0 its w ->
  (forall k, In k (w_order w) -> exists e, lookup w k = Some e) /\
  (forall k e j, lookup w k = Some e -> In j (ep_members e) -> exists e', lookup w j = Some e') /\
  (forall t k, In t (y_timers (w_sys w)) -> tm_dead t = false -> owner (tm_cb t) = Some k -> exists e, lookup w k = Some e /\ fits (tm_cb t) (ep_kind e)).
Proof.
  intros f v c h w0 its w WT R L. destruct (reach_keep _ _ _ _ _ _ _ WT R L) as [I (arm & Tw)]. split; [|split].
  - intros k K. pose proof (i_alive _ I k K). destruct (lookup w k); [eauto|congruence].
  - intros k e j LE J. destruct (i_mem _ I _ _ _ LE J) as (_ & e' & L' & _). eauto.
  - intros t k X D O. destruct (t_owner _ _ _ Tw t k (conj X D) O) as (e & LE). exists e. split; auto. destruct (t_ep _ _ _ Tw k e LE) as [F _]. apply F; auto. split; auto.
Qed.

(* ---- examples ------------------------------------------------------------------------------------------------------------------------------------ *)

(* a UART with three baud rates (0), a UDP client (1) and a TCP client with a reconnect interval of 5 s (2) *)
Definition tm_conf : config := mkCf [mkEc (CUart [57600; 115200; 921600] false) true no_filters []] [mkEc (CUdp false 7 14550) true no_filters []]
  [mkEc (CTcp 5 5760) true no_filters []] 5790 None 0 true 0.
(* the baud rate changes, the TCP connection is lost, a datagram arrives, the baud rate changes again *)
Definition tm_events : list (list event) :=
  [[ETimer 0 true false]; [EEp 2 (Some (OsData [] (0, 0))) false false; rx_from 1 (9, 9) (rx_hb 2 1 0)]; [ETimer 0 true false]].
Definition tm_view (w : world) (its : list item) : list (callback * Z * bool) * (bool * option (list Z * nat)) * list item :=
  (map (fun t => (tm_cb t, tm_ms t, tm_dead t)) (y_timers (w_sys w)),
   (match lookup w 2 with Some e => ep_fd e | None => true end, match lookup w 0 with Some e => match ep_kind e with KUart b i _ => Some (b, i) | _ => None end | None => None end),
   filter (fun x => match x with IFire _ _ => true | _ => false end) its).
Example timers_nonvacuous : exists w its, runs 9 (rx_env []) tm_conf its w /\ wf_table (v_tbl (rx_env [])) /\ timers_work (rx_env []) /\
  tcp_conf tm_conf 2 = Some 5 /\ udp_conf tm_conf 1 = Some (false, (7, 14550)) /\ uart_conf tm_conf 0 = Some [57600; 115200; 921600] /\
  tm_view w its = ([(CbRetry 2, 5000, false); (CbAggregate, 5000, false); (CbStats, 1000, false); (CbNoMsg 1, 5000, false); (CbBaud 0, 5000, false)],
                   (false, Some ([57600; 115200; 921600], 2%nat)), [IFire 0 (CbBaud 0); IFire 0 (CbBaud 0)]).
Proof.
  destruct (view_runs _ tm_view ([(CbRetry 2, 5000, false); (CbAggregate, 5000, false); (CbStats, 1000, false); (CbNoMsg 1, 5000, false); (CbBaud 0, 5000, false)],
                   (false, Some ([57600; 115200; 921600], 2%nat)), [IFire 0 (CbBaud 0); IFire 0 (CbBaud 0)])
    9 (rx_env []) (Some []) tm_conf tm_events) as (w & its & R & X). { vm_compute. reflexivity. }
  exists w, its. split; auto. split; [apply rx_tbl_wf|]. split; [intros p; reflexivity|]. do 3 (split; [reflexivity|]). exact X.
Qed.

(* reconnection after the interval; the fallback of the UDP client; a known message stops the baud rate changes and the
   timer is gone: it was removed before *)
Definition tm_events2 : list (list event) :=
  tm_events ++ [[ETimer 4 true false]; [ETimer 1 true false]; [rx_from 0 (0, 0) (rx_hb 1 1 0)]; [EEp 1 None true false]].
Example timers_nonvacuous2 : exists w its, runs 9 (rx_env []) tm_conf its w /\ wf_table (v_tbl (rx_env [])) /\ timers_work (rx_env []) /\ removed w 0 /\
  tm_view w its = ([(CbAggregate, 5000, false); (CbStats, 1000, false); (CbNoMsg 1, 0, false)],
                   (true, Some ([57600; 115200; 921600], 2%nat)), [IFire 0 (CbBaud 0); IFire 0 (CbBaud 0); IFire 4 (CbRetry 2); IFire 1 (CbNoMsg 1)]) /\
  existsb (fun x => match x with IRecv 0 bs _ _ _ => beqs bs (encode (rx_hb 1 1 0)) | _ => false end) its = true.
Proof.
  destruct (view_runs _ (fun w its => (tm_view w its, (existsb (fun x => match x with IRecv 0 bs _ _ _ => beqs bs (encode (rx_hb 1 1 0)) | _ => false end) its, y_next (w_sys w), map tm_id (y_timers (w_sys w)))))
    ([(CbAggregate, 5000, false); (CbStats, 1000, false); (CbNoMsg 1, 0, false)],
      (true, Some ([57600; 115200; 921600], 2%nat)), [IFire 0 (CbBaud 0); IFire 0 (CbBaud 0); IFire 4 (CbRetry 2); IFire 1 (CbNoMsg 1)], (true, 5%nat, [3%nat; 2%nat; 1%nat]))
    9 (rx_env []) (Some []) tm_conf tm_events2) as (w & its & R & X). { vm_compute. reflexivity. }
  assert (X1 := f_equal fst X). assert (X2 := f_equal snd X). cbn [fst snd] in X1, X2. clear X. injection X2 as X2 X3 X4.
  exists w, its. split; auto. split; [apply rx_tbl_wf|]. split; [intros p; reflexivity|]. split; [|split; auto].
  split; [lia|]. intros tm T0 E. assert (Q : In 0%nat [3%nat; 2%nat; 1%nat]) by (rewrite <- X4, <- E; apply in_map; auto). cbn in Q. lia.
Qed.

(* an error on the UART ends the program with failure, one on the TCP client does not *)
Definition tm_exit (r : option (world * list item)) : option (option Z) := match r with Some (w, _) => Some (w_exit w) | None => None end.
Example errors_nonvacuous :
  tm_exit (session 9 (rx_env []) (Some []) tm_conf (tm_events ++ [[EEp 1 None true false; EEp 0 None false true; ETimer 1 true false]])) = Some (Some 1) /\
  tm_exit (session 9 (rx_env []) (Some []) tm_conf (firstn 1 tm_events ++ [[EEp 2 None false true]; [ETimer 1 true false]])) = Some None /\
  tm_exit (session 9 (rx_env []) (Some []) tm_conf [[ETimer 0 false true]]) = Some (Some 1).
Proof. vm_compute. auto. Qed.

Print Assumptions C32_one_retry.
Print Assumptions C32_never_two.
Print Assumptions C35_armed.
Print Assumptions C35_fallback.
Print Assumptions C36_cyclic.
Print Assumptions C36_cycling.
Print Assumptions C36_stops.
Print Assumptions C38_never_fires.
Print Assumptions C38_deleted.
Print Assumptions C38_not_repeated.
Print Assumptions C40_critical.
Print Assumptions C40_timer.
Print Assumptions C40_tcp.
Print Assumptions C40_no_error.
Print Assumptions C40_last_iteration.
Print Assumptions C41_dispatch.
Print Assumptions C41_references.
