(* One endpoint through a whole run: which endpoints hold a timer. *)
From Coq Require Import Permutation.
From Verif Require Import Base Mav SpecCrc SpecFrame Frame FrameProofs FrameRefine FrameLink Dedup SpecAccept Accept AcceptProofs Names Sys LogFile LogFileProofs ULog Loggers LogInv LogStep LogMono RouterCtl Router
  RouterRoute RouterRoute2 RouterSetup RouterActs RouterInv RouterLearn RouterStep RouterStart RouterHist SpecRouter SpecLife RouterTrace RouterLife RouterLife2 RouterLife3 RouterLife4 RouterTimers RouterTimers2.

(* a UART holds a timer while it has several rates to try and no known packet was received; a UDP client always does *)
Definition holds (v : env) (c : config) (h : list item) (k : nat) (e : ep) : Prop :=
  match ep_kind e with
  | KUart b _ p => (length b = 1%nat -> p = None) /\ ((exists x, In x h /\ known_on (v_tbl v) k x) -> p = None) /\
                   (timers_work v -> length b <> 1%nat -> p = None -> exists x, In x h /\ known_on (v_tbl v) k x)
  | KUdp _ _ p => timers_work v -> (forall cf, udp_conf c k <> Some (true, cf)) -> p <> None
  | _ => True
  end.

Lemma holds_start : forall v y c w k e, start v y c = Some w -> lookup w k = Some e -> holds v c [] k e.
Proof.
  intros v y c w k e S L. unfold holds. destruct (start_born _ _ _ _ _ _ S L) as [(cc & NC & _ & B)|(IL & X)].
  - unfold udp_conf. rewrite NC. destruct (ec_kind cc).
    + destruct B as (t & -> & F & NB & P & Q). split; auto. split. { intros (x & [] & _). } intros TW N E. destruct (Q TW N E).
    + destruct B as (t & -> & F & NB & Q). intros TW NS. apply Q; auto. destruct server; auto. exfalso. eapply NS; eauto.
    + rewrite B. auto.
  - unfold is_log in X. destruct (ep_kind e); try discriminate. auto.
Qed.

Lemma known_quiet : forall tbl k x r h, Forall quiet r -> ((exists y, In y (h ++ x :: r) /\ known_on tbl k y) <-> (exists y, In y h /\ known_on tbl k y) \/ known_on tbl k x).
Proof.
  intros tbl k x r h Q. split.
  - intros (y & I & K). apply in_app_or in I. destruct I as [I|[<-|I]]; [left; eauto|auto|]. exfalso. rewrite Forall_forall in Q. destruct K as (bs & m & d & ds & -> & _).
    destruct (Q _ I) as [(? & ? & ? & ? & X)|(? & X)]; discriminate X.
  - intros [(y & I & K)|K]; [exists y; split; auto; apply in_or_app; auto|]. exists x. split; auto. apply in_or_app. right. left. auto.
Qed.

Definition conf_kind (c : config) (k : nat) : option epkind := option_map ec_kind (nth_error (confs c) k).
Lemma life_conf : forall c h k e, kind_life c h k e ->
  match ep_kind e with
  | KUart _ _ _ => exists b f, conf_kind c k = Some (CUart b f)
  | KUdp _ _ _ => exists s a p, conf_kind c k = Some (CUdp s a p)
  | _ => forall b f, conf_kind c k <> Some (CUart b f) /\ forall s a p, conf_kind c k <> Some (CUdp s a p)
  end.
Proof.
  intros c h k e H. unfold kind_life, conf_kind, uart_conf, udp_conf, tcp_conf in *. destruct (ep_kind e) as [b cu p|cf pe p|r vl|l].
  - destruct H as [H _]. destruct (nth_error (confs c) k) as [e0|]; [|discriminate]. cbn. destruct (ec_kind e0); inversion H; eauto.
  - destruct H as (s & H & _). destruct (nth_error (confs c) k) as [e0|]; [|discriminate]. cbn. destruct (ec_kind e0); inversion H; eauto.
  - intros b f. destruct H as [[H|[H _]] _].
    + destruct (nth_error (confs c) k) as [e0|]; [|discriminate]. cbn. destruct (ec_kind e0); inversion H. split; discriminate.
    + apply nth_error_None in H. rewrite H. split; discriminate.
  - intros b f. apply nth_error_None in H. rewrite H. split; discriminate.
Qed.

Lemma holds_act : forall f v c h w its w' k e', wf_table (v_tbl v) -> act f v w its w' -> Inv w -> life c h w ->
  (forall k e, lookup w k = Some e -> holds v c h k e) -> lookup w' k = Some e' -> holds v c (h ++ its) k e'.
Proof.
  intros f v c h w its w' k e' WT A I LF HH L'. pose proof (life_act _ _ _ _ _ _ _ WT A I LF) as LF'. pose proof (life_conf _ _ _ _ (lf_kind _ _ _ LF' _ _ L')) as C'.
  destruct (act_shape _ _ _ _ _ WT A I) as [SH _].
  assert (SQ : forall x r, its = x :: r -> Forall quiet r). { intros x r E. apply Forall_forall. intros y Y. eapply SH; eauto. }
  destruct (lookup w k) as [e|] eqn:L.
  2:{ destruct (act_fresh _ _ _ _ _ _ _ WT A I L' L) as (_ & _ & K & _). unfold holds. rewrite K. auto. }
  pose proof (life_conf _ _ _ _ (lf_kind _ _ _ LF _ _ L)) as C. specialize (HH k e L).
  destruct (is_log e) eqn:NL.
  { unfold is_log in NL. unfold holds. destruct (ep_kind e) eqn:K; try discriminate. destruct (ep_kind e') eqn:K'; auto.
    - destruct C' as (b & fl & C'). destruct (C b fl) as [X _]. destruct (X C').
    - destruct C' as (s & a & p & C'). destruct (C [] false) as [_ X]. destruct (X _ _ _ C'). }
  destruct (act_life _ _ _ _ _ _ _ _ WT A I L L' NL) as (e1 & s & e2 & KI & ST & PE & (MI & _)). clear L' LF' LF SH.
  destruct (ep_kind e) as [b cu p|cf pe p|r vl|l] eqn:K.
  - (* UART *)
    assert (X : exists cu' p', ep_kind e1 = KUart b cu' p' /\ (((exists y, In y (h ++ its) /\ known_on (v_tbl v) k y) <-> (exists y, In y h /\ known_on (v_tbl v) k y)) /\ p' = p \/
                 (exists y, In y (h ++ its) /\ known_on (v_tbl v) k y) /\ p' = None)).
    { destruct its as [|x r]. { cbn [kick] in KI. destruct KI as [-> _]. rewrite app_nil_r. exists cu, p. split; auto. left. split; auto. tauto. }
      pose proof (known_quiet (v_tbl v) k x r h (SQ _ _ eq_refl)) as KQ.
      assert (Y : ~ known_on (v_tbl v) k x -> (exists cu', ep_kind e1 = KUart b cu' p) -> exists cu' p', ep_kind e1 = KUart b cu' p' /\ (((exists y, In y (h ++ x :: r) /\ known_on (v_tbl v) k y) <-> (exists y, In y h /\ known_on (v_tbl v) k y)) /\ p' = p \/
                 (exists y, In y (h ++ x :: r) /\ known_on (v_tbl v) k y) /\ p' = None)).
      { intros N (cu' & E1). exists cu', p. split; auto. left. split; auto. rewrite KQ. tauto. }
      assert (M : mild e e1 -> exists cu', ep_kind e1 = KUart b cu' p) by (intros [-> _]; eauto).
      assert (NK : (forall bs m d ds, x <> IRecv k bs m d ds) -> ~ known_on (v_tbl v) k x) by (intros N (bs & m & d & ds & E & _); eapply N; eauto).
      destruct x as [i o|i bs m d ds|i bs m ds|t cb|i|i]; cbn [kick] in KI; try (apply Y; [apply NK; discriminate|apply M; auto]; fail).
      - apply Y; [apply NK; discriminate|]. destruct (Nat.eqb i k); auto. unfold read_kick in KI. rewrite K in KI. auto.
      - destruct (Nat.eqb_spec i k) as [->|NE]; [|apply Y; auto; apply NK; congruence]. unfold recv_kick in KI. rewrite K in KI.
        assert (KO : v_tbl v (m_id m) <> None -> known_on (v_tbl v) k (IRecv k bs m d ds)). { intros N. exists bs, m, d, ds. auto. }
        assert (KN : v_tbl v (m_id m) = None -> ~ known_on (v_tbl v) k (IRecv k bs m d ds)). { intros N (b1 & m1 & d1 & s1 & E & X). inversion E; subst. auto. }
        destruct (v_tbl v (m_id m)) as [en|] eqn:TB.
        + assert (EX : exists y, In y (h ++ IRecv k bs m d ds :: r) /\ known_on (v_tbl v) k y). { apply KQ. right. apply KO. discriminate. }
          destruct p as [t|]. { destruct KI as [K1 _]. exists cu, None. split; auto. }
          destruct KI as [K1 _]. rewrite K in K1. exists cu, None. split; auto.
        + destruct p as [t|]. { destruct KI as [K1 _]. apply Y; eauto. } apply Y; auto.
      - apply Y; [apply NK; discriminate|]. unfold fire_kick in KI. destruct cb as [| |i|i|i|i|i|i]; try (apply M; apply KI; auto; fail).
        + destruct KI as [K1 _]. rewrite K in K1. eauto.
        + destruct (Nat.eqb i k); auto. rewrite K in KI. destruct KI as [K1 _]. eauto.
        + destruct (Nat.eqb i k); auto. rewrite K in KI. destruct KI.
        + destruct (Nat.eqb i k); auto. rewrite K in KI. destruct KI. }
    destruct X as (cu' & p' & K1 & X). destruct (steps_uart _ _ _ ST _ _ _ K1) as [K2 _]. unfold holds in *. rewrite MI, K2. rewrite K in HH.
    destruct HH as (H1 & H2 & H3). destruct X as [[Q ->]|[Q ->]]; [rewrite Q; auto|]. auto.
  - (* UDP *)
    assert (X : exists cf' pe', ep_kind e1 = KUdp cf' pe' p).
    { assert (M : mild e e1 -> exists cf' pe', ep_kind e1 = KUdp cf' pe' p) by (intros [-> _]; eauto).
      destruct its as [|x r]; cbn [kick] in KI; auto.
      destruct x as [i o|i bs m d ds|i bs m ds|t cb|i|i]; auto.
      - destruct (Nat.eqb i k); auto. unfold read_kick in KI. rewrite K in KI. destruct o; auto. destruct KI as [K1 _]. eauto.
      - destruct (Nat.eqb i k); auto. unfold recv_kick in KI. rewrite K in KI. auto.
      - unfold fire_kick in KI. destruct cb as [| |i|i|i|i|i|i]; try (apply M; apply KI; auto; fail).
        + destruct KI as [K1 _]. rewrite K in K1. eauto.
        + destruct (Nat.eqb i k); auto. rewrite K in KI. destruct KI.
        + destruct (Nat.eqb i k); auto. rewrite K in KI. destruct p as [t0|]; [|destruct KI]. destruct KI as [K1 _]. eauto.
        + destruct (Nat.eqb i k); auto. rewrite K in KI. destruct KI. }
    destruct X as (cf' & pe' & K1). destruct (steps_udp _ _ _ ST _ _ _ K1) as [K2 _]. unfold holds in *. rewrite MI, K2. rewrite K in HH. auto.
  - unfold holds. destruct (ep_kind e') eqn:K'; auto.
    + destruct C' as (b & fl & C'). destruct (C b fl) as [X _]. destruct (X C').
    + destruct C' as (s0 & a & p & C'). destruct (C [] false) as [_ X]. destruct (X _ _ _ C').
  - unfold is_log in NL. rewrite K in NL. discriminate.
Qed.

Theorem holds_runs : forall f v c h w, wf_table (v_tbl v) -> runs f v c h w -> forall k e, lookup w k = Some e -> holds v c h k e.
Proof.
  intros f v c h w WT R. apply (proj2 (A := life c h w)). apply (runs_ind f v c (fun h w => life c h w /\ forall k e, lookup w k = Some e -> holds v c h k e)); auto.
  - intros d pos w0 S. split; [eapply life_start; eauto|]. intros k e L. eapply holds_start; eauto.
  - intros h0 u it u' I [LF P] A. split; [eapply life_act; eauto|]. intros k e L. eapply holds_act; eauto.
Qed.

(* ---- what fires ------------------------------------------------------------------------------------------------- *)

(* a callback is only run for a live timer of the state before *)
Lemma act_fired : forall f v w its w' t cb, wf_table (v_tbl v) -> act f v w its w' -> Inv w -> In (IFire t cb) its ->
  exists tm, alive (w_sys w) tm /\ tm_id tm = t /\ tm_cb tm = cb.
Proof.
  intros f v w its w' t cb WT A I X. destruct (act_fires _ _ _ _ _ _ _ WT A I X) as (tm & F & C & D & _). unfold find_timer in F. apply find_some in F. destruct F as [F E].
  apply Nat.eqb_eq in E. exists tm. split; [split; auto|]. auto.
Qed.
