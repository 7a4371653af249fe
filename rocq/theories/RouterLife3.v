(* One endpoint through a whole run: the invariant. *)
From Coq Require Import Permutation.
From Verif Require Import Base Mav SpecCrc SpecFrame Frame FrameProofs FrameRefine FrameLink Dedup SpecAccept Accept AcceptProofs Names Sys LogFile LogFileProofs ULog Loggers LogInv LogStep RouterCtl Router
  RouterRoute RouterRoute2 RouterSetup RouterActs RouterInv RouterLearn RouterStep RouterStart RouterHist SpecRouter SpecLife RouterTrace RouterLife RouterLife2.

Definition quiet (y : item) : Prop := (exists i bs m ds, y = ICtl i bs m ds) \/ (exists i, y = IGone i).

Lemma act_shape : forall f v w its w', wf_table (v_tbl v) -> act f v w its w' -> Inv w ->
  (forall x r y, its = x :: r -> In y r -> quiet y) /\ (forall i bs m d ds, In (IRecv i bs m d ds) its -> d = Routed \/ ds = []).
Proof.
  intros f v w its w' WT A I.
  assert (ONE : forall x, (forall i bs m d ds, x <> IRecv i bs m d ds) -> (forall x0 r y, [x] = x0 :: r -> In y r -> quiet y) /\ (forall i bs m d ds, In (IRecv i bs m d ds) [x] -> d = Routed \/ ds = [])).
  { intros x N. split. - intros x0 r y X Y. inversion X; subst. destruct Y. - intros i bs m d ds [X|[]]. exfalso. eapply N; eauto. }
  assert (NIL : (forall x0 r y, @nil item = x0 :: r -> In y r -> quiet y) /\ (forall i bs m d ds, In (IRecv i bs m d ds) [] -> d = Routed \/ ds = [])).
  { split. - discriminate. - intros i bs m d ds []. }
  inversion A; subst; auto.
  - apply ONE. discriminate.
  - destruct (recv_before f v w i e rr x st known m w1 WT I H H0 H1 H2 H3 _ _ H4) as (K & DD & e1 & p & L1 & F1 & KE & RX & RL & P1 & P2 & P3 & P4 & P5).
    subst m. assert (I1 : Inv w1) by (eapply kept_inv; eauto). rewrite <- RX in P5.
    destruct (handle_cases f v w1 i e1 p w' its H4 I1 L1 F1 P1 P5) as (d & ds & its' & EQ & NR & C).
    assert (NL : its' = [] \/ d = Routed).
    { destruct (handle_inv _ _ _ _ _ _ _ H4) as (e0 & pkt & w2 & fresh & _ & _ & _ & CC). rewrite EQ in CC.
      destruct CC as [(_ & _ & X)|[(_ & _ & _ & X)|(_ & _ & ? & ? & ? & ? & ? & ? & ? & _ & _ & _ & _ & _ & X)]]; inversion X; subst; auto. }
    split.
    + intros x0 r y X Y. rewrite EQ in X. inversion X; subst x0 r; clear X.
      destruct C as [(-> & DS & KK)|[(-> & DS & AL & KK)|(-> & AL & wa & w2 & w3 & e2 & mem & EE & K1 & LE & L2 & Ia & I2 & RT & O)]].
      * destruct NL as [->|]; [destruct Y|discriminate].
      * destruct NL as [->|]; [destruct Y|discriminate].
      * pose proof (route_items 0 _ _ _ _ _ _ _ _ _ (inv_logs _ I2) RT) as R. rewrite Forall_forall in R. destruct (R y Y) as (j & cc & _ & _ & OK & dd & -> & Q). left. eauto.
    + intros i0 bs m0 d0 ds0 X. rewrite EQ in X. destruct X as [X|X].
      * inversion X; subst. destruct C as [(-> & DS & KK)|[(-> & DS & AL & KK)|(-> & _)]]; auto.
      * apply NR in X. discriminate.
  - unfold tcp_connection. destruct (ask v (w_sys w)) as [r y]. destruct (r <? 0); [apply NIL|]. destruct (ask_bytes RXMAX v y), (add_fd v _ _). apply ONE. discriminate.
  - unfold timer_read in H. destruct (find_timer (w_sys w) t) as [tm|]; [|discriminate]. destruct (negb fired || tm_dead tm) eqn:DD. { inversion H; subst. auto. }
    inv_bind H. inv_bind H. inversion H; subst. clear H.
    match goal with E : run_cb _ _ _ _ = Ok (?wa, ?la, _) |- _ => rename wa into w3, la into its; pose proof (run_cb_ctls _ _ _ _ _ _ _ (inv_logs _ I) E) as CT end.
    split.
    + intros x r y X Y. inversion X; subst. destruct (CT y Y) as (j & mm & dd & (bs & -> & _) & _). left. eauto.
    + intros i bs m d ds [X|X]; [discriminate|]. destruct (CT _ X) as (j & mm & dd & (bs' & Z & _) & _). discriminate.
  - unfold process_hangups in H. destruct (w_hang w); [|inversion H; subst; auto].
    inv_bind H. inversion H; subst; clear H. destruct (hangups_spec _ _ _ _ _ E (inv_sym _ I)) as (_ & _ & _ & D & _). subst its. split.
    + intros x r y X Y. assert (Q : In y (x :: r)) by (right; auto). rewrite <- X in Q. apply in_map_iff in Q. destruct Q as (? & <- & _). right. eauto.
    + intros i bs m d ds X. apply in_map_iff in X. destruct X as (? & ? & _). discriminate.
Qed.

(* deliveries go to endpoints that exist before and after *)
Lemma act_made : forall f v w its w', wf_table (v_tbl v) -> act f v w its w' -> Inv w ->
  forall d, In d (flat_map made its) -> exists e e', lookup w (dl_to d) = Some e /\ lookup w' (dl_to d) = Some e'.
Proof.
  intros f v w its w' WT A I d D. destruct (act_shape _ _ _ _ _ WT A I) as [S1 S2]. destruct (act_routes _ _ _ _ _ WT A I) as (_ & _ & w2 & AL & I2 & R).
  apply in_flat_map in D. destruct D as (x & X & M).
  assert (Y : exists m, message x m (made x)).
  { destruct x; cbn [made] in *; try (destruct M; fail).
    - destruct (S2 _ _ _ _ _ X) as [->|E0]; [|subst; destruct M]. exists m. left. eauto.
    - exists m. right. eauto. }
  destruct Y as (m & Y). destruct (R x m _ X Y) as (_ & _ & RI). unfold routed_in in RI.
  assert (O : In (dl_to d) (w_order w2)). { assert (Z : In (dl_to d) (map dl_to (made x))) by (apply in_map; auto). rewrite RI in Z. apply filter_In in Z. apply Z. }
  pose proof (i_alive _ I2 _ O) as LA. destruct AL as (_ & _ & _ & AL). specialize (AL (dl_to d)).
  destruct (lookup w2 (dl_to d)); [|congruence]. destruct (lookup w' (dl_to d)) as [e'|] eqn:L'; [|destruct AL].
  destruct (lookup w (dl_to d)) as [e0|] eqn:L. { eauto. }
  destruct (act_fresh _ _ _ _ _ _ _ WT A I L' L) as (-> & _). destruct X as [<-|[]]. destruct M.
Qed.

Lemma peer_app : forall cf a b k, peer_after cf (a ++ b) k = fold_left (peer_step cf k) b (peer_after cf a k).
Proof. intros. apply fold_left_app. Qed.
Lemma peer_quiet : forall cf k l p, Forall quiet l -> fold_left (peer_step cf k) l p = p.
Proof. intros cf k l. induction l as [|x l IH]; intros p F; auto. inversion F; subst. cbn [fold_left]. rewrite IH by auto. destruct H1 as [(? & ? & ? & ? & ->)|(? & ->)]; auto. Qed.
Lemma ticks_app : forall a b k, ticks (a ++ b) k = (ticks a k + ticks b k)%nat.
Proof. intros. unfold ticks. rewrite filter_app, app_length. auto. Qed.
Lemma ticks_quiet : forall k l, Forall quiet l -> ticks l k = 0%nat.
Proof. intros k l F. induction F; auto. unfold ticks in *. cbn [filter]. destruct H as [(? & ? & ? & ? & ->)|(? & ->)]; auto. Qed.
Lemma since_app : forall a b, since_report (a ++ b) = fold_left report_step b (since_report a).
Proof. intros. apply fold_left_app. Qed.
Lemma since_plain : forall b l, (forall t, ~ In (IFire t CbAggregate) b) -> fold_left report_step b l = l ++ b.
Proof.
  induction b as [|x b IH]; intros l N. { cbn. rewrite app_nil_r. auto. } cbn [fold_left]. rewrite IH. 2:{ intros t X. apply (N t). right; auto. }
  assert (report_step l x = l ++ [x]). { unfold report_step. destruct x; auto. destruct cb; auto. destruct (N t). left; auto. } rewrite H, <- app_assoc. auto.
Qed.
Lemma sends_app : forall a b k, sends (a ++ b) k = sends a k ++ sends b k.
Proof. intros. unfold sends. rewrite made_app, tok_app. auto. Qed.

(* the endpoint's kind agrees with the configuration and the history *)
Definition kind_life (c : config) (h : list item) (k : nat) (e : ep) : Prop :=
  match ep_kind e with
  | KUart b cu t => uart_conf c k = Some b /\ ep_fd e = true /\ b <> [] /\ cu = Nat.modulo (ticks h k) (length b)
  | KUdp cf pe t => exists s, udp_conf c k = Some (s, cf) /\ ep_fd e = true /\ pe = peer_after cf h k /\ (s = true -> t = None)
  | KTcp r vl => (tcp_conf c k = Some r \/ (length (confs c) <= k)%nat /\ r = 0) /\ (0 < r -> vl = true)
  | KLog _ => (length (confs c) <= k)%nat
  end.
Definition stat_life (h : list item) (k : nat) (order : list nat) (e : ep) : Prop :=
  let u := is_uart e in
  ep_wtotal e = u32 (Z.of_nat (length (filter (counted u) (sends h k)))) /\
  ep_wbytes e = u64 (total (filter (counted u) (sends h k))) /\
  (In k order -> ep_incomplete e = u32 (Z.of_nat (length (filter (cut u) (sends (since_report h) k))))).

Definition told (c : config) (h : list item) : Prop :=
  forall pre x post d s cf, h = pre ++ x :: post -> In d (made x) -> udp_conf c (dl_to d) = Some (s, cf) ->
  let p := peer_after cf pre (dl_to d) in if snd p =? 0 then dl_call d = DNone else exists r, dl_call d = DSent (Some p) r.

Record life (c : config) (h : list item) (w : world) : Prop := mkLife {
  lf_kind : forall k e, lookup w k = Some e -> kind_life c h k e;
  lf_stat : forall k e, lookup w k = Some e -> is_log e = false -> stat_life h k (w_order w) e;
  lf_to : Forall (fun d => (dl_to d < length (w_eps w))%nat) (flat_map made h);
  lf_len : (length (confs c) <= length (w_eps w))%nat;
  lf_told : told c h }.

Lemma total_app : forall a b, total (a ++ b) = total a + total b.
Proof. induction a; intros; unfold total in *; cbn [app fold_right] in *; [lia|]. rewrite IHa. lia. Qed.
Lemma total_perm : forall a b, Permutation a b -> total a = total b.
Proof. intros a b P. induction P; unfold total in *; cbn [fold_right] in *; lia. Qed.
Lemma filter_perm : forall A (f : A -> bool) a b, Permutation a b -> Permutation (filter f a) (filter f b).
Proof.
  intros A f a b P. induction P; cbn; auto.
  - destruct (f x); auto.
  - destruct (f x), (f y); auto. constructor.
  - eapply Permutation_trans; eauto.
Qed.

Lemma life_start : forall v y c w, start v y c = Some w -> life c [] w.
Proof.
  intros v y c w S.
  assert (Z : forall k e, lookup w k = Some e -> is_log e = false -> zero_stats e).
  { intros k e L N. destruct (start_born _ _ _ _ _ _ S L) as [(cc & _ & B & _)|(_ & X)]; auto. congruence. }
  split.
  - intros k e L. unfold kind_life. destruct (start_born _ _ _ _ _ _ S L) as [(cc & NC & _ & B)|(IL & X)].
    + unfold uart_conf, udp_conf, tcp_conf. rewrite NC. destruct (ec_kind cc).
      * destruct B as (t & -> & F & NB & _). split; auto. split; auto. split; auto. change (ticks [] k) with 0%nat. rewrite Nat.mod_0_l; auto. destruct bauds; [congruence|discriminate].
      * destruct B as (t & -> & F & NB & _). exists server. split; auto.
      * rewrite B. auto.
    + unfold is_log in X. destruct (ep_kind e); try discriminate. unfold is_logger in IL. lia.
  - intros k e L N. destruct (Z _ _ L N) as (A & B & C). unfold stat_life. rewrite A, B, C. auto.
  - constructor.
  - pose proof (sy_len _ _ _ (synced_start _ _ _ _ S)). lia.
  - intros pre x post d s cf X. destruct pre; discriminate.
Qed.

(* ---- one act -------------------------------------------------------------------------------------------------- *)

Lemma peer_cons : forall cf h x r k, Forall quiet r -> peer_after cf (h ++ x :: r) k = peer_step cf k (peer_after cf h k) x.
Proof. intros. rewrite peer_app. cbn [fold_left]. apply peer_quiet; auto. Qed.
Lemma ticks_cons : forall h x r k, Forall quiet r -> ticks (h ++ x :: r) k = (ticks h k + if is_tick k x then 1 else 0)%nat.
Proof.
  intros. rewrite ticks_app. f_equal. assert (Q : ticks r k = 0%nat) by (apply ticks_quiet; auto). unfold ticks in *. cbn [filter]. destruct (is_tick k x); cbn [length]; auto.
Qed.
Definition still (e : ep) (k : nat) (x : item) : Prop :=
  match ep_kind e with
  | KUart _ _ _ => is_tick k x = false
  | KUdp _ _ _ => forall cf p, peer_step cf k p x = p
  | _ => True
  end.
Lemma life_mild : forall c h k e e' x r, kind_life c h k e -> mild e e' -> Forall quiet r -> still e k x -> kind_life c (h ++ x :: r) k e'.
Proof.
  intros c h k e e' x r KL (M1 & M2 & _) Q S. unfold kind_life, still in *. rewrite M1, M2. destruct (ep_kind e); auto.
  - rewrite ticks_cons, S, Nat.add_0_r by auto. auto.
  - destruct KL as (s & A & B & C & D). exists s. rewrite peer_cons, S by auto. auto.
Qed.
Lemma life_mild_nil : forall c h k e e', kind_life c h k e -> mild e e' -> kind_life c (h ++ []) k e'.
Proof. intros c h k e e' KL (M1 & M2 & _). unfold kind_life in *. rewrite M1, M2, app_nil_r. auto. Qed.
Lemma life_tcp : forall c h h' k e e' r vl vl', kind_life c h k e -> ep_kind e = KTcp r vl -> ep_kind e' = KTcp r vl' -> (0 < r -> vl' = true) -> kind_life c h' k e'.
Proof. intros c h h' k e e' r vl vl' KL K K' V. unfold kind_life in *. rewrite K in KL. rewrite K'. split; auto. apply KL. Qed.
Lemma life_lost : forall c h h' k e e', kind_life c h k e -> lost e e' -> kind_life c h' k e'.
Proof.
  intros c h h' k e e' KL (r & vl & K & _ & X). destruct (Z.ltb_spec 0 r); destruct X as [X _]; eapply life_tcp; eauto; lia.
Qed.

Lemma kick_life : forall v w c h k its e e1, kind_life c h k e -> is_log e = false -> kick v w k its e e1 -> (forall x r, its = x :: r -> Forall quiet r) ->
  kind_life c (h ++ its) k e1.
Proof.
  intros v w c h k its e e1 KL NL KI SH. destruct its as [|x r]. { cbn [kick] in KI. eapply life_mild_nil; eauto. }
  specialize (SH x r eq_refl).
  assert (ST : still e k x -> mild e e1 -> kind_life c (h ++ x :: r) k e1) by (intros; eapply life_mild; eauto).
  unfold still in ST. destruct x as [i o|i bs m d ds|i bs m ds|t cb|i|i]; cbn [kick] in KI; try (apply ST; auto; destruct (ep_kind e); auto; fail).
  - destruct (Nat.eqb i k) eqn:IK.
    2:{ apply ST; auto. destruct (ep_kind e); auto. intros. cbn [peer_step]. rewrite IK. destruct o; auto. }
    unfold read_kick in KI. destruct (ep_kind e) as [b cu t|cf pe t|rr vl|l] eqn:K.
    + apply ST; auto.
    + destruct o as [bs from| |]; [|apply ST; auto; intros; auto..]. destruct KI as (K1 & F1 & _). unfold kind_life in *. rewrite K in KL. rewrite K1, F1.
      destruct KL as (s & A & B & C & D). exists s. rewrite peer_cons by auto. cbn [peer_step]. rewrite IK. auto.
    + destruct o as [[|b0 bs] from| |]; try (apply ST; auto; fail). destruct KI as [KI|KI]; [|apply ST; auto]. eapply life_lost; eauto.
    + unfold is_log in NL. rewrite K in NL. discriminate.
  - destruct (Nat.eqb i k) eqn:IK. 2:{ apply ST; auto. destruct (ep_kind e); auto. }
    unfold recv_kick in KI. destruct (ep_kind e) as [b cu [t|]|cf pe t|rr vl|l] eqn:K; try (apply ST; auto; fail).
    destruct KI as (K1 & F1 & _). unfold kind_life in *. rewrite K in KL. rewrite K1, F1, ticks_cons by auto. cbn [is_tick]. rewrite Nat.add_0_r. auto.
  - unfold fire_kick in KI. destruct cb as [ | |i|i|i|i|i|i]; try (apply ST; [destruct (ep_kind e); auto|auto]; fail).
    + destruct KI as (K1 & F1 & _). unfold kind_life in *. rewrite K1, F1. destruct (ep_kind e); auto.
      * rewrite ticks_cons by auto. cbn [is_tick]. rewrite Nat.add_0_r. auto.
      * destruct KL as (s & A & B & C & D). exists s. rewrite peer_cons by auto. auto.
    + destruct (Nat.eqb i k) eqn:IK. 2:{ apply ST; auto. destruct (ep_kind e); auto. }
      destruct (ep_kind e) as [b cu t0|cf pe t0|rr vl|l] eqn:K; try (destruct KI; fail). destruct KI as (K1 & F1 & _). unfold kind_life in *. rewrite K in KL. rewrite K1, F1, ticks_cons by auto.
      cbn [is_tick]. rewrite IK. destruct KL as (A & B & C & D). split; auto. split; auto. split; auto. rewrite D. rewrite Nat.add_mod_idemp_l; auto. destruct b; [congruence|discriminate].
    + destruct (Nat.eqb i k) eqn:IK. 2:{ apply ST; auto. destruct (ep_kind e); auto. intros. cbn [peer_step]. rewrite IK. auto. }
      destruct (ep_kind e) as [b cu t0|cf pe [t0|]|rr vl|l] eqn:K; try (destruct KI; fail). destruct KI as (K1 & F1 & _). unfold kind_life in *. rewrite K in KL. rewrite K1, F1.
      destruct KL as (s & A & B & C & D). exists s. rewrite peer_cons by auto. cbn [peer_step]. rewrite IK. auto.
    + destruct (Nat.eqb i k) eqn:IK. 2:{ apply ST; auto. destruct (ep_kind e); auto. }
      destruct (ep_kind e) as [b cu t0|cf pe t0|rr vl|l] eqn:K; try (destruct KI; fail). destruct KI as (_ & [[K1 _]|[K1 _]]); eapply life_tcp; eauto.
      intros Q. unfold kind_life in KL. rewrite K in KL. apply KL; auto.
Qed.

Definition reports (its : list item) : bool := match its with IFire _ CbAggregate :: _ => true | _ => false end.
Lemma kick_stats : forall v w k its e e1, kick v w k its e e1 -> is_log e = false ->
  ep_wtotal e1 = ep_wtotal e /\ ep_wbytes e1 = ep_wbytes e /\ is_uart e1 = is_uart e /\ is_log e1 = false /\ ep_incomplete e1 = (if reports its then if memb (w_order w) k then 0 else ep_incomplete e else ep_incomplete e).
Proof.
  intros v w k its e e1 KI NL.
  assert (M : mild e e1 -> reports its = false -> ep_wtotal e1 = ep_wtotal e /\ ep_wbytes e1 = ep_wbytes e /\ is_uart e1 = is_uart e /\ is_log e1 = false /\ ep_incomplete e1 = (if reports its then if memb (w_order w) k then 0 else ep_incomplete e else ep_incomplete e)).
  { intros (M1 & M2 & M3 & M4 & M5) R. rewrite R. unfold is_uart, is_log in *. rewrite M1. repeat split; auto. }
  assert (S : forall kd, ep_kind e1 = kd -> match ep_kind e, kd with KUart _ _ _, KUart _ _ _ => True | KUdp _ _ _, KUdp _ _ _ => True | KTcp _ _, KTcp _ _ => True | _, _ => False end ->
    same_stats e e1 -> reports its = false -> ep_wtotal e1 = ep_wtotal e /\ ep_wbytes e1 = ep_wbytes e /\ is_uart e1 = is_uart e /\ is_log e1 = false /\ ep_incomplete e1 = (if reports its then if memb (w_order w) k then 0 else ep_incomplete e else ep_incomplete e)).
  { intros kd K X (S1 & S2 & S3) R. rewrite R, S1, S2, S3. unfold is_uart, is_log in *. rewrite K. destruct (ep_kind e), kd; try (destruct X; fail); auto. }
  destruct its as [|x r]; cbn [kick] in KI. { apply M; auto. }
  destruct x as [i o|i bs m d ds|i bs m ds|t cb|i|i]; try (apply M; auto; fail).
  - destruct (Nat.eqb i k); [|apply M; auto]. unfold read_kick in KI. destruct (ep_kind e) eqn:K; try (apply M; auto; fail).
    + destruct o; try (apply M; auto; fail). destruct KI as (K1 & _ & ST). eapply S; eauto. cbn. auto.
    + destruct o as [[|? ?] ?| |]; try (apply M; auto; fail). destruct KI as [(r1 & vl & K1 & ST & X)|KI]; [|apply M; auto].
      destruct (0 <? r1); destruct X as [X _]; eapply S; eauto; cbn; auto.
  - destruct (Nat.eqb i k); [|apply M; auto]. unfold recv_kick in KI. destruct (ep_kind e) as [b cu [t|]| | |] eqn:K; try (apply M; auto; fail).
    destruct KI as (K1 & _ & ST). eapply S; eauto. cbn. auto.
  - unfold fire_kick in KI. destruct cb as [ | |i|i|i|i|i|i]; try (apply M; auto; fail).
    + destruct KI as (K1 & F1 & A & B & C). unfold is_uart, is_log in *. rewrite K1. repeat split; auto.
    + destruct (Nat.eqb i k); [|apply M; auto]. destruct (ep_kind e) as [b cu t0|cf pe t0|rr vl|l] eqn:K; try (destruct KI; fail). destruct KI as (K1 & _ & ST). eapply S; eauto. cbn. auto.
    + destruct (Nat.eqb i k); [|apply M; auto]. destruct (ep_kind e) as [b cu t0|cf pe [t0|]|rr vl|l] eqn:K; try (destruct KI; fail). destruct KI as (K1 & _ & ST). eapply S; eauto. cbn. auto.
    + destruct (Nat.eqb i k); [|apply M; auto]. destruct (ep_kind e) as [b cu t0|cf pe t0|rr vl|l] eqn:K; try (destruct KI; fail). destruct KI as (ST & [[K1 _]|[K1 _]]); eapply S; eauto; cbn; auto.
Qed.

Lemma steps_life : forall c h k e l e', steps e l e' -> kind_life c h k e -> is_log e = false -> kind_life c h k e'.
Proof.
  intros c h k e l e' S KL NL. unfold kind_life in *. destruct (ep_kind e) as [b cu t|cf pe t|r vl|l0] eqn:K.
  - destruct (steps_uart _ _ _ S _ _ _ K) as [-> ->]. auto.
  - destruct (steps_udp _ _ _ S _ _ _ K) as (-> & -> & _). auto.
  - destruct KL as [A B]. destruct (steps_tcp _ _ _ S _ _ K B) as (vl' & -> & V & _). auto.
  - unfold is_log in NL. rewrite K in NL. discriminate.
Qed.
Lemma mild_life : forall c h k e e', mild e e' -> kind_life c h k e -> kind_life c h k e'.
Proof. intros c h k e e' (M1 & M2 & _) KL. unfold kind_life in *. rewrite M1, M2. auto. Qed.

Lemma reports_since : forall h its, (forall x r, its = x :: r -> Forall quiet r) -> forall k,
  sends (since_report (h ++ its)) k = if reports its then sends its k else sends (since_report h) k ++ sends its k.
Proof.
  intros h its SH k. destruct its as [|x r]. { rewrite app_nil_r. cbn. change (sends [] k) with (@nil delivery). rewrite app_nil_r. auto. }
  specialize (SH x r eq_refl). rewrite since_app. cbn [fold_left].
  rewrite since_plain. 2:{ intros t X. rewrite Forall_forall in SH. destruct (SH _ X) as [(? & ? & ? & ? & ?)|(? & ?)]; discriminate. }
  destruct (reports (x :: r)) eqn:R.
  - unfold reports in R. destruct x as [| | |t cb| |]; try discriminate. destruct cb; try discriminate. cbn [report_step app]. auto.
  - assert (E : report_step (since_report h) x = since_report h ++ [x]). { unfold report_step. unfold reports in R. destruct x as [| | |t cb| |]; auto. destruct cb; auto; discriminate. }
    rewrite E, <- app_assoc, sends_app. auto.
Qed.

Lemma since_incl : forall h x, In x (since_report h) -> In x h.
Proof.
  intros h x X. assert (G : forall h acc, In x (fold_left report_step h acc) -> In x h \/ In x acc).
  { clear. induction h as [|y h IH]; intros acc X; auto. cbn [fold_left] in X. apply IH in X. destruct X as [X|X]; [left; right; auto|].
    unfold report_step in X. assert (In x (acc ++ [y]) -> In x (y :: h) \/ In x acc). { intros Y. apply in_app_or in Y. destruct Y as [Y|[<-|[]]]; auto. left. left. auto. }
    destruct y; auto. destruct cb; auto. destruct X. }
  apply G in X. destruct X as [|[]]; auto.
Qed.
Lemma life_act : forall f v c h w its w', wf_table (v_tbl v) -> act f v w its w' -> Inv w -> life c h w -> life c (h ++ its) w'.
Proof.
  intros f v c h w its w' WT A I LF. destruct (act_shape _ _ _ _ _ WT A I) as [SH _].
  assert (SQ : forall x r, its = x :: r -> Forall quiet r). { intros x r E. apply Forall_forall. intros y Y. eapply SH; eauto. }
  pose proof (act_made _ _ _ _ _ WT A I) as MD. destruct (act_routes _ _ _ _ _ WT A I) as ((O1 & O2 & O3 & O4 & O5 & O6) & _).
  destruct (act_endpoints _ _ _ _ _ WT A I) as (LL & _ & EP).
  assert (FRESH : forall k, (length (w_eps w) <= k)%nat -> sends h k = [] /\ sends (since_report h) k = []).
  { intros k Q. assert (Z : forall l, Forall (fun d => (dl_to d < length (w_eps w))%nat) l -> tok k l = []).
    { induction 1; auto. unfold tok in *. cbn [filter]. destruct (Nat.eqb_spec (dl_to x) k); auto. lia. }
    split. { apply Z, LF. } apply Z. pose proof (lf_to _ _ _ LF) as X. rewrite Forall_forall in X. apply Forall_forall. intros d D. apply X. apply in_flat_map in D. destruct D as (x & D1 & D2). apply in_flat_map. exists x. split; auto.
    apply since_incl; auto. }
  assert (LFK : forall k e', lookup w' k = Some e' -> kind_life c (h ++ its) k e' /\ (is_log e' = false -> stat_life (h ++ its) k (w_order w') e') /\ (forall a x b d s cf, its = a ++ x :: b -> In d (made x) -> dl_to d = k -> udp_conf c k = Some (s, cf) ->
        let p := peer_after cf (h ++ a) k in if snd p =? 0 then dl_call d = DNone else exists r, dl_call d = DSent (Some p) r)).
  { intros k e' L'. destruct (lookup w k) as [e|] eqn:L.
    2:{ destruct (act_fresh _ _ _ _ _ _ _ WT A I L' L) as (EI & EK & K & F & Z1 & Z2 & Z3). pose proof (lf_len _ _ _ LF). split; [|split].
      - unfold kind_life. rewrite K. split; [right; lia|auto].
      - intros _. unfold stat_life. rewrite Z1, Z2, Z3. destruct (FRESH k) as [Q1 Q2]; [lia|]. rewrite sends_app, Q1, (reports_since h its SQ), Q2, EI. cbn. auto.
      - intros a x b d s cf X D. rewrite EI in X. destruct a as [|? [|? ?]]; inversion X; subst. destruct D. }
    destruct (EP k e' L') as [(e0 & L0 & _ & _ & _ & LG & _)|(Q & _)]. 2:{ apply lookup_len in L. lia. }
    rewrite L in L0. inversion L0; subst e0; clear L0. pose proof (lf_kind _ _ _ LF k e L) as KL.
    destruct (is_log e) eqn:NL.
    { assert (QK : (length (confs c) <= k)%nat). { unfold is_log in NL. unfold kind_life in KL. destruct (ep_kind e); try discriminate. auto. }
      split; [|split].
      - unfold is_log in LG. unfold kind_life. destruct (ep_kind e'); try discriminate. auto.
      - congruence.
      - intros a x b d s cf _ _ _ UC. exfalso. unfold udp_conf in UC. assert (nth_error (confs c) k = None) by (apply nth_error_None; auto). rewrite H in UC. discriminate. }
    destruct (act_life _ _ _ _ _ _ _ _ WT A I L L' NL) as (e1 & s & e2 & KI & ST & PE & MI).
    pose proof (kick_life _ _ _ h _ _ _ _ KL NL KI SQ) as KL1. destruct (kick_stats _ _ _ _ _ _ KI NL) as (T1 & T2 & U1 & N1 & T3).
    pose proof (steps_life _ _ _ _ _ _ ST KL1 N1) as KL2. destruct (steps_stats _ _ _ ST N1) as (U2 & N2 & C1 & C2 & C3). split; [|split].
    - eapply mild_life; eauto.
    - intros _. destruct MI as (M1 & M2 & M3 & M4 & M5). destruct (lf_stat _ _ _ LF k e L NL) as (S1 & S2 & S3).
      assert (U : is_uart e' = is_uart e). { transitivity (is_uart e2); [unfold is_uart; rewrite M1; auto|]. congruence. }
      unfold stat_life. rewrite U, M3, M4, M5, sends_app, filter_app, app_length, total_app. rewrite U1 in *. split; [|split].
      + rewrite (C1 (Z.of_nat (length (filter (counted (is_uart e)) (sends h k))))) by congruence. f_equal. rewrite (Permutation_length (filter_perm _ (counted (is_uart e)) _ _ PE)). lia.
      + rewrite (C2 (total (filter (counted (is_uart e)) (sends h k)))) by congruence. f_equal. rewrite (total_perm _ _ (filter_perm _ (counted (is_uart e)) _ _ PE)). auto.
      + intros OK. assert (OW : In k (w_order w)). { rewrite O1 in OK. apply filter_In in OK. destruct OK as [OK _]. apply in_app_or in OK. destruct OK as [OK|OK]; auto. apply O4 in OK. apply lookup_len in L. lia. }
        rewrite (reports_since h its SQ). assert (ME : memb (w_order w) k = true) by (apply memb_In; auto). rewrite ME in T3. destruct (reports its).
        * rewrite (C3 0) by (rewrite T3; auto). f_equal. rewrite (Permutation_length (filter_perm _ (cut (is_uart e)) _ _ PE)). lia.
        * rewrite (C3 (Z.of_nat (length (filter (cut (is_uart e)) (sends (since_report h) k))))) by (rewrite T3; auto). f_equal. rewrite filter_app, app_length, (Permutation_length (filter_perm _ (cut (is_uart e)) _ _ PE)). lia.
    - intros a x b d sv cf EI D DK UC. set (p := peer_after cf (h ++ a) k).
      assert (PP : p = peer_after cf (h ++ its) k).
      { unfold p. destruct a as [|x0 a].
        - cbn [app] in EI. rewrite app_nil_r. rewrite EI. rewrite peer_cons by (eapply SQ; eauto). destruct x; try (destruct D; fail); auto.
        - rewrite EI. cbn [app] in EI. pose proof (SQ _ _ EI) as Q. cbn [app]. rewrite !peer_cons; auto. apply Forall_app in Q. apply Q. }
      unfold kind_life in KL1. destruct (ep_kind e1) as [b0 cu t|cf1 pe t|r vl|l0] eqn:K1.
      + exfalso. unfold uart_conf, udp_conf in *. destruct (nth_error (confs c) k); [|discriminate]. destruct (ec_kind e0); destruct KL1; discriminate.
      + destruct KL1 as (s1 & B1 & B2 & B3 & _). rewrite UC in B1. inversion B1; subst s1 cf1. destruct (steps_udp _ _ _ ST _ _ _ K1) as (_ & _ & DD). specialize (DD B2).
        rewrite Forall_forall in DD. rewrite B3, <- PP in DD. apply DD. eapply Permutation_in; [apply Permutation_sym; exact PE|]. unfold sends, tok. apply filter_In. split; [|apply Nat.eqb_eq; auto].
        apply in_flat_map. exists x. split; auto. rewrite EI. apply in_or_app. right. left. auto.
      + exfalso. destruct KL1 as [[B|[B _]] _].
        * unfold tcp_conf, udp_conf in *. destruct (nth_error (confs c) k); [|discriminate]. destruct (ec_kind e0); discriminate.
        * unfold udp_conf in UC. assert (X : nth_error (confs c) k = None) by (apply nth_error_None; auto). rewrite X in UC. discriminate.
      + unfold is_log in N1. rewrite K1 in N1. discriminate. }
  split.
  - intros k e L. apply LFK; auto.
  - intros k e L N. apply LFK; auto.
  - rewrite made_app. apply Forall_app. split.
    + eapply Forall_impl; [|apply LF]. cbn. intros; lia.
    + apply Forall_forall. intros d D. destruct (MD d D) as (e & e' & _ & L). apply lookup_len in L. auto.
  - pose proof (lf_len _ _ _ LF). lia.
  - intros pre x post d s cf EQ D UC. destruct (split_app _ _ _ _ _ _ EQ) as [(q & X1)|(q & X1 & X2)].
    + eapply (lf_told _ _ _ LF); eauto.
    + assert (X : In d (flat_map made its)). { apply in_flat_map. exists x. split; auto. rewrite X2. apply in_or_app. right. left. auto. }
      destruct (MD d X) as (e & e' & _ & L'). destruct (LFK _ _ L') as (_ & _ & Q). subst pre. eapply Q; eauto.
Qed.

Theorem life_runs : forall f v c its w, wf_table (v_tbl v) -> runs f v c its w -> life c its w.
Proof.
  intros f v c its w WT R. apply (runs_ind f v c (life c)); auto.
  - intros d pos w0 S. eapply life_start; eauto.
  - intros h u it u' I L A. eapply life_act; eauto.
Qed.
