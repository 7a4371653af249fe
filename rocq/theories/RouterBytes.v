(* The bytes handed to the endpoints. *)
From Coq Require Import Sorting.Sorted.
From Verif Require Import Base Mav SpecFrame Frame FrameProofs FrameRefine FrameLink Dedup SpecAccept Accept AcceptProofs Names Sys LogFile LogFileProofs ULog Loggers LogInv LogStep RouterCtl Router RouterRoute RouterRoute2 RouterSetup RouterActs RouterInv RouterLearn RouterStep RouterStart RouterHist SpecRouter RouterTrace.

(* a flight stack logger that may write ULog files *)
Definition ulog_configured (c : config) : Prop := exists lc, cf_log c = Some lc /\ lc_dialect lc <> DArdupilot.

Definition never_ulog (k : kind) : Prop :=
  match k with
  | KLog (LFile _ b) => is_ulog b = false
  | KLog (LAuto _) => False
  | _ => True
  end.
Lemma never_class : forall k k', class k k' -> never_ulog k -> never_ulog k'.
Proof. intros k k' C N. destruct k as [| | |[]], k' as [| | |[]]; cbn in *; auto; try tauto. congruence. Qed.
Lemma never_not : forall e, never_ulog (ep_kind e) -> ep_ulog e = false.
Proof. intros e N. unfold ep_ulog. destruct (ep_kind e) as [| | |[]]; auto; destruct N. Qed.

Lemma act_kinds : forall f v w its w', wf_table (v_tbl v) -> act f v w its w' -> Inv w ->
  forall k e', lookup w' k = Some e' -> (exists e, lookup w k = Some e /\ class (ep_kind e) (ep_kind e')) \/ is_log e' = false.
Proof.
  intros f v w its w' WT A I k e' L'. destruct (act_cases f v w its w' WT A I) as [[N FO]|(w0 & i & e & p & K0 & _ & L & F & RL & WP & AC & SL & H)].
  - destruct FO as [LL FO]. destruct (FO _ _ L') as [(e & L0 & KE)|(Q & R)]; [left; exists e; split; auto; apply KE|right; apply R].
  - left. assert (I0 : Inv w0) by (eapply kept_inv; eauto).
    assert (B : exists e0, lookup w0 k = Some e0 /\ class (ep_kind e0) (ep_kind e')).
    { destruct (handle_cases f v w0 i e p w' its H I0 L F WP SL) as (d & ds & its' & EQ & NR & C).
      destruct C as [(_ & _ & K)|[(_ & _ & _ & K)|(_ & _ & w1 & w2 & w3 & e2 & mem & EE & K1 & LE & L2 & I1 & I2 & RT & _ & _ & _ & O4 & (e3 & e4 & O5 & O6 & _ & _ & _ & _ & O7) & _)]].
      - destruct (kept_lookup_rev _ _ _ _ K L') as (e0 & L0 & KE). exists e0. split; auto. apply KE.
      - destruct (kept_lookup_rev _ _ _ _ K L') as (e0 & L0 & KE). exists e0. split; auto. apply KE.
      - assert (X : exists e3, lookup w3 k = Some e3 /\ ep_kind e' = ep_kind e3).
        { destruct (Nat.eq_dec k i) as [->|NE]. - exists e3. split; auto. congruence. - rewrite O4 in L' by auto. eauto. }
        destruct X as (ek3 & LK3 & KK). destruct (kept_lookup_rev _ _ _ _ (kept_route _ _ _ _ _ _ _ _ _ RT) LK3) as (ek2 & LK2 & KE2).
        assert (L1 : lookup w1 i = Some e) by (rewrite <- L; apply lookup_same_eps; auto).
        destruct (learn_exact _ _ _ _ _ _ LE I1 L1) as [T _]. destruct (taught_lookup_rev _ _ _ _ _ T LK2) as (ek1 & LK1 & TK).
        pose proof (taught_ep_fields _ _ _ TK) as (_ & _ & _ & T4 & _). rewrite (lookup_same_eps w0 w1 k EE) in LK1. exists ek1. split; auto.
        rewrite KK, <- T4. apply KE2. }
    destruct B as (e0 & L0 & C0). destruct (kept_lookup_rev _ _ _ _ K0 L0) as (ew & LW & KE). exists ew. split; auto. eapply class_trans; [apply KE|auto].
Qed.

Definition ulog_pos (c : config) (w : world) : Prop :=
  forall k e, lookup w k = Some e -> k <> length (confs c) \/ ~ ulog_configured c -> never_ulog (ep_kind e).

Lemma ulog_pos_start : forall v y c w, start v y c = Some w -> ulog_pos c w.
Proof.
  intros v y c w H. unfold start in H. destruct (setup_all v y [] _) as [[y1 eps]|] eqn:S; [|discriminate].
  destruct (setup_all_fresh _ _ _ _ _ _ S) as (es & E & F). cbn [app] in E. subst eps. fold (confs c) in F.
  pose proof (Forall2_len _ _ _ _ _ F) as LEN.
  destruct (tcp_server _ _ _) as [sv y2].
  assert (LL : length (link_groups (map Some es)) = length es) by (unfold link_groups; rewrite link_len, map_length; auto).
  assert (LF : forall y3 logs, (match cf_log c with None => (y2, []) | Some lc => setup_log v y2 (length (link_groups (map Some es))) lc end) = (y3, logs) ->
    forall j e, nth_error logs j = Some e -> j <> 0%nat \/ ~ ulog_configured c -> never_ulog (ep_kind e)).
  { intros y3 logs. destruct (cf_log c) as [lc|] eqn:CL; [|intros X; injection X as _ <-; intros [|j] e; discriminate].
    unfold setup_log. destruct (ask_bytes RXMAX v y2) as [junk ya].
    destruct (new_logger v ya (length (link_groups (map Some es))) lc) as [l yb] eqn:NL.
    assert (NV : ~ ulog_configured c -> never_ulog (KLog l)).
    { intros NU. unfold new_logger in NL. destruct (lc_dialect lc) eqn:D.
      - injection NL as <- _. reflexivity.
      - exfalso. apply NU. exists lc. rewrite D. split; auto; discriminate.
      - exfalso. apply NU. exists lc. rewrite D. split; auto; discriminate. }
    destruct (lc_tlog lc).
    - destruct (ask_bytes RXMAX v (mark_unfinished_logs v yb)) as [junk' yc]. intros X. injection X as _ <-. intros [|[|j]] e N O.
      + injection N as <-. destruct O as [O|O]; [congruence|]. apply NV; auto.
      + injection N as <-. reflexivity.
      + destruct j; cbn in N; discriminate N.
    - intros X. injection X as _ <-. intros [|j] e N O; [|destruct j; cbn in N; discriminate N]. injection N as <-. destruct O as [O|O]; [congruence|]. apply NV; auto. }
  destruct (match cf_log c with None => _ | Some _ => _ end) as [y3 logs] eqn:LG. specialize (LF _ _ eq_refl).
  destruct (if cf_stats c then _ else _) as [t1 y4]. destruct (add_timer v y4 5000 CbAggregate) as [t2 y5]. inversion H; subst; clear H.
  intros k e L O. unfold lookup in L. cbn [w_eps] in L. destruct (Nat.lt_ge_cases k (length es)) as [A|A].
  - rewrite nth_error_app1 in L by lia. destruct (nth_error es k) as [e0|] eqn:N; [|apply nth_error_None in N; lia].
    destruct (nth_Forall2 _ _ _ _ _ _ _ F N) as (cc & NC & (FE1 & FE2 & FE3 & FE4) & FG & FF).
    assert (N2 : nth_error (map Some es) k = Some (Some e0)) by (rewrite nth_error_map, N; auto).
    destruct (link_groups_spec es k e0 N2 FE2) as (e' & L' & SE & ME). rewrite L' in L. inversion L; subst e'. rewrite SE. cbn.
    unfold is_log in FE4. destruct (ep_kind e0); try exact Logic.I. discriminate FE4.
  - rewrite nth_error_app2, nth_error_map in L by lia. destruct (nth_error logs (k - length (link_groups (map Some es)))) as [q|] eqn:N; [|discriminate]. cbn in L. inversion L; subst q.
    eapply LF; eauto. destruct O as [O|O]; auto. left. lia.
Qed.

Lemma ulog_pos_act : forall f v c w its w', wf_table (v_tbl v) -> act f v w its w' -> Inv w -> ulog_pos c w -> ulog_pos c w'.
Proof.
  intros f v c w its w' WT A I U k e' L O. destruct (act_kinds f v w its w' WT A I k e' L) as [(e & L0 & C)|N].
  - eapply never_class; eauto.
  - unfold is_log in N. destruct (ep_kind e'); cbn; auto. discriminate.
Qed.

(* ---- the order of the endpoints ----------------------------------------------------------------------------- *)

Definition ascending (w : world) : Prop := StronglySorted lt (w_order w).

Lemma sorted_filter : forall f l, StronglySorted lt l -> StronglySorted lt (filter f l).
Proof.
  intros f. induction 1; cbn; [constructor|]. destruct (f a); auto. constructor; auto. rewrite Forall_forall in *. intros x X. apply filter_In in X. apply H0. apply X.
Qed.
Lemma sorted_snoc : forall l x, StronglySorted lt l -> (forall y, In y l -> (y < x)%nat) -> StronglySorted lt (l ++ [x]).
Proof.
  induction 1; intros B; cbn. { constructor; [constructor|constructor]. }
  constructor. { apply IHStronglySorted. intros; apply B; right; auto. } apply Forall_app. split; auto. constructor; [|constructor]. apply B. left; auto.
Qed.
Lemma sorted_seq : forall n s, StronglySorted lt (seq s n).
Proof. induction n; intros s; cbn; constructor; auto. apply Forall_forall. intros x X. apply in_seq in X. lia. Qed.

Lemma change_ascending : forall w w' its, order_change w w' its -> Inv w -> ascending w -> ascending w'.
Proof.
  intros w w' its (O1 & _ & _ & O4 & _ & LN) I S. unfold ascending. rewrite O1. apply sorted_filter. destruct (news its) as [|x [|y r]]; cbn in LN; try lia.
  - rewrite app_nil_r. auto.
  - apply sorted_snoc; auto. intros y Y. apply (i_alive w I) in Y. destruct (lookup w y) eqn:L; [|congruence]. apply lookup_len in L.
    specialize (O4 x (or_introl eq_refl)). lia.
Qed.

(* ---- bytes ---------------------------------------------------------------------------------------------------- *)

Lemma act_bytes : forall f v w its w', wf_table (v_tbl v) -> act f v w its w' -> Inv w ->
  forall i bs m ds, In (IRecv i bs m Routed ds) its ->
  exists w2, alike w2 w' /\ (forall k e2, lookup w2 k = Some e2 -> exists e, lookup w k = Some e /\ class (ep_kind e) (ep_kind e2)) /\ w_order w2 = w_order w /\
    forall d pre post, In d ds -> w_order w2 = pre ++ dl_to d :: post -> (forall j, In j pre -> ~ ulog_at w2 j) -> dl_bytes d = bs.
Proof.
  intros f v w its w' WT A I i bs m ds X. destruct (act_cases f v w its w' WT A I) as [[N _]|(w0 & j & e & p & K0 & _ & L & F & RL & WP & AC & SL & H)].
  { apply N in X. discriminate. }
  assert (I0 : Inv w0) by (eapply kept_inv; eauto).
  destruct (handle_cases f v w0 j e p w' its H I0 L F WP SL) as (d' & ds' & its' & EQ & NR & C). rewrite EQ in X. destruct X as [X|X]; [|apply NR in X; discriminate]. inversion X; subst i bs m d' ds'.
  destruct C as [(C & _)|[(C & _)|(_ & _ & w1 & w2 & w3 & e2 & mem & EE & K1 & LE & L2 & I1 & I2 & RT & O1 & O2 & O3 & O4 & (e3 & e4 & O5 & O6 & O7 & O8 & O9 & O10 & O11) & O12)]]; try discriminate.
  assert (L1 : lookup w1 j = Some e) by (rewrite <- L; apply lookup_same_eps; auto).
  destruct (learn_exact _ _ _ _ _ _ LE I1 L1) as [T _].
  exists w2. split.
  { eapply alike_trans; [apply kept_alike; eapply kept_route; eauto|]. split; auto. split; auto. split; auto. intros k. destruct (Nat.eq_dec k j) as [->|NE].
    - rewrite O5, O6. unfold like, is_log. rewrite O11. auto.
    - rewrite O4 by auto. destruct (lookup w3 k); auto. unfold like. auto. }
  split.
  { intros k ek2 LK2. destruct (taught_lookup_rev _ _ _ _ _ T LK2) as (ek1 & LK1 & TK). pose proof (taught_ep_fields _ _ _ TK) as (_ & _ & _ & T4 & _).
    rewrite (lookup_same_eps w0 w1 k EE) in LK1. destruct (kept_lookup_rev _ _ _ _ K0 LK1) as (ew & LW & KE). exists ew. split; auto. rewrite T4. apply KE. }
  split. { rewrite (ta_w _ _ _ T). cbn. rewrite (kp_order _ _ K1). apply K0. }
  intros d pre post D O U. pose proof (route_bytes 0 f v w2 _ _ _ _ _ _ (inv_logs _ I2) (i_nodup _ I2) RT d pre post D O U) as B.
  destruct (taught_lookup _ _ _ _ _ T L1) as (ej & LJ & TJ). rewrite L2 in LJ. inversion LJ; subst ej. pose proof (taught_ep_fields _ _ _ TJ) as (_ & _ & _ & _ & T5 & _).
  rewrite T5 in B. rewrite SL in B. inversion B. auto.
Qed.

Definition bytes_ok (c : config) (x : item) : Prop :=
  match x with
  | IRecv i bs m Routed ds => forall d, In d ds -> (dl_to d <= length (confs c))%nat \/ ~ ulog_configured c -> dl_bytes d = bs
  | _ => True
  end.

Lemma bytes_runs : forall f v c its w, wf_table (v_tbl v) -> runs f v c its w -> Forall (bytes_ok c) its.
Proof.
  intros f v c its w WT R. assert (X : ulog_pos c w /\ ascending w /\ Forall (bytes_ok c) its); [|apply X]. revert its w R.
  apply (runs_ind f v c (fun h w => ulog_pos c w /\ ascending w /\ Forall (bytes_ok c) h) WT).
  - intros d pos w0 S. split; [eapply ulog_pos_start; eauto|]. split; [|constructor]. destruct (start_shape _ _ _ _ S) as (es & ls & _ & _ & _ & OR & _). unfold ascending. rewrite OR. apply sorted_seq.
  - intros h w its w' I (U & S & B) A. split; [eapply ulog_pos_act; eauto|]. destruct (act_routes f v w its w' WT A I) as (OC & _).
    split; [eapply change_ascending; eauto|]. apply Forall_app. split; auto. apply Forall_forall. intros x X. destruct x as [|i bs m [] ds| | | |]; try exact Logic.I.
    destruct (act_bytes f v w its w' WT A I _ _ _ _ X) as (w2 & AL & KK & OO & BB). intros d D Q.
    assert (RI : In (dl_to d) (w_order w2)).
    { destruct (act_routes f v w its w' WT A I) as (_ & _ & w2' & AL' & _ & RR). destruct (RR _ m ds X) as (_ & _ & RI). { left; eauto. }
      destruct AL as (A1 & _). destruct AL' as (A1' & _). rewrite <- A1, A1'. assert (Y : In (dl_to d) (map dl_to ds)) by (apply in_map; auto). unfold routed_in in RI. rewrite RI in Y. apply filter_In in Y. apply Y. }
    destruct (in_split _ _ RI) as (pre & post & SP). apply (BB d pre post D SP). intros j J (ej & LJ & UJ).
    destruct (KK j ej LJ) as (e0 & L0 & C0). assert (NV : never_ulog (ep_kind e0)).
    { apply (U j e0 L0). destruct Q as [Q|Q]; auto. left. unfold ascending in S. rewrite <- OO, SP in S.
      assert (JL : (j < dl_to d)%nat). { clear - S J. induction pre as [|a pre IH]; [destruct J|]. cbn in S. inversion S; subst. destruct J as [<-|J]; auto. rewrite Forall_forall in H2. apply H2. apply in_or_app; right; left; auto. }
      lia. }
    pose proof (never_not _ (never_class _ _ C0 NV)). congruence.
Qed.
