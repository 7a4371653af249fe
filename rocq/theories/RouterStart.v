(* The initial state satisfies the invariant; hence every reachable state does. *)
From Verif Require Import Base Mav SpecFrame Frame FrameProofs FrameRefine FrameLink Dedup SpecAccept Accept AcceptProofs Names Sys LogFile LogFileProofs ULog Loggers LogInv LogStep RouterCtl Router RouterRoute RouterRoute2 RouterSetup RouterActs RouterInv RouterLearn RouterStep.

Definition fresh_ep (e : ep) : Prop := ep_ids e = [] /\ ep_members e = [] /\ rx_ok (ep_rx e) /\ is_log e = false.

Lemma fresh_add_fd : forall v y e y' e', add_fd v y e = (y', e') -> fresh_ep e -> fresh_ep e'.
Proof. intros v y e y' e' H F. unfold add_fd in H. destruct (ask v y). inversion H; subst. exact F. Qed.

Lemma setup_fresh : forall v y i c y' e, setup_ep v y i c = Some (y', e) -> fresh_ep e /\ ep_group e = ec_group c /\ ep_filters e = ec_filters c.
Proof.
  intros v y i c y' e H.
  assert (NEW : forall k fd junk y0 y1, ask_bytes RXMAX v y0 = (junk, y1) -> (match k with KLog _ => False | _ => True end) ->
            fresh_ep (new_ep k fd junk [] (ec_filters c) (ec_group c))).
  { intros k fd junk y0 y1 A K. split; [auto|]. split; [auto|]. split; [eapply rx_ok_fresh; eauto|]. unfold is_log, new_ep. cbn [ep_kind]. destruct k; auto. destruct K. }
  assert (FD : forall y e0, fresh_ep e0 -> ep_group e0 = ec_group c -> ep_filters e0 = ec_filters c -> Some (add_fd v y e0) = Some (y', e) ->
            fresh_ep e /\ ep_group e = ec_group c /\ ep_filters e = ec_filters c).
  { intros y0 e0 F G FF X. assert (X1 : add_fd v y0 e0 = (y', e)) by congruence. split; [eapply fresh_add_fd; eauto|]. unfold add_fd in X1. destruct (ask v y0). inversion X1; subst. split; [exact G|exact FF]. }
  unfold setup_ep in H. destruct (ec_kind c).
  - unfold setup_uart in H. destruct (_ || _); [discriminate|]. destruct (ask_bytes RXMAX v y) as [junk y1] eqn:AB.
    destruct (ask v y1) as [o y2]. destruct (o <? 0); [discriminate|]. destruct (ask v y2) as [s y3]. destruct (_ && _); [discriminate|].
    destruct (if (length bauds =? 1)%nat then _ else _) as [t y4]. destruct (if flow then _ else _) as [fl y5]. destruct (fl <? 0); [discriminate|].
    apply (fun A B C => FD _ _ A B C H); [eapply NEW; eauto; exact I|reflexivity|reflexivity].
  - unfold setup_udp in H. destruct (negb _); [discriminate|]. destruct (ask_bytes RXMAX v y) as [junk y1] eqn:AB.
    destruct (ask v y1) as [o y2]. destruct (o <? 0); [discriminate|]. destruct (if server then _ else _) as [t y4].
    apply (fun A B C => FD _ _ A B C H); [eapply NEW; eauto; exact I|reflexivity|reflexivity].
  - unfold setup_tcp in H. destruct (negb _); [discriminate|]. destruct (ask_bytes RXMAX v y) as [junk y1] eqn:AB.
    destruct (ask v y1) as [o y2]. destruct (o <? 0).
    + assert (X : schedule_reconnect v y2 i (new_ep (KTcp retry true) false junk [] (ec_filters c) (ec_group c)) retry = (y', e)) by congruence. unfold schedule_reconnect in X. pose proof (NEW (KTcp retry true) false junk y y1 AB I) as N.
      destruct (retry <=? 0). { inversion X; subst. auto. } destruct (add_timer _ _ _ _). inversion X; subst. auto.
    + apply (fun A B C => FD _ _ A B C H); [eapply NEW; eauto; exact I|reflexivity|reflexivity].
Qed.

Lemma setup_all_fresh : forall v cs y eps y' eps', setup_all v y eps cs = Some (y', eps') ->
  exists es, eps' = eps ++ map Some es /\ Forall2 (fun c e => fresh_ep e /\ ep_group e = ec_group c /\ ep_filters e = ec_filters c) cs es.
Proof.
  induction cs as [|c cs IH]; intros y eps y' eps' H; cbn [setup_all] in H.
  - inversion H; subst. exists []. cbn. rewrite app_nil_r. auto.
  - destruct (setup_ep v y (length eps) c) as [[y1 e]|] eqn:S; [|discriminate]. apply setup_fresh in S. destruct (IH _ _ _ _ H) as (es & -> & F).
    exists (e :: es). cbn. rewrite <- app_assoc. split; auto.
Qed.

(* ---- linking groups -------------------------------------------------------------------------------------- *)

Lemma link_one_spec : forall i eps k e, exists l, link_one i e k eps = set_members e (ep_members e ++ l) /\
  (forall j, In j l <-> (k <= j)%nat /\ j <> i /\ exists o, nth_error eps (j - k) = Some (Some o) /\ grouped e o).
Proof.
  intros i. induction eps as [|o r IH]; intros k e; cbn [link_one].
  - exists []. split. { rewrite app_nil_r. destruct e; auto. } intros j. split; [intros []|]. intros (_ & _ & o & O & _). destruct (j - k)%nat; discriminate.
  - assert (SKIP : forall (o : option ep) l, (forall j, In j l <-> (Datatypes.S k <= j)%nat /\ j <> i /\ exists o, nth_error r (j - Datatypes.S k) = Some (Some o) /\ grouped e o) ->
        (k = i \/ ~ exists q, o = Some q /\ grouped e q) ->
        forall j, In j l <-> (k <= j)%nat /\ j <> i /\ exists q, nth_error (o :: r) (j - k) = Some (Some q) /\ grouped e q).
    { intros o0 l B C j. rewrite B. split.
      - intros (A & N & q & Q & G). split; [lia|]. split; auto. exists q. split; auto. replace (j - k)%nat with (Datatypes.S (j - Datatypes.S k)) by lia. auto.
      - intros (A & N & q & Q & G). destruct (Nat.eq_dec j k) as [->|NE].
        + rewrite Nat.sub_diag in Q. cbn in Q. destruct C as [C|C]; [congruence|]. exfalso. apply C. exists q. split; auto. congruence.
        + split; [lia|]. split; auto. exists q. split; auto. replace (j - k)%nat with (Datatypes.S (j - Datatypes.S k)) in Q by lia. auto. }
    destruct o as [o|].
    + destruct (Nat.eqb_spec i k) as [->|NE].
      * destruct (IH (Datatypes.S k) e) as (l & A & B). exists l. split; auto.
      * unfold link_member. destruct (is_empty (ep_group e) || negb (beqs (ep_group o) (ep_group e))) eqn:G.
        -- destruct (IH (Datatypes.S k) e) as (l & A & B). exists l. split; auto. apply SKIP; auto. right. intros (q & Q & G1 & G2). inversion Q; subst q.
           apply orb_true_iff in G. destruct G as [G|G]. { destruct (ep_group e); [congruence|discriminate]. } rewrite G1, beqs_refl in G. discriminate.
        -- apply orb_false_iff in G. destruct G as [G1 G2]. apply negb_false_iff, beqs_eq in G2.
           assert (GR : grouped e o) by (split; auto; destruct (ep_group e); [discriminate|congruence]).
           destruct (IH (Datatypes.S k) (set_members e (ep_members e ++ [k]))) as (l & A & B). exists (k :: l). split.
           { rewrite A. cbn. rewrite <- app_assoc. reflexivity. }
           intros j. cbn [In]. split.
           ++ intros [<-|J]. { split; [lia|]. split; auto. exists o. rewrite Nat.sub_diag. auto. }
              apply B in J. destruct J as (A1 & N & q & Q & G). split; [lia|]. split; auto. exists q. split; auto. replace (j - k)%nat with (Datatypes.S (j - Datatypes.S k)) by lia. auto.
           ++ intros (A1 & N & q & Q & G). destruct (Nat.eq_dec j k) as [->|NJ]; auto. right. apply B. split; [lia|]. split; auto. exists q. split; auto.
              replace (j - k)%nat with (Datatypes.S (j - Datatypes.S k)) in Q by lia. auto.
    + destruct (IH (Datatypes.S k) e) as (l & A & B). exists l. split; auto. apply SKIP; auto. right. intros (q & Q & _). discriminate.
Qed.

Lemma link_from_spec : forall all eps k j, nth_error (link_from k all eps) j =
  match nth_error eps j with
  | Some (Some e) => Some (Some (if is_empty (ep_group e) then e else link_one (k + j) e 0 all))
  | Some None => Some None
  | None => None
  end.
Proof.
  intros all. induction eps as [|o r IH]; intros k j. { destruct j; auto. }
  cbn [link_from]. destruct o as [e|]; destruct j; cbn [nth_error]; auto; try (rewrite Nat.add_0_r; auto; fail); rewrite IH; replace (Datatypes.S k + j)%nat with (k + Datatypes.S j)%nat by lia; auto.
Qed.
Lemma link_len : forall all eps k, length (link_from k all eps) = length eps.
Proof. induction eps as [|[e|] r IH]; intros; cbn; auto. Qed.

(* an endpoint after linking: its members are the other endpoints of its group *)
Lemma link_groups_spec : forall es i e, nth_error (map Some es) i = Some (Some e) -> ep_members e = [] ->
  exists e', nth_error (link_groups (map Some es)) i = Some (Some e') /\ e' = set_members e (ep_members e') /\
  (forall j, In j (ep_members e') <-> j <> i /\ exists o, nth_error es j = Some o /\ grouped e o).
Proof.
  intros es i e H M. unfold link_groups. rewrite link_from_spec, H.
  assert (NE : forall j o, nth_error (map Some es) j = Some (Some o) <-> nth_error es j = Some o).
  { intros. rewrite nth_error_map. destruct (nth_error es j); cbn; split; congruence. }
  destruct (is_empty (ep_group e)) eqn:G.
  - exists e. split; auto. split. { destruct e; auto. } intros j. rewrite M. split; [intros []|]. intros (_ & o & _ & _ & X). destruct (ep_group e); [congruence|discriminate].
  - cbn [Nat.add]. destruct (link_one_spec i (map Some es) 0 e) as (l & A & B). rewrite A, M. cbn [app]. eexists. split; [reflexivity|]. cbn. split; auto.
    intros j. rewrite B. split.
    + intros (_ & N & o & O & GR). rewrite Nat.sub_0_r in O. apply NE in O. eauto.
    + intros (N & o & O & GR). split; [lia|]. split; auto. exists o. rewrite Nat.sub_0_r. split; auto. apply NE; auto.
Qed.

(* ---- loggers ------------------------------------------------------------------------------------------------- *)

Definition log_fresh (e : ep) : Prop :=
  ep_ids e = [512] /\ ep_members e = [] /\ ep_group e = [] /\ ep_fd e = false /\ ep_poll e = None /\ rx_ok (ep_rx e) /\ is_log e = true.

Lemma log_ep_fresh : forall n v y r y' lg, ask_bytes n v y = (r, y') -> n = RXMAX -> log_fresh (log_ep r lg).
Proof.
  intros n v0 y0 r y2 lg A N. pose proof (rx_ok_fresh _ _ _ _ _ A N) as RX. unfold log_fresh, log_ep, new_ep.
  cbn [ep_ids ep_members ep_group ep_fd ep_poll ep_rx]. do 5 (split; [reflexivity|]). split; [exact RX|reflexivity].
Qed.
Lemma setup_log_fresh : forall v y i c y' l, setup_log v y i c = (y', l) -> Forall log_fresh l.
Proof.
  intros v y i c y' l. unfold setup_log. destruct (ask_bytes RXMAX v y) as [junk y1] eqn:AB.
  destruct (new_logger v y1 i c) as [lg y2]. destruct (lc_tlog c).
  - destruct (ask_bytes RXMAX v (mark_unfinished_logs v y2)) as [junk' y3] eqn:AB'. intros H. injection H as _ <-.
    apply Forall_cons; [exact (log_ep_fresh _ _ _ _ _ _ AB eq_refl)|]. apply Forall_cons; [exact (log_ep_fresh _ _ _ _ _ _ AB' eq_refl)|]. apply Forall_nil.
  - intros H. injection H as _ <-. apply Forall_cons; [exact (log_ep_fresh _ _ _ _ _ _ AB eq_refl)|]. apply Forall_nil.
Qed.

(* ---- the initial state ------------------------------------------------------------------------------------------ *)

(* number of logger endpoints *)
Definition log_count (c : config) : nat :=
  match cf_log c with None => 0 | Some lc => if lc_tlog lc then 2 else 1 end.
Lemma setup_log_plain : forall v y i c y' l, setup_log v y i c = (y', l) ->
  Forall (fun e => ep_filters e = no_filters) l /\ length l = if lc_tlog c then 2%nat else 1%nat.
Proof.
  intros v y i c y' l. unfold setup_log. destruct (ask_bytes RXMAX v y) as [junk y1].
  destruct (new_logger v y1 i c) as [lg y2]. destruct (lc_tlog c).
  - destruct (ask_bytes RXMAX v (mark_unfinished_logs v y2)) as [junk' y3]. intros H. injection H as _ <-. split; auto.
  - intros H. injection H as _ <-. split; auto.
Qed.

(* shape of the initial state *)
Lemma start_shape : forall v y c w, start v y c = Some w ->
  exists es ls, Forall2 (fun c e => fresh_ep e /\ ep_group e = ec_group c /\ ep_filters e = ec_filters c) (cf_uarts c ++ cf_udps c ++ cf_tcps c) es /\
    Forall log_fresh ls /\ w_eps w = link_groups (map Some es) ++ map Some ls /\ w_order w = seq 0 (length es + length ls) /\
    w_unknown w = 0 /\ w_sniffer w = u16 (cf_sniffer c) /\ w_hang w = false /\ w_exit w = None /\
    w_dedup w = dedup_new (if 0 <? cf_dedup c then cf_dedup c else 0) /\
    Forall (fun e => ep_filters e = no_filters) ls /\ length ls = log_count c.
Proof.
  intros v y c w H. unfold start in H. destruct (setup_all v y [] _) as [[y1 eps]|] eqn:S; [|discriminate].
  destruct (setup_all_fresh _ _ _ _ _ _ S) as (es & E & F). cbn [app] in E. subst eps.
  destruct (tcp_server _ _ _) as [sv y2]. 
  assert (LF : forall y3 logs, (match cf_log c with None => (y2, []) | Some lc => setup_log v y2 (length (link_groups (map Some es))) lc end) = (y3, logs) -> Forall log_fresh logs /\ Forall (fun e => ep_filters e = no_filters) logs /\ length logs = log_count c).
  { intros y3 logs X. unfold log_count. destruct (cf_log c). { split; [eapply setup_log_fresh; eauto|eapply setup_log_plain; eauto]. } inversion X; auto. }
  destruct (match cf_log c with None => _ | Some _ => _ end) as [y3 logs] eqn:LG. specialize (LF _ _ eq_refl). destruct LF as (LF1 & LF2 & LF3).
  destruct (if cf_stats c then _ else _) as [t1 y4]. destruct (add_timer v y4 5000 CbAggregate) as [t2 y5]. inversion H; subst. cbn.
  exists es, logs. repeat split; auto. rewrite app_length, !map_length. unfold link_groups. rewrite link_len, map_length. auto.
Qed.

Lemma nth_Forall2 : forall A B (P : A -> B -> Prop) l l' i b, Forall2 P l l' -> nth_error l' i = Some b -> exists a, nth_error l i = Some a /\ P a b.
Proof. intros A B P l l2 i b F. revert i. induction F as [|x y l l2 PX F IH]; intros [|i] E; cbn in *; try discriminate; eauto. inversion E; subst; eauto. Qed.

Lemma inv_start : forall v y c w, start v y c = Some w -> Inv w.
Proof.
  intros v y c w H. destruct (start_shape _ _ _ _ H) as (es & ls & F & LF & EP & OR & UN & _).
  assert (LL : length (link_groups (map Some es)) = length es) by (unfold link_groups; rewrite link_len, map_length; auto).
  (* every endpoint is a linked one or a logger *)
  assert (CASES : forall i x, lookup w i = Some x ->
     ((i < length es)%nat /\ exists e, nth_error es i = Some e /\ fresh_ep e /\ x = set_members e (ep_members x) /\
        (forall j, In j (ep_members x) <-> j <> i /\ exists o, nth_error es j = Some o /\ grouped e o)) \/
     ((length es <= i)%nat /\ log_fresh x)).
  { intros i x L. unfold lookup in L. rewrite EP in L. destruct (Nat.lt_ge_cases i (length es)) as [A|A].
    - left. split; auto. rewrite nth_error_app1 in L by lia. destruct (nth_error es i) as [e|] eqn:N; [|apply nth_error_None in N; lia].
      destruct (nth_Forall2 _ _ _ _ _ _ _ F N) as (cc & _ & FE & _). exists e. split; auto. split; auto.
      assert (N2 : nth_error (map Some es) i = Some (Some e)) by (rewrite nth_error_map, N; auto).
      destruct (link_groups_spec es i e N2) as (e' & L' & SE & ME). { apply FE. } rewrite L' in L. inversion L; subst x. auto.
    - right. split; auto. rewrite nth_error_app2 in L by lia. rewrite LL, nth_error_map in L. destruct (nth_error ls (i - length es)) as [x0|] eqn:N; [|discriminate].
      cbn in L. inversion L; subst x0. apply nth_error_In in N. rewrite Forall_forall in LF. auto. }
  assert (AT : forall j o, nth_error es j = Some o -> exists x, lookup w j = Some x /\ ep_group x = ep_group o).
  { intros j o N. assert (A : (j < length es)%nat) by (apply nth_error_Some; congruence).
    assert (N2 : nth_error (map Some es) j = Some (Some o)) by (rewrite nth_error_map, N; auto).
    destruct (nth_Forall2 _ _ _ _ _ _ _ F N) as (cc & _ & FE & _).
    destruct (link_groups_spec es j o N2) as (e' & L' & SE & ME). { apply FE. } exists e'. split. { unfold lookup. rewrite EP, nth_error_app1 by lia. rewrite L'. auto. }
    rewrite SE. auto. }
  assert (GRP : forall i x e, nth_error es i = Some e -> x = set_members e (ep_members x) -> ep_group x = ep_group e /\ ep_ids x = ep_ids e /\ ep_rx x = ep_rx e /\ is_log x = is_log e).
  { intros i x e _ X. rewrite X. auto. }
  assert (NOG : forall x, log_fresh x -> ep_group x = []) by (intros x X; apply X).
  split.
  - rewrite OR. apply seq_NoDup.
  - intros i X. rewrite OR in X. apply in_seq in X. destruct (Nat.lt_ge_cases i (length es)) as [A|A].
    + destruct (nth_error es i) as [e|] eqn:N; [|apply nth_error_None in N; lia]. destruct (AT _ _ N) as (x & L & _). congruence.
    + unfold lookup. rewrite EP, nth_error_app2, LL, nth_error_map by lia. destruct (nth_error ls (i - length es)) eqn:N; [cbn; congruence|]. apply nth_error_None in N. lia.
  - intros i x L G. destruct (CASES i x L) as [(_ & e & N & FE & X & _)|(_ & X)].
    + destruct (GRP i x e N X) as (_ & _ & _ & Q). destruct FE as (_ & _ & _ & Q2). congruence.
    + destruct X as (? & ? & ? & ? & ? & ? & ?). auto.
  - intros i x j L J. destruct (CASES i x L) as [(_ & e & N & FE & X & M)|(_ & X)].
    + apply M in J. destruct J as (NE & o & O & GR). split; auto. destruct (AT _ _ O) as (xj & LJ & GJ). exists xj. split; auto.
      destruct (GRP i x e N X) as (Q & _). unfold grouped in *. rewrite GJ, Q. auto.
    + destruct X as (_ & X & _). rewrite X in J. destruct J.
  - intros i x j x' L L' NE GR. destruct (CASES i x L) as [(_ & e & N & FE & X & M)|(_ & X)].
    + destruct (CASES j x' L') as [(_ & e' & N' & FE' & X' & M')|(_ & X')].
      * apply M. split; auto. exists e'. split; auto. destruct (GRP i x e N X) as (Q & _). destruct (GRP j x' e' N' X') as (Q' & _). unfold grouped in *. rewrite <- Q, <- Q'. auto.
      * destruct GR as [G1 G2]. rewrite (NOG _ X') in G1. congruence.
    + destruct GR as [G1 G2]. rewrite (NOG _ X) in G2. congruence.
  - intros i x j x' L L' GR. destruct (CASES i x L) as [(_ & e & N & FE & X & M)|(_ & X)].
    + destruct (CASES j x' L') as [(_ & e' & N' & FE' & X' & M')|(_ & X')].
      * destruct (GRP i x e N X) as (_ & Q & _). destruct (GRP j x' e' N' X') as (_ & Q' & _). rewrite Q, Q'. destruct FE as (-> & _), FE' as (-> & _). auto.
      * destruct GR as [G1 G2]. rewrite (NOG _ X') in G1. congruence.
    + destruct GR as [G1 G2]. rewrite (NOG _ X) in G2. congruence.
  - intros i x L. destruct (CASES i x L) as [(_ & e & N & FE & X & M)|(_ & X)].
    + destruct (GRP i x e N X) as (_ & Q & _). rewrite Q. destruct FE as (-> & _). split; constructor.
    + destruct X as (-> & _). split; repeat constructor; auto; lia || (intros []; fail).
  - intros i x L. destruct (CASES i x L) as [(_ & e & N & FE & X & M)|(_ & X)].
    + destruct (GRP i x e N X) as (_ & _ & Q & _). rewrite Q. apply FE.
    + apply X.
  - rewrite UN. reflexivity.
Qed.

Lemma inv_exec : forall f v w0 its w, wf_table (v_tbl v) -> exec f v w0 its w -> Inv w0 -> Inv w.
Proof. intros f v w0 its w WT E I. apply (exec_inv f v (fun _ w => Inv w)) with (w0 := w0) (its := its); auto. intros. eapply inv_act; eauto. Qed.

Lemma inv_runs : forall f v c its w, wf_table (v_tbl v) -> runs f v c its w -> Inv w.
Proof. intros f v c its w WT (d & pos & w0 & S & E). eapply inv_exec; eauto. eapply inv_start; eauto. Qed.

(* properties of states and histories along a run, given the invariant *)
Lemma runs_ind : forall f v c (P : list item -> world -> Prop), wf_table (v_tbl v) ->
  (forall d pos w0, start v (boot d pos) c = Some w0 -> P [] w0) ->
  (forall h w its w', Inv w -> P h w -> act f v w its w' -> P (h ++ its) w') ->
  forall its w, runs f v c its w -> P its w.
Proof.
  intros f v c P WT S0 ST its w (d & pos & w0 & S & E).
  assert (X : Inv w /\ P its w); [|apply X].
  apply (exec_inv f v (fun h w => Inv w /\ P h w)) with (w0 := w0); auto.
  - intros h u it u' [I PP] A. split; [eapply inv_act; eauto|eauto].
  - split; [eapply inv_start; eauto|eauto].
Qed.
