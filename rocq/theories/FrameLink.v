(* Whole histories of a link: extraction of packets, independence of read
   boundaries, statistics. *)
From Verif Require Import Base Mav SpecCrc SpecFrame CrcProofs Frame FrameProofs FrameRefine.

Inductive parsed : list Z -> list packet -> list Z -> Prop :=
| pd_nil : forall r, parsed r [] r
| pd_skip : forall b s ps r, ~ marker b -> parsed s ps r -> parsed (b :: s) ps r
| pd_packet : forall p s ps r, wf_packet p -> parsed s ps r -> parsed (encode p ++ s) (p :: ps) r.

Lemma parsed_junk : forall s, parsed s [] (drop_junk s).
Proof.
  induction s; simpl; [constructor|]. destruct (is_stx a) eqn:E; [constructor|].
  constructor; auto. apply is_stx_not_marker; auto.
Qed.

Lemma parsed_trans : forall s ps r, parsed s ps r -> forall qs t, parsed r qs t -> parsed s (ps ++ qs) t.
Proof. induction 1; intros; simpl; auto; constructor; auto. Qed.

Lemma parsed_app : forall s ps r u, parsed s ps r -> parsed (s ++ u) ps (r ++ u).
Proof. induction 1; simpl; try rewrite <- app_assoc; constructor; auto. Qed.

Lemma parsed_segments : forall s ps r, parsed s ps r -> forall qs t, segments r qs t -> segments s (ps ++ qs) t.
Proof. induction 1; intros; simpl; auto; constructor; auto. Qed.

Lemma parsed_wf : forall s ps r, parsed s ps r -> Forall wf_packet ps.
Proof. induction 1; auto. Qed.

Lemma parsed_length : forall s ps r, parsed s ps r -> (8 * length ps + length r <= length s)%nat.
Proof.
  induction 1; simpl; auto; try lia. rewrite app_length.
  pose proof (encode_length_bounds p H). lia.
Qed.

Lemma parsed_bytes : forall s ps r, parsed s ps r -> bytes s -> bytes r.
Proof.
  induction 1; intros HB; auto.
  - apply IHparsed. inversion HB; auto.
  - apply IHparsed. apply bytes_app in HB. tauto.
Qed.

(* Every byte stream has a segmentation. *)
Lemma segments_exist : forall s, bytes s -> exists ps r, segments s ps r.
Proof.
  intros s. remember (length s) as n. revert s Heqn.
  induction n as [n IH] using lt_wf_ind. intros s Hn HB.
  destruct s as [|b t].
  - exists [], []. constructor.
  - destruct (is_stx b) eqn:E.
    + apply is_stx_marker in E. destruct (classify b t HB E) as [HI | (p & u & Hp & Ep)].
      * destruct (incomplete_extends _ HB HI) as (p & m & Hp & Ep & Nm).
        exists [], (b :: t). eapply seg_partial; eauto. discriminate.
      * pose proof (encode_length_bounds p Hp). rewrite Ep in Hn, HB |- *.
        rewrite app_length in Hn. apply bytes_app in HB.
        destruct (IH (length u)) with (s := u) as (ps & r & Hs); try lia; try tauto.
        exists (p :: ps), r. constructor; auto.
    + apply is_stx_not_marker in E. simpl in Hn.
      destruct (IH (length t)) with (s := t) as (ps & r & Hs); try lia; auto.
      { inversion HB; auto. }
      exists ps, r. constructor; auto.
Qed.

Lemma segments_incomplete : forall s, bytes s -> s = [] \/ incomplete s -> segments s [] s.
Proof.
  intros s HB [-> | HI]; [constructor|].
  destruct (incomplete_extends _ HB HI) as (p & m & Hp & Ep & Nm).
  eapply seg_partial; eauto. destruct HI as ((b & t & -> & _) & _). discriminate.
Qed.

Definition view (tbl : table) (p : packet) : list Z * minfo := (encode p, info_of tbl p).
Definition views (tbl : table) (ps : list packet) : list (list Z * minfo) :=
  map (view tbl) (filter (acceptableb tbl) ps).

Lemma views_app : forall tbl a b, views tbl (a ++ b) = views tbl a ++ views tbl b.
Proof. intros. unfold views. rewrite filter_app, map_app. reflexivity. Qed.

Definition stats_after (tbl : table) (st : rstat) (ps : list packet) : rstat :=
  fold_left (fun st p => if acceptableb tbl p then stat_ok st (length (encode p)) (p_seq p)
                         else stat_bad st (length (encode p))) ps st.

(* How one event ends: idle, or stopped right after a packet with a bad checksum. *)
Definition ending (tbl : table) (x' : rx) (done : list packet) : Prop :=
  (rx_last x' = 0%nat /\ Forall (acceptable tbl) done) \/
  (exists d p, done = d ++ [p] /\ Forall (acceptable tbl) d /\ ~ acceptable tbl p /\
               (rx_last x' <> 0)%nat).

Lemma holds_slice : forall x p s, holds x (encode p ++ s) ->
  slice (rx_data x) 0 (length (encode p)) = Ok (encode p).
Proof.
  intros x p s (tail & Ed & El & En). rewrite Ed. rewrite !app_length in El.
  rewrite slice_Ok by (rewrite !app_length; lia).
  rewrite skipn_O, <- app_assoc, firstn_app, Nat.sub_diag, firstn_O, app_nil_r, firstn_all. reflexivity.
Qed.

Lemma rest_of_last : forall x p s, rx_last x = length (encode p) -> rest_of x (encode p ++ s) = s.
Proof. intros. unfold rest_of. rewrite H, skipn_app, skipn_all, Nat.sub_diag. reflexivity. Qed.

Lemma link_loop_spec : forall tbl, wf_table tbl -> forall fuel x s st rr,
  good x s -> match rr with RdBytes a => bytes a | RdFail _ => True end ->
  (length (rest_of x s ++ taken x s rr) < fuel)%nat ->
  exists x' s' st' out r done,
    link_loop fuel tbl x st rr = Ok (x', st', out, r) /\ good x' s' /\
    parsed (rest_of x s ++ taken x s rr) done (rest_of x' s') /\
    out = views tbl done /\ st' = stats_after tbl st done /\ ending tbl x' done.
Proof.
  intros tbl Ht. induction fuel; intros x s st rr Hg Hr Hf; [lia|].
  cbn [link_loop].
  destruct (read_msg_step tbl x s st rr Ht Hg Hr) as (x1 & st1 & r & E & Ho). rewrite E. cbn [bind].
  set (S0 := rest_of x s ++ taken x s rr) in *.
  assert (HB : bytes S0).
  { destruct Hg as (_&_&HB&_). apply bytes_app. split; [apply bytes_skipn; auto|].
    unfold taken. destruct rr; [|constructor]. destruct (needs_read x); [apply bytes_firstn; auto|constructor]. }
  pose proof (drop_junk_bytes _ HB) as HBd.
  pose proof (outcome_good _ _ _ _ _ _ _ HBd Ho) as Hg1.
  pose proof (parsed_junk S0) as PJ.
  inversion Ho; subst.
  - do 6 eexists. split; [reflexivity|]. split; [exact Hg1|].
    split. { unfold rest_of. rewrite H0. exact PJ. }
    split; [reflexivity|]. split; [reflexivity|]. left. auto.
  - exists x1, (drop_junk S0). do 4 eexists. split; [reflexivity|]. split; [exact Hg1|].
    split.
    { rewrite H1. rewrite rest_of_last by auto. 
      apply (parsed_trans _ _ _ PJ [p] s0). rewrite H1.
      constructor; auto. constructor. }
    assert (EA : acceptableb tbl p = false).
    { destruct (acceptableb tbl p) eqn:EA; auto. apply acceptableb_true in EA. tauto. }
    split. { unfold views. cbn [app filter]. rewrite EA. reflexivity. }
    split. { unfold stats_after. cbn [fold_left app]. rewrite EA. reflexivity. }
    right. exists [], p. repeat split; auto. pose proof (encode_length_bounds p H0). lia.
  - rewrite H1 in H.
    assert (Hsl : slice (rx_data x1) 0 (m_len (info_of tbl p)) = Ok (encode p))
      by (apply holds_slice with (s := s0); auto).
    rewrite Hsl. cbn [bind].
    rewrite H1 in Hg1.
    assert (NR : taken x1 (encode p ++ s0) (RdFail 0) = []) by reflexivity.
    destruct (IHfuel x1 (encode p ++ s0) (stat_ok st (length (encode p)) (p_seq p)) (RdFail 0))
      as (x2 & s2 & st2 & out2 & r2 & done2 & E2 & Hg2 & Hp2 & Ho2 & Hst2 & He2); auto.
    { rewrite NR, app_nil_r, rest_of_last by auto.
      pose proof (parsed_length _ _ _ PJ). rewrite H1 in H4. rewrite app_length in H4.
      pose proof (encode_length_bounds p H0). simpl in H4. lia. }
    rewrite NR, app_nil_r, rest_of_last in Hp2 by auto.
    rewrite E2. cbn [bind].
    assert (EA : acceptableb tbl p = true) by (apply acceptableb_true; auto).
    do 6 eexists. split; [reflexivity|]. split; [exact Hg2|].
    split. { apply (parsed_trans _ _ _ PJ (p :: done2)). rewrite H1. constructor; auto. }
    split. { unfold views. cbn [app filter]. rewrite EA. cbn [map]. rewrite Ho2. reflexivity. }
    split. { unfold stats_after. cbn [fold_left app]. rewrite EA. exact Hst2. }
    destruct He2 as [[Z0 F]|(d & q & -> & F & NA & LQ)].
    + left. split; auto. constructor; auto.
    + right. exists (p :: d), q. repeat split; auto.
Qed.

Lemma link_taken_eq : forall x s avail, holds x s -> link_taken x avail = taken x s (RdBytes avail).
Proof. intros x s avail (t&_&_&E). unfold link_taken, taken. rewrite E. reflexivity. Qed.

Lemma link_read_spec : forall tbl x s st avail, wf_table tbl -> good x s -> bytes avail ->
  exists x' s' st' out done,
    link_read tbl x st avail = Ok (x', st', out) /\ good x' s' /\
    parsed (rest_of x s ++ link_taken x avail) done (rest_of x' s') /\
    out = views tbl done /\ st' = stats_after tbl st done /\ ending tbl x' done.
Proof.
  intros tbl x s st avail Ht Hg Ha. unfold link_read.
  destruct (link_loop_spec tbl Ht (rx_len x + length avail + 2) x s st (RdBytes avail) Hg Ha)
    as (x' & s' & st' & out & r & done & E & H1 & H2 & H3 & H4 & H5).
  { destruct Hg as ((t&_&_&En)&_). rewrite app_length. unfold rest_of. rewrite skipn_length.
    assert (length (taken x s (RdBytes avail)) <= length avail)%nat.
    { unfold taken. destruct (needs_read x); [rewrite firstn_length; lia | simpl; lia]. }
    lia. }
  rewrite E. cbn [bind]. exists x', s', st', out, done. split; [reflexivity|].
  rewrite (link_taken_eq x s) by apply Hg. auto.
Qed.

Lemma stats_after_app : forall tbl a b st,
  stats_after tbl st (a ++ b) = stats_after tbl (stats_after tbl st a) b.
Proof. intros. unfold stats_after. apply fold_left_app. Qed.

Lemma link_run_spec : forall tbl, wf_table tbl -> forall evs x s st,
  good x s -> Forall bytes evs ->
  exists x' s' st' out took done,
    link_run tbl x st evs = Ok (x', st', out, took) /\ good x' s' /\
    parsed (rest_of x s ++ took) done (rest_of x' s') /\
    out = views tbl done /\ st' = stats_after tbl st done /\
    (rx_last x' <> 0%nat ->
       (exists d p, done = d ++ [p] /\ ~ acceptable tbl p) \/ (done = [] /\ x' = x)).
Proof.
  intros tbl Ht. induction evs; intros x s st Hg HF.
  - exists x, s, st, [], [], []. cbn [link_run]. rewrite app_nil_r. split; [reflexivity|]. split; [exact Hg|].
    split; [apply pd_nil|]. auto.
  - inversion HF; subst.
    destruct (link_read_spec tbl x s st a Ht Hg H1) as (x1 & s1 & st1 & o1 & d1 & E1 & G1 & P1 & O1 & S1 & N1).
    destruct (IHevs x1 s1 st1 G1 H2) as (x2 & s2 & st2 & o2 & t2 & d2 & E2 & G2 & P2 & O2 & S2 & M2).
    cbn [link_run]. rewrite E1. cbn [bind]. rewrite E2. cbn [bind].
    exists x2, s2, st2, (o1 ++ o2), (link_taken x a ++ t2), (d1 ++ d2).
    split; [reflexivity|]. split; [exact G2|].
    split. { rewrite app_assoc. eapply parsed_trans; [|exact P2]. apply parsed_app; auto. }
    split. { rewrite views_app. congruence. }
    split. { rewrite stats_after_app. congruence. }
    intros NZ. left. destruct (M2 NZ) as [(d & p & -> & NA) | [-> ->]].
    + exists (d1 ++ d), p. rewrite app_assoc. auto.
    + destruct N1 as [[Z0 _] | (d & p & -> & _ & NA & _)]; [congruence|].
      exists d, p. rewrite app_nil_r. auto.
Qed.

Lemma good_fresh : forall junk, length junk = RXMAX -> good (rx_fresh junk) [].
Proof.
  intros. unfold good, rx_fresh. cbn [rx_last]. repeat split; auto; try lia; try constructor.
  exists junk. auto.
Qed.

Lemma idle_segments : forall x s, good x s -> rx_last x = 0%nat -> segments s [] s.
Proof. intros x s (_&_&HB&HI) Z0. apply segments_incomplete; auto. Qed.

(* The complete statement about a link from its creation. *)
Lemma link_history : forall tbl junk evs, wf_table tbl -> length junk = RXMAX -> Forall bytes evs ->
  exists x st out took done pend r,
    link_run tbl (rx_fresh junk) rstat0 evs = Ok (x, st, out, took) /\
    segments took (done ++ pend) r /\
    out = views tbl done /\ st = stats_after tbl rstat0 done /\
    (needs_read x = true -> pend = []) /\
    (pend <> [] -> exists d p, done = d ++ [p] /\ ~ acceptable tbl p).
Proof.
  intros tbl junk evs Ht HJ HF.
  destruct (link_run_spec tbl Ht evs _ _ rstat0 (good_fresh junk HJ) HF)
    as (x & s & st & out & took & done & E & G & P & O & S & M).
  assert (HB : bytes (rest_of x s)) by (apply bytes_skipn; apply G).
  destruct (segments_exist _ HB) as (pend & r & HS).
  exists x, st, out, took, done, pend, r. split; [exact E|].
  change (rest_of (rx_fresh junk) []) with (@nil Z) in P. cbn [app] in P.
  split. { eapply parsed_segments; eauto. }
  split; auto. split; auto.
  assert (NR : rx_last x = 0%nat -> pend = []).
  { intros Z0. assert (HS' : segments (rest_of x s) [] (rest_of x s)).
    { unfold rest_of. rewrite Z0. apply (idle_segments x); auto. }
    destruct (segments_unique _ _ _ HS _ _ HS'). auto. }
  split.
  - unfold needs_read. intros Z0. apply NR. apply Nat.eqb_eq; auto.
  - intros NP. destruct (Nat.eq_dec (rx_last x) 0) as [Z0|Z0]; [exfalso; auto|].
    destruct (M Z0) as [?|[_ ->]]; auto. exfalso. apply Z0. reflexivity.
Qed.

(* Read boundaries do not matter. *)
Lemma chunking_independent : forall tbl junk1 junk2 evs1 evs2 x1 x2 st1 st2 out1 out2 took,
  wf_table tbl -> length junk1 = RXMAX -> length junk2 = RXMAX ->
  Forall bytes evs1 -> Forall bytes evs2 ->
  link_run tbl (rx_fresh junk1) rstat0 evs1 = Ok (x1, st1, out1, took) ->
  link_run tbl (rx_fresh junk2) rstat0 evs2 = Ok (x2, st2, out2, took) ->
  exists late1 late2, out1 ++ late1 = out2 ++ late2 /\
    (needs_read x1 = true -> late1 = []) /\ (needs_read x2 = true -> late2 = []).
Proof.
  intros tbl j1 j2 evs1 evs2 x1 x2 st1 st2 out1 out2 took Ht L1 L2 F1 F2 R1 R2.
  destruct (link_history tbl j1 evs1 Ht L1 F1) as (y1 & t1 & o1 & k1 & d1 & p1 & r1 & E1 & S1 & O1 & _ & N1 & _).
  destruct (link_history tbl j2 evs2 Ht L2 F2) as (y2 & t2 & o2 & k2 & d2 & p2 & r2 & E2 & S2 & O2 & _ & N2 & _).
  rewrite R1 in E1. injection E1; intros; subst. rewrite R2 in E2. injection E2; intros; subst.
  exists (views tbl p1), (views tbl p2).
  rewrite <- !views_app. destruct (segments_unique _ _ _ S1 _ _ S2) as [-> _].
  repeat split; auto; intros H; [rewrite N1 by auto | rewrite N2 by auto]; reflexivity.
Qed.

(* Free space whenever the OS is asked for bytes. *)
Lemma room : forall tbl junk evs x st out took, wf_table tbl -> length junk = RXMAX -> Forall bytes evs ->
  link_run tbl (rx_fresh junk) rstat0 evs = Ok (x, st, out, took) ->
  needs_read x = true -> (rx_len x + 3 * 280 <= RXMAX)%nat.
Proof.
  intros tbl junk evs x st out took Ht HJ HF R NR.
  destruct (link_run_spec tbl Ht evs _ _ rstat0 (good_fresh junk HJ) HF)
    as (x' & s & st' & out' & took' & done & E & G & P & O & S & M).
  rewrite R in E. injection E; intros; subst.
  destruct G as ((tl & _ & _ & ->) & _ & HB & HI).
  unfold needs_read in NR. apply Nat.eqb_eq in NR. 
  destruct (HI NR) as [-> | HI']; [unfold RXMAX; simpl; lia|].
  apply incomplete_short in HI'; auto. unfold RXMAX. lia.
Qed.

(* Valid traffic only: everything comes out at once. *)
Lemma segments_concat : forall ps, Forall wf_packet ps -> segments (concat (map encode ps)) ps [].
Proof. induction 1; simpl; constructor; auto. Qed.

Lemma segments_prefix_split : forall s ps r, segments s ps r -> forall a b, s = a ++ b ->
  exists qs u, segments a qs u /\ exists rs, ps = qs ++ rs.
Proof.
  intros s ps r H. induction H; intros a c E.
  - symmetry in E. apply app_eq_nil in E. destruct E; subst. exists [], []. split; [constructor|]. exists []; auto.
  - exists []. destruct a as [|b a].
    + exists []. split; [constructor|]. exists []; auto.
    + exists (b :: a). split; [|exists []; auto]. subst r.
      eapply seg_partial with (missing := c ++ missing); eauto.
      * rewrite H0, app_assoc. reflexivity.
      * discriminate.
      * intro Z0. apply app_eq_nil in Z0. tauto.
  - destruct a as [|b' a].
    + exists [], []. split; [constructor|]. exists ps; auto.
    + injection E; intros; subst. destruct (IHsegments a c eq_refl) as (qs & u & Hs & rs & ->).
      exists qs, u. split; [constructor; auto|]. exists rs; auto.
  - destruct (le_lt_dec (length (encode p)) (length a)) as [L|L].
    + assert (exists a', a = encode p ++ a' /\ s = a' ++ c) as (a' & -> & ->).
      { exists (skipn (length (encode p)) a).
        assert (firstn (length (encode p)) (encode p ++ s) = firstn (length (encode p)) (a ++ c)) by (rewrite E; auto).
        rewrite !firstn_app, Nat.sub_diag, firstn_O, app_nil_r, firstn_all in H1.
        replace (length (encode p) - length a)%nat with 0%nat in H1 by lia. rewrite firstn_O, app_nil_r in H1.
        split. { rewrite H1 at 1. rewrite firstn_skipn. auto. }
        assert (skipn (length (encode p)) (encode p ++ s) = skipn (length (encode p)) (a ++ c)) by (rewrite E; auto).
        rewrite !skipn_app, Nat.sub_diag, skipn_all, skipn_O in H2.
        replace (length (encode p) - length a)%nat with 0%nat in H2 by lia. rewrite skipn_O in H2. exact H2. }
      destruct (IHsegments a' c eq_refl) as (qs & u & Hs & rs & ->).
      exists (p :: qs), u. split; [constructor; auto|]. exists rs. auto.
    + exists []. destruct a as [|b a].
      * exists []. split; [constructor|]. exists (p :: ps); auto.
      * exists (b :: a). split; [|exists (p :: ps); auto].
        assert (E1 : encode p = (b :: a) ++ skipn (length (b :: a)) (encode p)).
        { assert (firstn (length (b :: a)) (encode p ++ s) = firstn (length (b :: a)) ((b :: a) ++ c)) by (rewrite E; auto).
          rewrite !firstn_app, Nat.sub_diag, firstn_O, app_nil_r, firstn_all in H1.
          replace (length (b :: a) - length (encode p))%nat with 0%nat in H1 by lia. rewrite firstn_O, app_nil_r in H1.
          rewrite <- H1 at 1. rewrite firstn_skipn. auto. }
        eapply seg_partial; [exact H | exact E1 | discriminate |].
        intro Z0. rewrite Z0, app_nil_r in E1. rewrite E1 in L. lia.
Qed.

Lemma valid_traffic_run : forall tbl, wf_table tbl -> forall evs x s st,
  good x s -> rx_last x = 0%nat -> Forall bytes evs -> Forall (fun e => (length e <= 840)%nat) evs ->
  forall ps r, segments (s ++ concat evs) ps r -> Forall (acceptable tbl) ps ->
  exists x' s' st' out,
    link_run tbl x st evs = Ok (x', st', out, concat evs) /\ good x' s' /\ rx_last x' = 0%nat /\
    out = map (view tbl) ps /\ st' = stats_after tbl st ps.
Proof.
  intros tbl Ht. induction evs; intros x s st Hg Z0 HF HL ps r HS HA.
  - cbn [link_run concat] in *. rewrite app_nil_r in HS.
    pose proof (idle_segments x s Hg Z0) as HS'. destruct (segments_unique _ _ _ HS _ _ HS') as [-> _].
    exists x, s, st, []. auto.
  - inversion HF; inversion HL; subst.
    destruct (link_read_spec tbl x s st a Ht Hg H1) as (x1 & s1 & st1 & o1 & d1 & E1 & G1 & P1 & O1 & S1 & N1).
    assert (Lt : link_taken x a = a).
    { unfold link_taken. unfold needs_read. rewrite Z0. cbn [Nat.eqb].
      apply firstn_all2. destruct Hg as ((tl & _ & _ & ->) & _ & HB & HI).
      assert (length s < 280)%nat.
      { destruct (HI Z0) as [-> | HI']; [simpl; lia|]. apply incomplete_short; auto. }
      unfold RXMAX. lia. }
    assert (RS : rest_of x s = s) by (unfold rest_of; rewrite Z0; reflexivity).
    rewrite RS, Lt in P1.
    (* the packets handed out are a prefix of ps *)
    assert (HS1 : segments (s ++ concat (a :: evs)) ps r) by exact HS.
    cbn [concat] in HS1. rewrite app_assoc in HS1.
    pose proof (parsed_app _ _ _ (concat evs) P1) as PA.
    assert (HB1 : bytes (rest_of x1 s1 ++ concat evs)).
    { apply bytes_app. split; [apply bytes_skipn; apply G1|]. clear - H2. induction H2; simpl; [constructor|].
      apply bytes_app; auto. }
    destruct (segments_exist _ HB1) as (ps2 & r2 & HS2).
    pose proof (parsed_segments _ _ _ PA _ _ HS2) as HS3.
    destruct (segments_unique _ _ _ HS1 _ _ HS3) as [-> ->].
    apply Forall_app in HA. destruct HA as [HA1 HA2].
    destruct N1 as [[Z1 _] | (d & p & -> & _ & NA & _)].
    2:{ exfalso. apply Forall_app in HA1. destruct HA1 as [_ HA1]. inversion HA1; subst. auto. }
    assert (RS1 : rest_of x1 s1 = s1) by (unfold rest_of; rewrite Z1; reflexivity).
    rewrite RS1 in *.
    destruct (IHevs x1 s1 st1 G1 Z1 H2 H6 ps2 r2 HS2 HA2) as (x2 & s2 & st2 & o2 & E2 & G2 & Z2 & O2 & S2).
    exists x2, s2, st2, (o1 ++ o2). cbn [link_run concat].
    rewrite E1. cbn [bind]. rewrite E2. cbn [bind]. rewrite Lt. split; [reflexivity|].
    split; auto. split; auto.
    assert (F : forall l, Forall (acceptable tbl) l -> filter (acceptableb tbl) l = l).
    { clear. induction 1; simpl; auto. apply acceptableb_true in H. rewrite H, IHForall. auto. }
    split. { rewrite O1, O2. unfold views. rewrite F by auto. rewrite map_app. auto. }
    rewrite stats_after_app. congruence.
Qed.

(* --- statistics ------------------------------------------------------------ *)

Definition stat_inv (st : rstat) : Prop :=
  s_total st = u32 (s_handled st + s_crc_err st + s_drop st).

Lemma stat_ok_inv : forall st n q, stat_inv st -> stat_inv (stat_ok st n q).
Proof.
  unfold stat_inv, stat_ok, seq_update. intros st n q H.
  cbn [s_total s_handled s_crc_err s_drop s_eseq s_crc_err_bytes s_handled_bytes].
  destruct (s_eseq st =? q); cbn [s_total s_handled s_crc_err s_drop s_eseq].
  - rewrite H. unfold u32. Z.div_mod_to_equations. lia.
  - destruct (1 <? u32 (s_total st + 1)); cbn [s_total s_handled s_crc_err s_drop s_eseq].
    + generalize (if s_eseq st <? q then u8 (q - s_eseq st) else u8 (255 - s_eseq st + q)). intros d.
      rewrite H. unfold u32. Z.div_mod_to_equations. lia.
    + rewrite H. unfold u32. Z.div_mod_to_equations. lia.
Qed.

Lemma stat_bad_inv : forall st n, stat_inv st -> stat_inv (stat_bad st n).
Proof.
  unfold stat_inv, stat_bad. intros st n H. cbn [s_total s_handled s_crc_err s_drop s_eseq].
  rewrite H. unfold u32. Z.div_mod_to_equations. lia.
Qed.

Definition sum_len (ps : list packet) : Z := fold_right (fun p a => Z.of_nat (length (encode p)) + a) 0 ps.

Lemma stats_after_counts : forall tbl ps st, stat_inv st ->
  let st' := stats_after tbl st ps in
  let good := filter (acceptableb tbl) ps in
  let bad := filter (fun p => negb (acceptableb tbl p)) ps in
  stat_inv st' /\
  u32 (s_handled st') = u32 (s_handled st + Z.of_nat (length good)) /\
  u32 (s_crc_err st') = u32 (s_crc_err st + Z.of_nat (length bad)) /\
  u64 (s_handled_bytes st') = u64 (s_handled_bytes st + sum_len good) /\
  u64 (s_crc_err_bytes st') = u64 (s_crc_err_bytes st + sum_len bad).
Proof.
  intros tbl. induction ps as [|p ps IH]; intros st Hi.
  - cbn. rewrite !Z.add_0_r. auto.
  - unfold stats_after. cbn [fold_left filter]. fold (stats_after tbl).
    destruct (acceptableb tbl p) eqn:EA; cbn [negb].
    + specialize (IH _ (stat_ok_inv _ (length (encode p)) (p_seq p) Hi)). cbn zeta in IH.
      unfold stats_after in *. destruct IH as (I1 & I2 & I3 & I4 & I5). split; [exact I1|].
      rewrite I2, I3, I4, I5. cbn [length]. unfold sum_len. cbn [fold_right]. fold (sum_len (filter (acceptableb tbl) ps)).
      unfold stat_ok, seq_update.
      cbn [s_total s_handled s_crc_err s_drop s_eseq s_crc_err_bytes s_handled_bytes].
      destruct (s_eseq st =? p_seq p); [|destruct (1 <? u32 (s_total st + 1))];
      cbn [s_total s_handled s_crc_err s_drop s_eseq s_crc_err_bytes s_handled_bytes];
      unfold u32, u64; repeat split; try reflexivity; Z.div_mod_to_equations; lia.
    + specialize (IH _ (stat_bad_inv _ (length (encode p)) Hi)). cbn zeta in IH.
      unfold stats_after in *. destruct IH as (I1 & I2 & I3 & I4 & I5). split; [exact I1|].
      rewrite I2, I3, I4, I5. cbn [length]. unfold sum_len. cbn [fold_right].
      fold (sum_len (filter (fun p => negb (acceptableb tbl p)) ps)).
      unfold stat_bad.
      cbn [s_total s_handled s_crc_err s_drop s_eseq s_crc_err_bytes s_handled_bytes].
      unfold u32, u64; repeat split; try reflexivity; Z.div_mod_to_equations; lia.
Qed.
