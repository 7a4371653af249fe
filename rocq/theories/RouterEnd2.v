(* Which endpoints are removed, over whole runs. *)
From Coq Require Import Permutation.
From Verif Require Import Base Mav SpecCrc SpecFrame Frame FrameProofs FrameRefine FrameLink Dedup SpecAccept Accept AcceptProofs Names NamesProofs Sys LogFile LogFileProofs ULog Loggers LogInv LogStep LogMono RouterCtl Router
  RouterRoute RouterRoute2 RouterSetup RouterActs RouterInv RouterLearn RouterStep RouterStart RouterHist SpecRouter SpecLife RouterTrace RouterLife RouterLife2 RouterLife3 RouterTimers RouterTimers2 RouterLife5 RouterStays SpecEnd RouterEnd.

(* one act keeps every endpoint, unless it is the removal *)
Lemma act_there : forall f v w its w', wf_table (v_tbl v) -> act f v w its w' -> Inv w -> process_hangups w = Ok (w', its) \/
  forall k e, lookup w k = Some e -> exists e', lookup w' k = Some e' /\ class (ep_kind e) (ep_kind e').
Proof.
  intros f v w its w' WT A I. assert (ST : forall w w', still_there w w' -> forall k e, lookup w k = Some e -> exists e', lookup w' k = Some e' /\ class (ep_kind e) (ep_kind e')) by (intros a b [_ X]; exact X).
  inversion A; subst; auto; right.
  - apply ST. match goal with H : os_read _ _ _ _ _ = _ |- _ => eapply stays_os; eauto end.
  - apply ST. apply stays_rx; auto.
  - apply ST. match goal with H : handle_msg _ _ _ _ _ = _ |- _ => apply stays_msg in H; destruct H as [S _] end. eapply there_trans; [|exact S].
    eapply there_trans; [apply (stays_rx w i e x st); auto|]. destruct known. { eapply stays_baud; eauto. eapply lookup_put_eq; eauto. } match goal with H : Ok _ = Ok _ |- _ => inversion H; subst end. apply there_refl.
  - apply ST. apply there_conn.
  - apply ST. match goal with H : mod_fd _ _ _ _ = _ |- _ => destruct (mod_fd_same2 _ _ _ _ _ _ _ H) as (Q1 & Q2 & Q3 & Q4) end. apply there_alike. eapply alike_ask; eauto.
  - apply ST. match goal with H : timer_read _ _ _ _ _ = _ |- _ => apply stays_timer in H; [apply H|] end. apply inv_logs; auto.
  - apply ST. apply there_eps; reflexivity.
  - apply ST. apply there_eps; reflexivity.
  - intros k e0 L; exists e0; split; [exact L|apply class_refl].
Qed.

(* ---- what the history says about endpoints ------------------------------------------------------------------------------- *)

Lemma ended_app : forall a b k, ended (a ++ b) k = ended a k || ended b k.
Proof. intros. unfold ended. apply existsb_app. Qed.

Record fate (c : config) (h : list item) (w : world) : Prop := mkFate {
  fa_ends : forall k, ended h k = true -> (k < length (w_eps w))%nat;
  fa_tcp : forall k e r vl, lookup w k = Some e -> ep_kind e = KTcp r vl -> r <= 0 -> vl = negb (ended h k);
  fa_gone : forall k, In k (gone h) -> ended h k = true /\ ((exists r, tcp_conf c k = Some r /\ r <= 0) \/ In k (news h));
  fa_lost : forall k, (k < length (w_eps w))%nat -> lookup w k = None -> In k (gone h);
  fa_dead : forall k, In k (gone h) -> group_of c k = [] -> lookup w k = None;
  fa_all : forall k, (length (confs c) + loggers c <= k < length (w_eps w))%nat <-> In k (news h) }.

Lemma fate_start : forall v y c w, start v y c = Some w -> fate c [] w.
Proof.
  intros v y c w S. destruct (start_shape _ _ _ _ S) as (es & ls & F & LF & EP & OR & _ & SN & _ & _ & _ & NF & LC).
  pose proof (Forall2_len _ _ _ _ _ F) as LEN. fold (confs c) in LEN, F. rewrite log_count_loggers in LC.
  assert (LN : length (w_eps w) = (length (confs c) + loggers c)%nat). { rewrite EP, app_length, map_length. unfold link_groups. rewrite link_len, map_length. lia. }
  split; try (cbn; intros; discriminate || contradiction).
  - intros k e r vl L K R. cbn. destruct (start_born _ _ _ _ _ _ S L) as [(cc & N & B)|(_ & X)].
    + destruct B as [_ B]. destruct (ec_kind cc); try (destruct B as (? & B & _)); congruence.
    + unfold is_log in X. rewrite K in X. discriminate.
  - intros k Q L. exfalso. unfold lookup in L. rewrite EP in L. assert (LL : length (link_groups (map Some es)) = length es) by (unfold link_groups; rewrite link_len, map_length; auto).
    destruct (Nat.ltb_spec k (length es)) as [Z|Z].
    + rewrite nth_error_app1 in L by lia. destruct (nth_error es k) as [e|] eqn:N. 2:{ apply nth_error_None in N. lia. }
      destruct (nth_Forall2 _ _ _ _ _ _ _ F N) as (a & _ & FR & _). destruct (link_groups_spec es k e) as (e' & X & _). { rewrite nth_error_map, N. auto. } { apply FR. } rewrite X in L. discriminate.
    + rewrite nth_error_app2 in L by lia. rewrite nth_error_map in L. destruct (nth_error ls (k - _)) eqn:N. { discriminate. } apply nth_error_None in N. lia.
  - intros k. rewrite LN. cbn. split; [lia|tauto].
Qed.

Lemma hangups_inv : forall w w' its, process_hangups w = Ok (w', its) -> Inv w ->
  (w_hang w = false /\ w' = w /\ its = []) \/
  (w_hang w = true /\ w_hang w' = false /\ length (w_eps w') = length (w_eps w) /\ w_order w' = filter (valid_at w) (w_order w) /\ gone its = filter (fun i => negb (valid_at w i)) (w_order w) /\ news its = [] /\
   (forall k, ended its k = false) /\
   forall k, lookup w' k = if existsb (Nat.eqb k) (w_order w) && negb (valid_at w k) && negb (held w k) then None else lookup w k).
Proof.
  intros w w' its H I. unfold process_hangups in H. destruct (w_hang w). 2:{ inversion H; subst. auto. } right.
  inv_bind H. inversion H; subst; clear H. destruct (hangups_spec _ _ _ _ _ E (inv_sym _ I)) as (A & B & C & D & F). split; auto. split; auto.
  split. { exact B. } split. { exact C. } split.
  { subst its. clear. induction (w_order w) as [|i r IH]; auto. cbn [filter]. destruct (negb (valid_at w i)); auto. cbn. f_equal. exact IH. }
  split. { subst its; clear; induction (w_order w) as [|i r IH]; auto; cbn [filter]; destruct (negb (valid_at w i)); auto. }
  split. { intros k. subst its. clear. unfold ended. induction (w_order w) as [|i r IH]; auto; cbn [filter]; destruct (negb (valid_at w i)); auto. }
  exact F.
Qed.

Lemma made_ends : forall k x, ends k x = true -> (exists f, x = IRead k (OsData [] f)) \/ exists d, In d (made x) /\ dl_to d = k /\ epipe d = true.
Proof.
  intros k x H. unfold ends in H. apply orb_prop in H. destruct H as [H|H].
  - left. unfold eofb in H. destruct x as [i o| | | | |]; try discriminate. destruct o as [[|]| |]; try discriminate. apply Nat.eqb_eq in H. subst. eauto.
  - right. apply existsb_exists in H. destruct H as (d & D & H). apply andb_prop in H. destruct H as [H1 H2]. apply Nat.eqb_eq in H1. eauto.
Qed.

Lemma lookup_lt : forall w k e, lookup w k = Some e -> (k < length (w_eps w))%nat.
Proof. intros w k e L. apply nth_error_Some. unfold lookup in L. destruct (nth_error (w_eps w) k); [discriminate|discriminate L]. Qed.

Lemma act_reads : forall f v w its w' i o, wf_table (v_tbl v) -> act f v w its w' -> Inv w -> In (IRead i o) its -> exists e, lookup w i = Some e.
Proof.
  intros f v w its w' i o WT A I X. destruct (act_shape _ _ _ _ _ WT A I) as [SH _]. destruct its as [|x r]; [destruct X|].
  destruct X as [->|X]. 2:{ destruct (SH _ _ _ eq_refl X) as [(? & ? & ? & ? & Q)|(? & Q)]; discriminate. } inversion A; subst; eauto.
  - exfalso. match goal with Y : handle_msg _ _ _ _ _ = _ |- _ => destruct (handle_inv _ _ _ _ _ _ _ Y) as (? & ? & ? & ? & _ & _ & _ & CC) end.
    destruct CC as [(_ & _ & X)|[(_ & _ & _ & X)|(_ & _ & ? & ? & ? & ? & ? & ? & ? & _ & _ & _ & _ & _ & X)]]; clear - X; discriminate.
  - exfalso. match goal with X : snd (tcp_connection _ _) = _ |- _ => rename X into H1 end. clear - H1. revert H1. unfold tcp_connection. destruct (ask v (w_sys w)) as [q y]. destruct (q <? 0); [discriminate|]. destruct (ask_bytes RXMAX v y), (add_fd v _ _). discriminate.
  - exfalso. match goal with X : timer_read _ _ _ _ _ = _ |- _ => rename X into H end. unfold timer_read in H. destruct (find_timer (w_sys w) t) as [tm|]; [|discriminate]. destruct (negb fired || tm_dead tm). { discriminate. } inv_bind H. inv_bind H. discriminate.
  - exfalso. match goal with X : process_hangups _ = _ |- _ => destruct (hangups_inv _ _ _ X I) as [(_ & _ & Q)|(_ & _ & _ & _ & _ & _ & _ & _)]; [discriminate|] end.
    match goal with X : process_hangups _ = _ |- _ => rename X into H end. unfold process_hangups in H. destruct (w_hang w); [|discriminate]. inv_bind H. inversion H; subst; clear H. destruct (hangups_spec _ _ _ _ _ E (inv_sym _ I)) as (_ & _ & _ & D & _).
    destruct (filter _ _); discriminate.
Qed.

Lemma news_made : forall k l, news l = [k] -> exists a b, l = a ++ INew k :: b.
Proof.
  induction l as [|x l IH]; intros H; [discriminate|]. unfold news in *. cbn [flat_map] in H. destruct x; cbn [app] in H; try (destruct (IH H) as (a & b & ->); eexists (_ :: a), b; reflexivity).
  exists [], l. cbn. congruence.
Qed.

(* the list of endpoints changes only when endpoints are removed or accepted *)
Lemma act_steady : forall f v w its w', wf_table (v_tbl v) -> act f v w its w' -> Inv w ->
  process_hangups w = Ok (w', its) \/ (its = snd (tcp_connection v w) /\ w' = fst (tcp_connection v w)) \/ steady its.
Proof.
  intros f v w its w' WT A I. destruct (act_routes _ _ _ _ _ WT A I) as (_ & _ & w2 & _ & _ & MS). inversion A; subst; auto; right; auto; right; try (split; reflexivity).
  - match goal with Y : handle_msg _ _ _ _ _ = _ |- _ => destruct (handle_inv _ _ _ _ _ _ _ Y) as (? & ? & ? & ? & _ & _ & _ & CC) end.
    destruct CC as [(_ & _ & X)|[(_ & _ & _ & X)|(_ & _ & ? & ? & ? & ? & ds & its' & ? & _ & _ & _ & _ & _ & X)]]; rewrite X; try (split; reflexivity).
    rewrite <- X. eapply MS; [rewrite X; left; reflexivity|]. left. eauto.
  - match goal with X : timer_read _ _ _ _ _ = _ |- _ => rename X into H end. unfold timer_read in H. destruct (find_timer (w_sys w) t) as [tm|]; [|discriminate]. destruct (negb fired || tm_dead tm) eqn:DD.
    { inversion H; subst. split; reflexivity. }
    inv_bind H. inv_bind H. inversion H; subst. clear H.
    match goal with E : run_cb _ _ _ _ = Ok (?wa, ?la, _) |- _ => rename wa into w3, la into its; pose proof (run_cb_ctls _ _ _ _ _ _ _ (inv_logs _ I) E) as CT end.
    assert (X : steady its). { apply ctl_steady. intros y Y. destruct (CT y Y) as (j & mm & dd & (bs & -> & _) & _). eauto 6. } destruct X as [X1 X2]. split; auto.
Qed.

Lemma life_retry : forall c h h' k e e' r r' vl vl', kind_life c h k e -> kind_life c h' k e' -> ep_kind e = KTcp r vl -> ep_kind e' = KTcp r' vl' -> r = r'.
Proof.
  intros c h h' k e e' r r' vl vl' A B K K'. unfold kind_life in A, B. rewrite K in A. rewrite K' in B. destruct A as [A _], B as [B _]. unfold tcp_conf in *.
  destruct (nth_error (confs c) k) eqn:N.
  - assert (X : (k < length (confs c))%nat) by (apply nth_error_Some; congruence). destruct A as [A|A], B as [B|B]; try lia. congruence.
  - destruct A as [A|A], B as [B|B]; try discriminate. lia.
Qed.

Lemma fate_act : forall f v c h w its w', wf_table (v_tbl v) -> act f v w its w' -> Inv w -> (exists arm, T v arm w) -> life c h w -> synced c h w -> fate c h w -> fate c (h ++ its) w'.
Proof.
  intros f v c h w its w' WT A I (arm & Tw) LF SY FA.
  destruct (act_routes _ _ _ _ _ WT A I) as ((O1 & O2 & O3 & O4 & O5 & O6) & _).
  assert (EN : forall k, ended its k = true -> exists e, lookup w k = Some e).
  { intros k E. apply existsb_exists in E. destruct E as (x & X & E). destruct (made_ends _ _ E) as [(fr & ->)|(d & D & <- & _)].
    - eapply act_reads; eauto.
    - destruct (act_made _ _ _ _ _ WT A I d) as (e & e' & L & _); eauto. apply in_flat_map. eauto. }
  assert (NW : forall k, In k (news its) -> k = length (w_eps w) /\ length (w_eps w') = Datatypes.S (length (w_eps w))).
  { intros k K. pose proof (O4 _ K). destruct (news its) as [|a [|b l]]; cbn in *; lia. }
  (* the endpoints this act removes *)
  assert (GN : forall k, In k (gone its) -> exists e r, lookup w k = Some e /\ ep_kind e = KTcp r false /\ r <= 0 /\ (group_of c k = [] -> lookup w' k = None)).
  { intros k K. assert (HU : process_hangups w = Ok (w', its)).
    { destruct (act_steady _ _ _ _ _ WT A I) as [X|[(X & _)|[_ X]]]; auto; exfalso; [|rewrite X in K; destruct K]. rewrite X in K. clear - K. revert K. unfold tcp_connection.
      destruct (ask v (w_sys w)) as [q y]. destruct (q <? 0); [intros []|]. destruct (ask_bytes RXMAX v y), (add_fd v _ _). intros []. }
    destruct (hangups_inv _ _ _ HU I) as [(_ & _ & ->)|(_ & _ & _ & _ & G & _ & _ & LK)]; [destruct K|]. rewrite G in K. apply filter_In in K. destruct K as [K V]. unfold valid_at in V.
    destruct (lookup w k) as [e|] eqn:L; [|discriminate]. unfold is_valid in V. destruct (ep_kind e) as [| |r vl|] eqn:KE; try discriminate. destruct vl; [discriminate|]. exists e, r. split; auto. split; auto.
    split. { pose proof (t_ep _ _ _ Tw _ _ L) as [_ X]. rewrite KE in X. apply X. auto. }
    intros GR. rewrite LK. assert (X : existsb (Nat.eqb k) (w_order w) = true). { apply existsb_exists. exists k. split; auto. apply Nat.eqb_refl. }
    assert (VA : valid_at w k = false) by (unfold valid_at; rewrite L; unfold is_valid; rewrite KE; auto).
    assert (HE : held w k = false).
    { destruct (held w k) eqn:HE; auto. unfold held in HE. apply existsb_exists in HE. destruct HE as (o & OI & HE). destruct o as [e2|]; [|discriminate]. apply existsb_exists in HE. destruct HE as (j & J & EJ). apply Nat.eqb_eq in EJ. subst j.
      apply In_nth_error in OI. destruct OI as (n & N). assert (L2 : lookup w n = Some e2) by (unfold lookup; rewrite N; auto). destruct (sy_ep _ _ _ SY _ _ L2) as (_ & M & _). apply M in J. destruct J as (_ & J1 & J2). congruence. }
    rewrite X, VA, HE. reflexivity. }
  split.
  - intros k E. rewrite ended_app in E. apply orb_prop in E. destruct E as [E|E]. { apply (fa_ends _ _ _ FA) in E. lia. }
    destruct (EN _ E) as (e & L). apply lookup_lt in L. lia.
  - intros k e' r vl L' K R. destruct (lookup w k) as [e|] eqn:L.
    + assert (LF' : life c (h ++ its) w') by (eapply life_act; eauto).
      assert (KT : exists r0 v0, ep_kind e = KTcp r0 v0). { destruct (act_there _ _ _ _ _ WT A I) as [HU|X].
        - destruct (hangups_inv _ _ _ HU I) as [(_ & -> & _)|(_ & _ & _ & _ & _ & _ & _ & LK)]. { exists r, vl. congruence. } rewrite LK in L'. destruct (_ && _ && _); [discriminate|]. exists r, vl. congruence.
        - destruct (X _ _ L) as (e2 & L2 & C). assert (e2 = e') by congruence. subst e2. rewrite K in C. destruct (ep_kind e); try contradiction; eauto. }
      destruct KT as (r0 & v0 & K0). assert (r0 = r) by (eapply life_retry; [apply (lf_kind _ _ _ LF _ _ L)|apply (lf_kind _ _ _ LF' _ _ L')|exact K0|exact K]). subst r0.
      pose proof (act_valid _ _ _ _ _ _ _ _ _ _ _ WT A I Tw L L' K0 R) as K1. pose proof (fa_tcp _ _ _ FA _ _ _ _ L K0 R) as Q. rewrite ended_app, negb_orb, <- Q. congruence.
    + destruct (act_fresh _ _ _ _ _ _ _ WT A I L' L) as (-> & KL & KK & _). assert (vl = true) by congruence. subst vl. rewrite ended_app. destruct (ended h k) eqn:E; auto. apply (fa_ends _ _ _ FA) in E. lia.
  - intros k K. rewrite gone_app in K. rewrite ended_app, news_app. apply in_app_or in K. destruct K as [K|K].
    + destruct (fa_gone _ _ _ FA _ K) as [E O]. rewrite E. split; auto. destruct O as [O|O]; auto. right. apply in_or_app. auto.
    + destruct (GN _ K) as (e & r & L & KE & R & _). pose proof (fa_tcp _ _ _ FA _ _ _ _ L KE R) as Q. destruct (ended h k); [|discriminate]. split; auto.
      pose proof (lf_kind _ _ _ LF _ _ L) as KL. unfold kind_life in KL. rewrite KE in KL. destruct KL as [[KL|[KL _]] _]; [left; eauto|]. right. apply in_or_app. left. apply (fa_all _ _ _ FA).
      destruct (sy_ep _ _ _ SY _ _ L) as (_ & _ & IL & _). split; [|eapply lookup_lt; eauto]. destruct (Nat.leb_spec (length (confs c) + loggers c) k); auto. exfalso.
      assert (X : is_logger c k) by (split; auto). apply IL in X. unfold is_log in X. rewrite KE in X. discriminate.
  - intros k Q L'. rewrite gone_app. apply in_or_app. destruct (Nat.ltb_spec k (length (w_eps w))) as [Z|Z].
    + destruct (lookup w k) as [e|] eqn:L; [|left; apply (fa_lost _ _ _ FA); auto]. right.
      destruct (act_there _ _ _ _ _ WT A I) as [HU|X]. 2:{ destruct (X _ _ L) as (e' & Y & _). congruence. }
      destruct (hangups_inv _ _ _ HU I) as [(_ & -> & _)|(_ & _ & _ & _ & G & _ & _ & LK)]; [congruence|]. rewrite G. rewrite LK in L'. apply filter_In.
      destruct (existsb (Nat.eqb k) (w_order w)) eqn:X; cbn [andb] in L'; [|congruence]. destruct (negb (valid_at w k)); cbn [andb] in L'; [|congruence]. split; auto. apply existsb_exists in X. destruct X as (j & J & EJ). apply Nat.eqb_eq in EJ. congruence.
    + exfalso. assert (NN : exists n, news its = [n]). { destruct (news its) as [|a [|b l]]; cbn in *; try lia. eauto. } destruct NN as (n & NN). destruct (NW n) as [N1 N2]. { rewrite NN. left. auto. } assert (k = n) by lia. subst k.
      destruct (act_steady _ _ _ _ _ WT A I) as [X|[(X & X2)|[X _]]].
      * destruct (hangups_inv _ _ _ X I) as [(_ & _ & Y)|(_ & _ & _ & _ & _ & Y & _)]; rewrite Y in NN; discriminate.
      * rewrite X in NN. rewrite X2 in L'. clear - NN L'. revert NN L'. unfold tcp_connection. destruct (ask v (w_sys w)) as [q y]. destruct (q <? 0); [intros; discriminate|]. destruct (ask_bytes RXMAX v y), (add_fd v _ _). intros NN. injection NN as <-.
        unfold lookup. cbn [fst w_eps set_order set_eps]. rewrite nth_error_app2, Nat.sub_diag by auto. discriminate.
      * rewrite X in NN. discriminate.
  - intros k K GR. rewrite gone_app in K. apply in_app_or in K. destruct K as [K|K].
    + pose proof (fa_dead _ _ _ FA _ K GR) as L. pose proof (sy_gone _ _ _ SY _ K). destruct (lookup w' k) as [e'|] eqn:L'; auto. destruct (act_fresh _ _ _ _ _ _ _ WT A I L' L) as (_ & KL & _). lia.
    + destruct (GN _ K) as (e & r & _ & _ & _ & D). auto.
  - intros k. rewrite news_app, in_app_iff, <- (fa_all _ _ _ FA). pose proof (sy_len _ _ _ SY). split.
    + intros [Q1 Q2]. destruct (Nat.ltb_spec k (length (w_eps w))) as [Z|Z]; [left; lia|]. right.
      assert (NN : exists n, news its = [n]). { destruct (news its) as [|a [|b l]]; cbn in *; try lia. eauto. } destruct NN as (n & NN). rewrite NN. left. destruct (NW n) as [N1 N2]. { rewrite NN. left. auto. } lia.
    + intros [Q|Q]; [lia|]. apply NW in Q. lia.
Qed.

(* ---- the whole run ------------------------------------------------------------------------------------------------------- *)

Record story (v : env) (c : config) (h : list item) (w : world) : Prop := mkStory {
  so_inv : Inv w;
  so_T : exists arm, T v arm w;
  so_life : life c h w;
  so_sync : synced c h w;
  so_fate : fate c h w }.

Lemma story_act : forall f v c h w its w', wf_table (v_tbl v) -> act f v w its w' -> story v c h w -> story v c (h ++ its) w'.
Proof.
  intros f v c h w its w' WT A [I Tw LF SY FA]. split.
  - eapply inv_act; eauto.
  - destruct Tw as (arm & Tw). destruct (act_T f v w its w' WT A I) as [_ Q]. eexists. apply (Q _ Tw).
  - eapply life_act; eauto.
  - eapply synced_act; eauto.
  - eapply fate_act; eauto.
Qed.
Lemma story_acts : forall f v c w its w', wf_table (v_tbl v) -> acts f v w its w' -> forall h, story v c h w -> story v c (h ++ its) w'.
Proof. intros f v c w its w' WT A. induction A; intros h S. { rewrite app_nil_r. auto. } rewrite app_assoc. apply IHA. eapply story_act; eauto. Qed.
Lemma story_start : forall v d pos c w, start v (boot d pos) c = Some w -> story v c [] w.
Proof.
  intros v d pos c w S. split.
  - eapply inv_start; eauto.
  - eexists. eapply start_T; eauto.
  - eapply life_start; eauto.
  - eapply synced_start; eauto.
  - eapply fate_start; eauto.
Qed.

(* an endpoint that became invalid is on its way out *)
Definition jok (S : nat -> bool) (w : world) : Prop :=
  forall k e, In k (w_order w) -> lookup w k = Some e -> is_valid e = false -> w_hang w = true \/ S k = true.

Lemma act_tcp : forall f v c h w its w' k e e' r vl, wf_table (v_tbl v) -> act f v w its w' -> story v c h w -> lookup w k = Some e -> lookup w' k = Some e' -> ep_kind e' = KTcp r vl ->
  exists vl0, ep_kind e = KTcp r vl0.
Proof.
  intros f v c h w its w' k e e' r vl WT A SO L L' K. pose proof (story_act _ _ _ _ _ _ _ WT A SO) as SO'. pose proof (so_inv _ _ _ _ SO) as I.
  assert (KT : exists r0 v0, ep_kind e = KTcp r0 v0).
  { destruct (act_there _ _ _ _ _ WT A I) as [HU|X].
    - destruct (hangups_inv _ _ _ HU I) as [(_ & -> & _)|(_ & _ & _ & _ & _ & _ & _ & LK)]. { exists r, vl. congruence. } rewrite LK in L'. destruct (_ && _ && _); [discriminate|]. exists r, vl. congruence.
    - destruct (X _ _ L) as (e2 & L2 & C). assert (e2 = e') by congruence. subst e2. rewrite K in C. destruct (ep_kind e); try contradiction; eauto. }
  destruct KT as (r0 & v0 & K0). exists v0. assert (r0 = r); [|congruence]. eapply life_retry; [apply (lf_kind _ _ _ (so_life _ _ _ _ SO) _ _ L)|apply (lf_kind _ _ _ (so_life _ _ _ _ SO') _ _ L')|exact K0|exact K].
Qed.

Lemma jok_act : forall f v c h w its w' S, wf_table (v_tbl v) -> act f v w its w' -> story v c h w -> jok S w -> jok (fun k => S k || existsb (eofb k) its) w'.
Proof.
  intros f v c h w its w' S WT A SO J k e' O L' V. pose proof (story_act _ _ _ _ _ _ _ WT A SO) as SO'. pose proof SO as SO0. destruct SO as [I (arm & Tw) LF SY FA].
  destruct (act_routes _ _ _ _ _ WT A I) as ((O1 & O2 & O3 & O4 & O5 & O6) & _). pose proof O as O'. rewrite O1 in O. apply filter_In in O. destruct O as [O _].
  destruct (act_flags _ _ _ _ _ WT A I) as [HU|[F1 F2]].
  { destruct (hangups_inv _ _ _ HU I) as [(H0 & -> & ->)|(_ & _ & _ & OR & G & N & _ & LK)].
    - cbn [existsb]. apply in_app_or in O. destruct O as [O|[]]. destruct (J _ _ O L' V) as [X|X]; [congruence|]. rewrite X. auto.
    - exfalso. rewrite OR in O'. apply filter_In in O'. destruct O' as [_ VA]. rewrite LK in L'. destruct (_ && _ && _); [discriminate|]. unfold valid_at in VA. rewrite L' in VA. congruence. }
  assert (KE : exists r, ep_kind e' = KTcp r false). { unfold is_valid in V. destruct (ep_kind e') as [| |r vl|]; try discriminate. subst vl. eauto. } destruct KE as (r & KE).
  assert (R : r <= 0). { destruct (so_T _ _ _ _ SO') as (arm' & T'). pose proof (t_ep _ _ _ T' _ _ L') as [_ X]. rewrite KE in X. apply X. auto. }
  destruct (lookup w k) as [e|] eqn:L. 2:{ destruct (act_fresh _ _ _ _ _ _ _ WT A I L' L) as (_ & _ & KK & _). congruence. }
  destruct (act_tcp _ _ _ _ _ _ _ _ _ _ _ _ WT A SO0 L L' KE) as (v0 & K0).
  pose proof (act_valid _ _ _ _ _ _ _ _ _ _ _ WT A I Tw L L' K0 R) as K1. rewrite KE in K1. assert (Q : false = v0 && negb (ended its k)) by congruence. destruct v0; cbn [andb] in Q.
  - rewrite ended_split in Q. destruct (existsb (eofb k) its) eqn:EO. { right. apply orb_true_r. } left. cbn [orb] in Q. destruct (existsb epipe (sends its k)) eqn:EP; [|discriminate].
    apply existsb_exists in EP. destruct EP as (d & D & E). unfold sends, tok in D. apply filter_In in D. destruct D as [D DT]. apply Nat.eqb_eq in DT. apply (F2 d D E). exists e, r, true. rewrite DT. auto.
  - assert (OW : In k (w_order w)). { apply in_app_or in O. destruct O as [O|O]; auto. apply O4 in O. apply lookup_lt in L. lia. }
    destruct (J _ _ OW L) as [X|X]; [|left; auto|right; rewrite X; auto]. unfold is_valid. rewrite K0. auto.
Qed.
Lemma jok_ext : forall S S' w, (forall k, S k = true -> S' k = true) -> jok S w -> jok S' w.
Proof. intros S S' w E J k e O L V. destruct (J _ _ O L V); auto. Qed.
Lemma jok_acts : forall f v c w its w', wf_table (v_tbl v) -> acts f v w its w' -> forall h S, story v c h w -> jok S w -> jok (fun k => S k || existsb (eofb k) its) w'.
Proof.
  intros f v c w its w' WT A. induction A; intros h S SO J. { eapply jok_ext; [|exact J]. intros k X. rewrite X. auto. }
  pose proof (jok_act _ _ _ _ _ _ _ _ WT H SO J) as J1. pose proof (story_act _ _ _ _ _ _ _ WT H SO) as S1. eapply jok_ext; [|eapply IHA; eauto]. intros k X. cbn beta in X. rewrite existsb_app, orb_assoc. auto.
Qed.

(* a loop over received packets reads nothing *)
Lemma loop_eof : forall f v n w i rr w' its r k, wf_table (v_tbl v) -> read_loop n f v w i rr = Ok (w', its, r) -> wf_rd rr -> Inv w -> existsb (eofb k) its = false.
Proof.
  intros f v. induction n; intros w i rr w' its r k WT H W I; [discriminate|]. cbn [read_loop] in H. inv_bind H. apply get_lookup in E. rename a into e.
  destruct (ep_fd e) eqn:F; cbn [negb] in H. 2:{ inversion H; subst. auto. }
  inv_bind H. match type of H with context [match ?q with RetNone _ => _ | RetMsg _ _ => _ end] => destruct q as [rq|known mq] end.
  - inversion H; subst. auto.
  - inv_bind H. inv_bind H. inv_bind H. inversion H; subst. rewrite existsb_app.
    match goal with X : handle_msg _ _ _ _ _ = Ok (?w2, ?l) |- _ => assert (A : act f v w l w2) by (eapply a_recv; eauto); pose proof X as HM end.
    destruct (act_shape _ _ _ _ _ WT A I) as [SH _]. apply orb_false_intro.
    + destruct (handle_inv _ _ _ _ _ _ _ HM) as (? & ? & ? & ? & _ & _ & _ & CC).
      destruct CC as [(_ & _ & ->)|[(_ & _ & _ & ->)|(_ & _ & ? & ? & ? & ? & ? & l' & ? & _ & _ & _ & _ & _ & ->)]]; auto.
      cbn [existsb eofb orb]. apply quiet_eof. apply Forall_forall. intros y Y. eapply SH; eauto.
    + match goal with X : read_loop _ _ _ _ _ _ = _ |- _ => eapply IHn; [exact WT|exact X|exact Logic.I|] end. eapply inv_act; eauto.
Qed.

(* what handle_read reports when it saw the end of the connection *)
Lemma read_eof : forall f v w i o w' its r k e, wf_table (v_tbl v) -> handle_read f v w i o = Ok (w', its, r) -> wf_read o -> Inv w -> existsb (eofb k) its = true -> lookup w i = Some e ->
  k = i /\ (is_tcp e = true -> r < 0).
Proof.
  intros f v w i o w' its r k e WT H W I X L. unfold handle_read in H. inv_bind H. apply get_lookup in E. assert (a = e) by congruence. subst a. clear E.
  destruct (ep_fd e) eqn:F; cbn [negb] in H. 2:{ inversion H; subst. discriminate. }
  destruct (needs_read (ep_rx e)) eqn:NR. 2:{ rewrite (loop_eof _ _ _ _ _ _ _ _ _ k WT H Logic.I I) in X. discriminate. }
  inv_bind H. match goal with Y : os_read _ _ _ _ _ = Ok (?q, ?p) |- _ => rename Y into OS; rename q into w1; rename p into rr end. pose proof (os_read_wf _ _ _ _ _ _ _ OS W) as WR.
  assert (I1 : Inv w1). { eapply (inv_act f); [exact WT|eapply a_read; eauto|auto]. }
  assert (EO : eofb k (IRead i o) = true).
  { destruct rr; [inv_bind H|]; inversion H; subst; cbn [existsb] in X; apply orb_prop in X; destruct X as [X|X]; auto; [|discriminate].
    match goal with Y : read_loop _ _ _ _ _ _ = _ |- _ => rewrite (loop_eof _ _ _ _ _ _ _ _ _ k WT Y WR I1) in X; discriminate X end. }
  unfold eofb in EO. destruct o as [[|b bs] from| |n]; try discriminate. apply Nat.eqb_eq in EO. split; auto. intros TC. unfold is_tcp in TC. cbn [os_read] in OS. destruct (ep_kind e) eqn:K; try discriminate.
  rewrite (rx_room _ (i_rx _ I _ _ L) NR) in OS. destruct (tcp_lost _ _ _ _ _). inversion OS; subst. inversion H; subst. lia.
Qed.

Definition none : nat -> bool := fun _ => false.
Lemma jok_plain : forall f v c w its w' h, wf_table (v_tbl v) -> acts f v w its w' -> story v c h w -> jok none w -> (forall k, existsb (eofb k) its = false) -> jok none w'.
Proof. intros f v c w its w' h WT A SO J N. eapply jok_ext; [|eapply jok_acts; eauto]. cbn beta. intros k X. rewrite N in X. auto. Qed.

Lemma event_jok : forall f v c h w ev w' its, wf_table (v_tbl v) -> handle_event f v w ev = Ok (w', its) -> wf_ev ev -> story v c h w -> jok none w -> jok none w'.
Proof.
  intros f v c h w ev w' its WT H W SO J. pose proof (handle_event_acts _ _ _ _ _ _ H W) as A. pose proof (so_inv _ _ _ _ SO) as I. destruct ev as [|i rd out err|t fired err|]; cbn [handle_event] in H.
  - eapply jok_plain; eauto. assert (Z : tcp_connection v w = (w', its)) by congruence. replace its with (snd (tcp_connection v w)) by (rewrite Z; auto). clear. intros k. unfold tcp_connection.
    destruct (ask v (w_sys w)) as [q y]. destruct (q <? 0); auto. 
  - inv_bind H. inv_bind H. inv_bind H. inv_bind H.
    match goal with X : get w i = Ok ?q |- _ => rename X into G0; rename q into e0; apply get_lookup in G0 end.
    match goal with X : (match rd with None => _ | Some _ => _ end) = Ok (?q, _) |- _ => rename X into E0; rename q into w1 end.
    match goal with X : get w1 i = Ok ?q |- _ => rename X into G1; rename q into e1; apply get_lookup in G1 end.
    assert (A1 : exists its1, acts f v w its1 w1 /\ jok none w1).
    { destruct rd as [o|]. 2:{ inversion E0; subst. exists []. split; auto. constructor. } inv_bind E0. inv_bind E0.
      match goal with X : handle_read _ _ _ _ _ = Ok (?a, ?b, ?c) |- _ => rename X into HR; rename a into w2; rename b into its2; rename c into r2 end.
      match goal with X : get w2 i = Ok ?q |- _ => rename X into G2; rename q into e2; apply get_lookup in G2 end.
      pose proof (handle_read_acts _ _ _ _ _ _ _ _ HR W) as A2. pose proof (jok_acts _ _ _ _ _ _ WT A2 _ _ SO J) as J2. cbn [none orb] in J2.
      injection E0 as EQ1 EQ2. exists its2. split. { subst w1. eapply acts_app_nil; [exact A2|]. destruct (_ && _); [apply acts_one, a_hang|constructor]. }
      intros k e O L V. assert (O' : In k (w_order w2)) by (subst w1; destruct (_ && _); auto). assert (L' : lookup w2 k = Some e) by (subst w1; destruct (_ && _); auto). destruct (J2 _ _ O' L' V) as [X|X].
      { left. subst w1. destruct (_ && _); auto. }
      destruct (read_eof _ _ _ _ _ _ _ _ _ _ WT HR W I X G0) as [-> Q]. left. assert (e2 = e) by congruence. subst e2.
      destruct (stays_read _ _ _ _ _ _ _ _ HR) as [[_ S] _]. destruct (S _ _ G0) as (e3 & L3 & C). assert (e3 = e) by congruence. subst e3. apply class_tcp in C.
      assert (TC : is_tcp e = true). { unfold is_valid in V. unfold is_tcp. destruct (ep_kind e); auto; discriminate. }
      rewrite <- EQ1, V. assert (R2 : r2 < 0) by (apply Q; congruence). rewrite (proj2 (Z.ltb_lt _ _) R2). reflexivity. }
    destruct A1 as (its1 & A1 & J1). pose proof (story_acts _ _ _ _ _ _ WT A1 _ SO) as S1.
    injection H as HQ1 HQ2. assert (A3 : acts f v w1 [] w').
    { rewrite <- HQ1. clear HQ1 HQ2. destruct out.
      + destruct (mod_fd v (w_sys w1) e1 false) as [[y2 e2] q] eqn:M. rewrite <- (app_nil_r []). eapply acts_app; [apply acts_one; eapply a_out; eauto|].
        destruct (_ && _); [apply acts_one, a_exit|constructor].
      + destruct (_ && _); [apply acts_one, a_exit|constructor]. }
    eapply jok_plain; eauto.
  - eapply jok_plain; eauto. inv_bind H. inversion H; subst. intros k. match goal with X : timer_read _ _ _ _ _ = _ |- _ => rename X into TR end.
    destruct (act_shape _ _ _ _ _ WT (a_timer _ _ _ _ _ _ _ TR) I) as [SH _]. clear - TR SH. unfold timer_read in TR. destruct (find_timer (w_sys w) t) as [tm|]; [|discriminate]. destruct (negb fired || tm_dead tm).
    { inversion TR; subst. auto. } inv_bind TR. inv_bind TR. inversion TR; subst. cbn [existsb eofb orb]. apply quiet_eof. apply Forall_forall. intros y Y. eapply SH; eauto.
  - inversion H; subst. exact J.
Qed.

Lemma events_jok : forall f v c evs h w w' its, wf_table (v_tbl v) -> handle_events f v w evs = Ok (w', its) -> Forall wf_ev evs -> story v c h w -> jok none w -> jok none w' /\ story v c (h ++ its) w'.
Proof.
  intros f v c. induction evs as [|e r IH]; intros h w w' its WT H F SO J; cbn [handle_events] in H.
  - inversion H; subst. rewrite app_nil_r. auto.
  - inversion F; subst. inv_bind H. inv_bind H. inversion H; subst. rewrite app_assoc.
    match goal with X : handle_event _ _ _ _ = _ |- _ => pose proof (event_jok _ _ _ _ _ _ _ _ WT X ltac:(assumption) SO J) as J1; apply handle_event_acts in X; auto; pose proof (story_acts _ _ _ _ _ _ WT X _ SO) as S1 end.
    eapply IH; eauto.
Qed.

(* between two batches of events every endpoint messages are offered to is valid *)
Lemma settled_runs : forall f v c its w, wf_table (v_tbl v) -> runs f v c its w -> story v c its w /\ w_hang w = false /\ forall k e, In k (w_order w) -> lookup w k = Some e -> is_valid e = true.
Proof.
  intros f v c its w WT (d & pos & w0 & S & E). 
  assert (X : story v c its w /\ w_hang w = false /\ jok none w).
  { induction E as [|its w evs its' w' E IH X W ST].
    - pose proof (story_start _ _ _ _ _ S) as SO. split; auto. destruct (start_shape _ _ _ _ S) as (es & ls & F & LF & EP & OR & _ & SN & HG & _). split; auto.
      intros k e O L V. exfalso. unfold is_valid in V. destruct (ep_kind e) as [| |r vl|] eqn:K; try discriminate. subst vl. destruct (so_T _ _ _ _ SO) as (arm & Tw). pose proof (t_ep _ _ _ Tw _ _ L) as [_ Q]. rewrite K in Q.
      pose proof (fa_tcp _ _ _ (so_fate _ _ _ _ SO) _ _ _ _ L K (proj1 Q eq_refl)). discriminate.
    - destruct IH as (SO & HG & J). unfold step in ST. inv_bind ST. inv_bind ST. inversion ST; subst; clear ST.
      match goal with X : handle_events _ _ _ _ = Ok (?a, ?b) |- _ => rename X into HE; rename a into w1; rename b into its1 end. match goal with X : process_hangups _ = Ok (?a, ?b) |- _ => rename X into PH; rename a into w2; rename b into its2 end.
      assert (WE : Forall wf_ev evs). { eapply Forall_impl; [|eauto]. intros ev [_ Y]. destruct ev as [|? [?|] ? ?| |]; exact Y || exact Logic.I. }
      destruct (events_jok _ _ _ _ _ _ _ _ WT HE WE SO J) as [J1 S1]. pose proof (jok_act _ _ _ _ _ _ _ _ WT (a_hangups f _ _ _ _ PH) S1 J1) as J2. pose proof (story_act _ _ _ _ _ _ _ WT (a_hangups f _ _ _ _ PH) S1) as S2.
      pose proof (story_act _ _ _ _ _ _ _ WT (a_sweep f v w2) S2) as S3. rewrite app_nil_r, <- app_assoc in S3. split; auto.
      assert (HF : w_hang w2 = false). { destruct (hangups_inv _ _ _ PH (so_inv _ _ _ _ S1)) as [(Q & -> & _)|(_ & Q & _)]; auto. } split; [exact HF|].
      intros k e O L V. destruct (J2 k e O L V) as [Y|Y]; auto. right. cbn [none orb] in Y. rewrite <- Y. symmetry. destruct (existsb (eofb k) its2) eqn:EX; auto. exfalso.
      destruct (hangups_inv _ _ _ PH (so_inv _ _ _ _ S1)) as [(_ & _ & ->)|(_ & _ & _ & _ & _ & _ & N & _)]; [discriminate|]. pose proof (N k) as Z. rewrite ended_split, EX in Z. discriminate. }
  destruct X as (X & Y & J). split; auto. split; auto. intros k e O L. destruct (is_valid e) eqn:V; auto. destruct (J _ _ O L V) as [Z|Z]; [congruence|discriminate].
Qed.
