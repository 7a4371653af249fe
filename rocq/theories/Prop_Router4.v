(* C25, C29, C30, C31 over every configuration and every run of the router: de-duplication across links, removal of TCP
   endpoints. *)
From Verif Require Import Base Mav SpecCrc SpecFrame Frame FrameProofs FrameLink Dedup DedupProofs SpecAccept Accept AcceptProofs Names NamesProofs Sys LogFile LogFileProofs ULog Loggers LogInv LogStep LogMono
  RouterCtl Router RouterRoute RouterRoute2 RouterSetup RouterActs RouterInv RouterLearn RouterStep RouterStart RouterHist SpecRouter SpecLife RouterTrace
  RouterLife RouterLife2 RouterLife3 RouterLife4 RouterTimers RouterTimers2 RouterLife5 RouterStays SpecEnd RouterEnd RouterEnd2 RouterDedup Prop_Dedup ExFrame ExRouter.

(* ---- C31 ------------------------------------------------------------------------------------------------------------ *)

(* endpoint k exists for one connection only: an accepted client, or a configured TCP client without reconnect interval *)
Definition one_connection (c : config) (h : list item) (k : nat) : Prop :=
  In k (news h) \/ exists r, tcp_conf c k = Some r /\ r <= 0.

Lemma memb_in : forall l i, memb l i = true <-> In i l.
Proof.
  intros l i. unfold memb. rewrite existsb_exists. split.
  - intros (x & A & B). apply Nat.eqb_eq in B. subst. auto.
  - intros A. exists i. split; auto. apply Nat.eqb_refl.
Qed.
Lemma open_in : forall c h k, In k (open_after c h) <-> ((k < length (confs c) + loggers c)%nat \/ In k (news h)) /\ ~ In k (gone h).
Proof.
  intros c h k. unfold open_after. rewrite filter_In, in_app_iff, in_seq, negb_true_iff, <- (memb_in (gone h)). split; intros [A B]; (split; [destruct A; [left; lia|right; auto]|destruct (memb (gone h) k); solve [congruence|intros X; discriminate|exfalso; auto|reflexivity]]).
Qed.
Lemma conf_lt : forall c k r, tcp_conf c k = Some r -> (k < length (confs c))%nat.
Proof. intros c k r H. unfold tcp_conf in H. destruct (nth_error (confs c) k) eqn:N; [|discriminate]. apply nth_error_Some. congruence. Qed.

(* the connection ended: removed by the end of the iteration in which that happened (runs are whole iterations) *)
Theorem C31_removed : forall f v c its w k, wf_table (v_tbl v) -> runs f v c its w ->
  one_connection c its k -> ended its k = true ->
  ~ In k (open_after c its) /\ In k (gone its) /\ (group_of c k = [] -> lookup w k = None).
Proof.
  intros f v c its w k WT R O E. destruct (settled_runs _ _ _ _ _ WT R) as ([I (arm & Tw) LF SY FA] & HG & VA).
  assert (B : (k < length (confs c) + loggers c)%nat \/ In k (news its)). { destruct O as [O|(r & O & _)]; auto. apply conf_lt in O. left. lia. }
  assert (N : ~ In k (open_after c its)).
  { intros P. pose proof P as Q. rewrite <- (sy_order _ _ _ SY) in Q. apply open_in in P. destruct P as [_ P].
    destruct (lookup w k) as [e|] eqn:L. 2:{ apply P. apply (fa_lost _ _ _ FA); auto. apply (fa_ends _ _ _ FA); auto. }
    pose proof (VA _ _ Q L) as V. pose proof (lf_kind _ _ _ LF _ _ L) as KL. unfold kind_life in KL. unfold is_valid in V.
    assert (H1 : forall r vl, ep_kind e = KTcp r vl -> r <= 0).
    { intros r vl K. rewrite K in KL. destruct KL as [KL _]. destruct O as [O|(r' & O & Z)].
      - apply (fa_all _ _ _ FA) in O. destruct KL as [KL|[_ KL]]; [apply conf_lt in KL|]; lia.
      - destruct KL as [KL|[KL _]]; [congruence|]. apply conf_lt in O. lia. }
    destruct (ep_kind e) as [b cu t|cf pe t|r vl|lo] eqn:K.
    - destruct O as [O|(r' & O & Z)]. { apply (fa_all _ _ _ FA) in O. destruct KL as [KL _]. unfold uart_conf in KL. destruct (nth_error (confs c) k) eqn:X; [|discriminate]. assert (k < length (confs c))%nat by (apply nth_error_Some; congruence). lia. }
      destruct KL as [KL _]. unfold uart_conf in KL. unfold tcp_conf in O. destruct (nth_error (confs c) k); [|discriminate]. destruct (ec_kind e0); discriminate.
    - destruct KL as (s & KL & _). unfold udp_conf in KL. destruct O as [O|(r' & O & Z)].
      { apply (fa_all _ _ _ FA) in O. destruct (nth_error (confs c) k) eqn:X; [|discriminate]. assert (k < length (confs c))%nat by (apply nth_error_Some; congruence). lia. }
      unfold tcp_conf in O. destruct (nth_error (confs c) k); [|discriminate]. destruct (ec_kind e0); discriminate.
    - specialize (H1 r vl eq_refl). pose proof (fa_tcp _ _ _ FA _ _ _ _ L K H1) as X. rewrite E in X. subst vl. discriminate.
    - destruct O as [O|(r' & O & Z)]; [|apply conf_lt in O; lia]. apply (fa_all _ _ _ FA) in O. destruct (sy_ep _ _ _ SY _ _ L) as (_ & _ & IL & _). unfold is_log in IL. rewrite K in IL. destruct IL as [IL _]. specialize (IL eq_refl). unfold is_logger in IL. lia. }
  assert (G : In k (gone its)). { destruct (memb (gone its) k) eqn:M; [apply memb_in; auto|]. exfalso. apply N. apply open_in. split; auto. intros X. apply memb_in in X. congruence. }
  split; auto. split; auto. intros GR. apply (fa_dead _ _ _ FA); auto.
Qed.

(* nothing else is removed *)
Theorem C31_only : forall f v c its w k, wf_table (v_tbl v) -> runs f v c its w -> In k (gone its) -> one_connection c its k /\ ended its k = true.
Proof.
  intros f v c its w k WT R G. destruct (settled_runs _ _ _ _ _ WT R) as ([I (arm & Tw) LF SY FA] & HG & VA).
  destruct (fa_gone _ _ _ FA _ G) as (E & O). split; auto. unfold one_connection. tauto.
Qed.
Theorem C31_kept : forall f v c its w k, wf_table (v_tbl v) -> runs f v c its w ->
  (k < length (confs c) + loggers c)%nat \/ In k (news its) -> ~ (one_connection c its k /\ ended its k = true) ->
  In k (open_after c its) /\ exists e, lookup w k = Some e.
Proof.
  intros f v c its w k WT R B N. destruct (settled_runs _ _ _ _ _ WT R) as ([I (arm & Tw) LF SY FA] & HG & VA).
  assert (G : ~ In k (gone its)) by (intros G; apply N; eapply C31_only; eauto). split. { apply open_in. auto. }
  destruct (lookup w k) as [e|] eqn:L; [eauto|]. exfalso. apply G. apply (fa_lost _ _ _ FA); auto.
  destruct B as [B|B]; [pose proof (sy_len _ _ _ SY); lia|]. apply (fa_all _ _ _ FA) in B. lia.
Qed.
(* a TCP endpoint with a reconnect interval, a UART, a UDP endpoint, a logger *)
Corollary C31_others_kept : forall f v c its w k, wf_table (v_tbl v) -> runs f v c its w -> (k < length (confs c) + loggers c)%nat ->
  (forall r, tcp_conf c k = Some r -> 0 < r) -> In k (open_after c its) /\ exists e, lookup w k = Some e.
Proof.
  intros f v c its w k WT R B N. eapply C31_kept; eauto. intros [[O|(r & O & Z)] _].
  - destruct (settled_runs _ _ _ _ _ WT R) as ([I (arm & Tw) LF SY FA] & HG & VA). apply (fa_all _ _ _ FA) in O. lia.
  - specialize (N r O). lia.
Qed.

(* endpoint 0: TCP with reconnect interval; 1: TCP without; 2 and 3 accepted.  0 and 2 read end of file; a message from 3 fails with
   EPIPE on 1 *)
Definition rm_conf : config := mkCf [] [] [mkEc (CTcp 5 5760) true no_filters []; mkEc (CTcp 0 5761) true no_filters []] 5790 None 0 false 0.
Definition rm_events : list (list event) :=
  [[EServer]; [EServer]; [EEp 0 (Some (OsData [] (0, 0))) false false; EEp 2 (Some (OsData [] (0, 0))) false false]; [rx_from 3 (0, 0) (rx_hb 1 1 0)]].

Example C31_nonvacuous : exists w its, runs 9 (rx_env [(4492%nat, - EPIPE)]) rm_conf its w /\ wf_table (v_tbl (rx_env [(4492%nat, - EPIPE)])) /\
  (one_connection rm_conf its 2 /\ ended its 2 = true) /\ (one_connection rm_conf its 1 /\ ended its 1 = true) /\
  (ended its 0 = true /\ tcp_conf rm_conf 0 = Some 5) /\ (one_connection rm_conf its 3 /\ ended its 3 = false) /\ open_after rm_conf its = [0; 3]%nat.
Proof.
  destruct (view_runs _ (fun w its => (map (ended its) [0; 1; 2; 3]%nat, news its, open_after rm_conf its)) ([true; true; true; false], [2; 3]%nat, [0; 3]%nat)
    9 (rx_env [(4492%nat, - EPIPE)]) (Some []) rm_conf rm_events) as (w & its & R & X). { vm_compute. reflexivity. }
  injection X as X0 X1 X2 X3 X4 X5. exists w, its. split; [exact R|]. split; [apply rx_tbl_wf|]. unfold one_connection. rewrite X4.
  repeat split; auto. { left; left; auto. } { right. exists 0. split; [reflexivity|lia]. } { left; right; left; auto. }
Qed.

(* ---- C25, C29, C30: de-duplication across the links ----------------------------------------------------------------- *)

(* the packets received, in order *)
Definition received (h : list item) : list (nat * list Z * minfo * verdict) :=
  flat_map (fun x => match x with IRecv i bs m d _ => [(i, bs, m, d)] | _ => [] end) h.
Definition dup (d : verdict) : bool := match d with Duplicate => true | _ => false end.
Definition bytes_of (r : nat * list Z * minfo * verdict) : list Z := snd (fst (fst r)).
Definition verdict_of (r : nat * list Z * minfo * verdict) : verdict := snd r.

Lemma received_app : forall a b, received (a ++ b) = received a ++ received b.
Proof. intros. apply flat_map_app. Qed.
Lemma received_packets : forall h, packets h = map (fun r => (bytes_of r, negb (dup (verdict_of r)))) (received h).
Proof. induction h as [|x h IH]; auto. unfold packets, received in *. cbn [flat_map]. rewrite IH, map_app. f_equal. destruct x; auto. cbn. match goal with |- context [match ?q with Duplicate => _ | _ => _ end] => destruct q end; auto. Qed.
Lemma received_in : forall h i bs m d, In (i, bs, m, d) (received h) <-> exists ds, In (IRecv i bs m d ds) h.
Proof.
  intros h i bs m d. unfold received. rewrite in_flat_map. split.
  - intros (x & X & Y). destruct x; cbn in Y; try contradiction. destruct Y as [Y|[]]. inversion Y; subst. eauto.
  - intros (ds & X). eexists. split; [exact X|]. left. auto.
Qed.

Lemma erase_sub : forall h s s', set_erase h s = Ok s' -> forall x, In x s' -> In x s.
Proof.
  induction s as [|a s IH]; intros s' H x X; cbn [set_erase] in H; [discriminate|]. destruct (h =? a). { inversion H; subst. right; auto. }
  inv_bind H. inversion H; subst. destruct X as [X|X]; [left; auto|right; eauto].
Qed.
Lemma expire_sub : forall ts p q s q' s', expire ts p q s = Ok (q', s') -> forall x, In x s' -> In x s.
Proof.
  induction q as [|[t h] q IH]; intros s q' s' H x X; cbn [expire] in H. { inversion H; subst; auto. }
  destruct (_ <? _); [|inversion H; subst; auto]. inv_bind H. eapply erase_sub; eauto.
Qed.
(* what the detector reports as duplicate has the hash of a packet it let through before *)
Lemma run_source : forall hash evs d d' oks, dedup_run hash d evs = Ok (d', oks) ->
  forall i t m, nth_error evs i = Some (t, m) -> nth_error oks i = Some false ->
  In (hash m) (dd_set d) \/ exists j t' m', (j < i)%nat /\ nth_error evs j = Some (t', m') /\ nth_error oks j = Some true /\ hash m' = hash m.
Proof.
  intros hash. induction evs as [|[now msg] evs IH]; intros d d' oks H i t m N O; [destruct i; discriminate|]. cbn [dedup_run] in H. inv_bind H. inv_bind H.
  match goal with X : dedup_check _ _ _ _ = Ok (?p, ?q) |- _ => rename X into C; rename p into dN; rename q into okN end.
  match goal with X : dedup_run _ _ _ = Ok (?p, ?q) |- _ => rename X into RR; rename q into oks1 end. inversion H; subst; clear H.
  unfold dedup_check in C. destruct (dd_period d =? 0) eqn:P0.
  { inversion C; subst. destruct i as [|i]; [cbn in O; discriminate|]. cbn in N, O. destruct (IH _ _ _ RR i t m N O) as [X|(j & t' & m' & J & A & B & Q)]; auto. right. exists (S j), t', m'. split; [lia|]. auto. }
  inv_bind C. match goal with X : expire _ _ _ _ = _ |- _ => pose proof (expire_sub _ _ _ _ _ _ X) as ES end.
  destruct (set_mem (hash msg) _) eqn:SM; inversion C; subst; clear C.
  - destruct i as [|i]; cbn in N, O.
    + inversion N; subst. left. apply ES. unfold set_mem in SM. apply existsb_exists in SM. destruct SM as (x & X & Y). apply Z.eqb_eq in Y. subst. auto.
    + destruct (IH _ _ _ RR i t m N O) as [X|(j & t' & m' & J & A & B & Q)]; auto. right. exists (S j), t', m'. split; [lia|]. auto.
  - destruct i as [|i]; cbn in N, O; [discriminate|]. destruct (IH _ _ _ RR i t m N O) as [X|(j & t' & m' & J & A & B & Q)].
    + cbn [dd_set] in X. destruct X as [X|X]; auto. right. exists 0%nat, now, msg. split; [lia|]. auto.
    + right. exists (S j), t', m'. split; [lia|]. auto.
Qed.

Lemma nth_combine : forall A B (l : list A) (r : list B) i a b, nth_error l i = Some a -> nth_error r i = Some b -> nth_error (combine l r) i = Some (a, b).
Proof. induction l; intros r i x y H1 H2; destruct i, r; try discriminate; cbn in *; try congruence; auto. Qed.
Lemma nth_combine_inv : forall A B (l : list A) (r : list B) i a b, nth_error (combine l r) i = Some (a, b) -> nth_error l i = Some a /\ nth_error r i = Some b.
Proof. induction l; intros r i x y H1; destruct i, r; try discriminate; cbn in *; auto. inversion H1; auto. Qed.

(* a dropped packet has the hash of a packet received before that was not dropped *)
Theorem C30_dropped_partial : forall f v c its w n i bs m, wf_table (v_tbl v) -> runs f v c its w ->
  nth_error (received its) n = Some (i, bs, m, Duplicate) ->
  exists j i' bs' m' d, (j < n)%nat /\ nth_error (received its) j = Some (i', bs', m', d) /\ v_hash v bs' = v_hash v bs /\
    (d = Routed \/ d = Refused /\ ~ in_ok (filters_of c i') (letter_of m')).
Proof.
  intros f v c its w n i bs m WT R N. destruct (dedup_runs _ _ _ _ _ WT R) as (ts & LT & _ & D). rewrite received_packets in *. rewrite !map_map in D. cbn [fst snd] in D. rewrite map_length in LT.
  assert (NT : exists t, nth_error ts n = Some t). { destruct (nth_error ts n) eqn:X; [eauto|]. apply nth_error_None in X. assert (n < length (received its))%nat by (apply nth_error_Some; congruence). lia. }
  destruct NT as (t & NT).
  destruct (run_source _ _ _ _ _ D n t bs) as [X|(j & t' & bs' & J & A & B & Q)].
  - apply nth_combine; auto. rewrite nth_error_map, N. reflexivity.
  - rewrite nth_error_map, N. reflexivity.
  - destruct X.
  - apply nth_combine_inv in A. destruct A as [_ A]. rewrite nth_error_map in A, B. destruct (nth_error (received its) j) as [[[[i' bs2] m'] d]|] eqn:NJ; [|discriminate].
    cbn in A, B. inversion A; subst. exists j, i', bs', m', d. split; auto. split; auto. split; auto. destruct d; [discriminate| |auto]. right. split; auto.
    apply nth_error_In in NJ. apply received_in in NJ. destruct NJ as (ds & NJ). pose proof (filtered_runs _ _ _ _ _ WT R) as F. rewrite Forall_forall in F. apply (F _ NJ). auto.
Qed.

(* without incoming filters, and when the hash distinguishes the packets received, an identical copy was routed before *)
Theorem C30_unfiltered_partial : forall f v c its w n i bs m, wf_table (v_tbl v) -> runs f v c its w ->
  (forall k x, in_ok (filters_of c k) x) ->
  (forall a b, In a (map bytes_of (received its)) -> In b (map bytes_of (received its)) -> v_hash v a = v_hash v b -> a = b) ->
  nth_error (received its) n = Some (i, bs, m, Duplicate) ->
  exists j i' m', (j < n)%nat /\ nth_error (received its) j = Some (i', bs, m', Routed).
Proof.
  intros f v c its w n i bs m WT R NF INJ N. destruct (C30_dropped_partial _ _ _ _ _ _ _ _ _ WT R N) as (j & i' & bs' & m' & d & J & A & H & D).
  assert (bs' = bs). { apply INJ; auto. - apply nth_error_In in A. apply (in_map bytes_of) in A. auto. - apply nth_error_In in N. apply (in_map bytes_of) in N. auto. }
  subst bs'. destruct D as [->|[_ D]]; [eauto|]. exfalso. auto.
Qed.

(* the clock is read once for each received packet; as long as it does not go back and stays below the 32-bit range, a packet is
   dropped exactly when one with the same hash was let through within the period *)
Theorem C25_router : forall f v c its w, wf_table (v_tbl v) -> runs f v c its w -> 0 < cf_dedup c < 4294967296 ->
  exists ts, length ts = length (received its) /\ Forall (fun t => exists p, t = v_orc v p) ts /\
    (nondecreasing 0 ts -> last ts 0 + cf_dedup c < 4294967296 ->
     forall n t i bs m d, nth_error ts n = Some t -> nth_error (received its) n = Some (i, bs, m, d) ->
     (d = Duplicate <-> exists j t' i' bs' m' d', (j < n)%nat /\ nth_error ts j = Some t' /\ nth_error (received its) j = Some (i', bs', m', d') /\
                          v_hash v bs' = v_hash v bs /\ d' <> Duplicate /\ t <= t' + cf_dedup c)).
Proof.
  intros f v c its w WT R P. destruct (dedup_runs _ _ _ _ _ WT R) as (ts & LT & CL & D). rewrite received_packets in *. rewrite !map_map in D. cbn [fst snd] in D. rewrite map_length in LT.
  unfold period_of in *. rewrite (proj2 (Z.ltb_lt 0 (cf_dedup c))) in * by lia. exists ts. split; auto. split. { apply CL. rewrite u32_small by lia. lia. }
  intros ND LB n t i bs m d NT N.
  assert (MF : map fst (combine ts (map bytes_of (received its))) = ts). { assert (Q : length ts = length (map bytes_of (received its))) by (rewrite map_length; auto). revert Q. generalize (map bytes_of (received its)). clear. induction ts; intros [|b l] Q; try discriminate; auto. cbn. rewrite IHts; auto. }
  destruct (dedup_exact (v_hash v) (cf_dedup c) (combine ts (map bytes_of (received its))) P) as (d2 & oks & RR & LEN & _ & _ & _ & SP); rewrite ?MF; auto.
  pose proof (eq_trans (eq_sym RR) D) as DQ. injection DQ as _ ->. specialize (SP n t bs). rewrite nth_error_map, N in SP. cbn [option_map verdict_of snd] in SP.
  assert (X : nth_error (combine ts (map bytes_of (received its))) n = Some (t, bs)). { apply nth_combine; auto. rewrite nth_error_map, N. auto. }
  specialize (SP X). transitivity (Some (negb (dup d)) = Some false). { destruct d; cbn; split; congruence. }
  rewrite SP. clear SP X. split.
  - intros (j & t' & bs' & J & A & H & B & T). apply nth_combine_inv in A. destruct A as [A1 A2]. rewrite nth_error_map in A2, B. destruct (nth_error (received its) j) as [[[[i' bs2] m'] d']|] eqn:NJ; [|discriminate].
    cbn in A2, B. inversion A2; subst. exists j, t', i', bs', m', d'. repeat split; auto. destruct d'; discriminate.
  - intros (j & t' & i' & bs' & m' & d' & J & A1 & A2 & H & B & T). exists j, t', bs'. split; auto. split. { apply nth_combine; auto. rewrite nth_error_map, A2. auto. }
    split; auto. split; auto. rewrite nth_error_map, A2. cbn. destruct d'; auto. congruence.
Qed.

(* without de-duplication nothing is dropped *)
Theorem C29_router : forall f v c its w i bs m d ds, wf_table (v_tbl v) -> runs f v c its w -> cf_dedup c <= 0 -> In (IRecv i bs m d ds) its -> d <> Duplicate.
Proof.
  intros f v c its w i bs m d ds WT R P X. destruct (dedup_runs _ _ _ _ _ WT R) as (ts & LT & CL & D). unfold period_of in *. rewrite (proj2 (Z.ltb_ge 0 (cf_dedup c))) in * by lia.
  rewrite C29_off in D. injection D as _ D. rewrite received_packets, !map_map in D. cbn [snd] in D.
  assert (Y : In (i, bs, m, d) (received its)). { apply received_in. eauto. }
  apply (in_map (fun r => negb (dup (verdict_of r)))) in Y. rewrite <- D in Y. apply in_map_iff in Y. destruct Y as (q & Y & _). intros ->. discriminate.
Qed.

(* endpoint 0 refuses message id 0 *)
Definition dd_filters : filters := mkFilters [] [] [] [] [] [] [] [0] [] [] [] [].

Definition dd_conf (fl : filters) : config := mkCf [] [mkEc (CUdp true 8 14551) true fl []; mkEc (CUdp true 8 14552) true no_filters []; mkEc (CUdp true 8 14553) true no_filters []] [] 0 None 0 false 100.
Definition dd_seen (its : list item) : list (nat * verdict * nat) := flat_map (fun x => match x with IRecv i _ _ d ds => [(i, d, length ds)] | _ => [] end) its.
(* the same heartbeat on endpoint 0, then on endpoint 1: the copy endpoint 0 refused makes the other one a duplicate, and it is never
   routed (handle_read asks the detector before it applies the incoming filters, endpoint.cpp:220-252) *)
Theorem C30_only_copy_refuted : exists f v c its w, wf_table (v_tbl v) /\ runs f v c its w /\
  exists i bs m, In (i, bs, m, Duplicate) (received its) /\ Forall (fun r => bytes_of r = bs /\ verdict_of r <> Routed) (received its) /\
  in_ok (filters_of c i) (letter_of m).
Proof.
  destruct (view_runs _ (fun w its => received its) [(0%nat, encode (rx_hb 1 1 0), info_of rx_tbl (rx_hb 1 1 0), Refused); (1%nat, encode (rx_hb 1 1 0), info_of rx_tbl (rx_hb 1 1 0), Duplicate)]
    9 (rx_env []) (Some []) (dd_conf dd_filters) [[rx_from 0 (5, 1000) (rx_hb 1 1 0)]; [rx_from 1 (5, 1001) (rx_hb 1 1 0)]]) as (w & its & R & X). { vm_compute. reflexivity. }
  exists 9%nat, (rx_env []), (dd_conf dd_filters), its, w. split; [apply rx_tbl_wf|]. split; auto. rewrite X. do 3 eexists. split; [right; left; reflexivity|].
  split. { repeat constructor; discriminate. } repeat split; cbn; auto; intros [].
Qed.
(* with the incoming filter removed, the second copy is dropped and the first was routed *)
Example C30_nonvacuous : exists w its, runs 9 (rx_env []) (dd_conf no_filters) its w /\ wf_table (v_tbl (rx_env [])) /\ (forall k x, in_ok (filters_of (dd_conf no_filters) k) x) /\
  (forall a b, In a (map bytes_of (received its)) -> In b (map bytes_of (received its)) -> v_hash (rx_env []) a = v_hash (rx_env []) b -> a = b) /\
  dd_seen its = [(0%nat, Routed, 2%nat); (1%nat, Duplicate, 0%nat); (1%nat, Routed, 1%nat)].
Proof.
  destruct (view_runs _ (fun w its => (map bytes_of (received its), dd_seen its)) ([encode (rx_hb 1 1 0); encode (rx_hb 1 1 0); encode (rx_hb 1 1 1)], [(0%nat, Routed, 2%nat); (1%nat, Duplicate, 0%nat); (1%nat, Routed, 1%nat)])
    9 (rx_env []) (Some []) (dd_conf no_filters) [[rx_from 0 (5, 1000) (rx_hb 1 1 0)]; [rx_from 1 (5, 1001) (rx_hb 1 1 0); rx_from 1 (5, 1001) (rx_hb 1 1 1)]]) as (w & its & R & X). { vm_compute. reflexivity. }
  injection X as X1 X2. exists w, its. split; auto. split; [apply rx_tbl_wf|]. split.
  { intros k x. unfold filters_of. assert (F : match nth_error (confs (dd_conf no_filters)) k with Some e => ec_filters e | None => no_filters end = no_filters) by (destruct k as [|[|[|[|k]]]]; reflexivity). rewrite F. repeat split; cbn; auto; intros []. }
  split; auto. rewrite X1. intros a b [<-|[<-|[<-|[]]]] [<-|[<-|[<-|[]]]] H; auto; exfalso; revert H; vm_compute; discriminate.
Qed.
(* the clock hypotheses of C25_router: all readings equal *)
Example C25_router_nonvacuous : nondecreasing 0 [65536; 65536; 65536] /\ last [65536; 65536; 65536] 0 + cf_dedup (dd_conf no_filters) < 4294967296.
Proof. split; cbn; lia. Qed.

Print Assumptions C31_removed.
Print Assumptions C31_only.
Print Assumptions C31_kept.
Print Assumptions C31_others_kept.
Print Assumptions C30_dropped_partial.
Print Assumptions C30_unfiltered_partial.
Print Assumptions C30_only_copy_refuted.
Print Assumptions C25_router.
Print Assumptions C29_router.
