(* C19, C21-C23, C34: unroutable messages, back-pressure, statistics and destinations, over every configuration and
   every run of the router. *)
From Coq Require Import Permutation.
From Verif Require Import Base Mav SpecCrc SpecFrame Frame FrameProofs FrameRefine FrameLink Dedup SpecAccept Accept AcceptProofs Names Sys LogFile LogFileProofs ULog Loggers LogInv LogStep RouterCtl Router
  RouterRoute RouterRoute2 RouterSetup RouterActs RouterInv RouterLearn RouterStep RouterStart RouterHist SpecRouter SpecLife RouterTrace RouterCount RouterLife RouterLife2 RouterLife3 RouterLife4 RouterTarget Prop_Router ExFrame ExRouter.

(* ---- C19: unroutable messages are counted ------------------------------------------------------------------- *)

(* the counter is (modulo 2^32) the number of messages since the last report, which clears it, that no endpoint wanted or
   filtered out.  The configured system of the vehicle, if any, is a system id. *)
Theorem C19_counted : forall f v c its w, wf_table (v_tbl v) -> 0 <= cf_sniffer c < 256 ->
  (forall lc, cf_log c = Some lc -> -1 <= lc_fcu lc < 256) -> runs f v c its w ->
  exists n, lost_since c its n /\ (forall n', lost_since c its n' -> n' = n) /\ w_unknown w = u32 n.
Proof.
  intros f v c its w WT SN FC R. pose proof (ctl_meta f v c its w WT FC R) as CK. destruct (lost_runs f v c its w WT SN R CK) as (n & A & B). exists n. split; auto. split; auto. intros n' A'. eapply lost_unique; eauto.
Qed.

(* ---- C23: transmit statistics ---------------------------------------------------------------------------------- *)

(* no write on UART k failed with an error other than would-block *)
Definition uart_clean (h : list item) (k : nat) : Prop :=
  forall d a r, In d (sends h k) -> dl_call d = DSent a r -> 0 <= r \/ r = - EAGAIN.

Lemma counted_accepted : forall u l, (u = true -> forall d a r, In d l -> dl_call d = DSent a r -> 0 <= r \/ r = - EAGAIN) ->
  filter (counted u) l = filter accepted l /\ filter (cut u) l = filter short l.
Proof.
  intros u l C. assert (X : forall d, In d l -> counted u d = accepted d /\ cut u d = short d).
  { intros d D. unfold cut, counted, accepted, short. destruct (dl_call d) as [|a r|] eqn:K; auto. destruct u; auto. specialize (C eq_refl d a r D K).
    assert (- EAGAIN < 0) by reflexivity. destruct (Z.eqb_spec r (- EAGAIN)) as [->|N]; [rewrite (proj2 (Z.leb_gt 0 (- EAGAIN))) by lia|rewrite (proj2 (Z.leb_le 0 r)) by lia]; auto. }
  split; apply filter_ext_in; intros d D; apply X; auto.
Qed.

(* For UDP and TCP endpoints, and for UARTs on which no write failed: the number of messages, of bytes, and (since
   the last report) of incomplete messages.  Missing: a UART write that fails is counted as well. *)
Theorem C23_counters_partial : forall f v c its w k e, wf_table (v_tbl v) -> runs f v c its w -> lookup w k = Some e ->
  ~ is_logger c k -> (uart_conf c k <> None -> uart_clean its k) ->
  ep_wtotal e = u32 (Z.of_nat (length (filter accepted (sends its k)))) /\
  ep_wbytes e = u64 (total (filter accepted (sends its k))) /\
  (In k (open_after c its) -> ep_incomplete e = u32 (Z.of_nat (length (filter short (sends (since_report its) k))))).
Proof.
  intros f v c its w k e WT R L NL UC. pose proof (life_runs f v c its w WT R) as LF. destruct (trace_runs f v c its w WT R) as [SY _].
  destruct (sy_ep _ _ _ SY k e L) as (_ & _ & LG & _). assert (N : is_log e = false). { destruct (is_log e); auto. destruct NL. apply LG; auto. }
  destruct (lf_stat _ _ _ LF k e L N) as (A & B & C). pose proof (lf_kind _ _ _ LF k e L) as KL.
  assert (CL : is_uart e = true -> uart_clean its k). { intros U. apply UC. unfold is_uart in U. unfold kind_life in KL. destruct (ep_kind e); try discriminate. destruct KL as [-> _]. discriminate. }
  destruct (counted_accepted (is_uart e) (sends its k)) as [E1 _]. { intros U d a r D K. eapply CL; eauto. }
  destruct (counted_accepted (is_uart e) (sends (since_report its) k)) as [_ E2].
  { intros U d a r D K. eapply CL; eauto. unfold sends, tok in *. apply filter_In in D. destruct D as [D T]. apply filter_In. split; auto. apply in_flat_map in D. destruct D as (x & X & D). apply in_flat_map. exists x. split; auto. apply since_incl; auto. }
  rewrite E1 in A, B. rewrite E2 in C. rewrite (sy_order _ _ _ SY) in C. auto.
Qed.

(* a UART write that fails with EIO is counted as a transmitted message of full length *)
Definition st_conf : config := mkCf [mkEc (CUart [57600] false) true no_filters []] [mkEc (CUdp true 8 14551) true no_filters []] [] 0 None 0 false 0.
Theorem C23_counters_refuted : exists f v c its w k e, wf_table (v_tbl v) /\ runs f v c its w /\ lookup w k = Some e /\ ~ is_logger c k /\
  filter accepted (sends its k) = [] /\ ep_wtotal e = 1 /\ 0 < ep_wbytes e.
Proof.
  destruct (view_runs _ (fun w its => (option_map (fun e => (ep_wtotal e, ep_wbytes e)) (lookup w 0), filter accepted (sends its 0))) (Some (1, 21), [])
    9 (rx_env [(2246%nat, -5)]) (Some []) st_conf [[rx_from 1 (5, 1000) (rx_hb 1 1 0)]]) as (w & its & R & X). { vm_compute. reflexivity. }
  injection X as X1 X2. destruct (lookup w 0) as [e|] eqn:L; [|discriminate X1]. injection X1 as E1 E2.
  exists 9%nat, (rx_env [(2246%nat, -5)]), st_conf, its, w, 0%nat, e. split; [apply rx_tbl_wf|]. split; [exact R|]. split; auto. split. { unfold is_logger. cbn. lia. }
  split; auto. split; [exact E1|]. rewrite E2. reflexivity.
Qed.

(* ---- C22: back-pressure ------------------------------------------------------------------------------------------ *)

(* write-readiness is requested exactly when a write would block *)
Theorem C22_requested : forall f v c its w x d, wf_table (v_tbl v) -> runs f v c its w -> In x its -> In d (made x) -> ~ is_logger c (dl_to d) ->
  ((exists a, dl_call d = DSent a (- EAGAIN)) <-> dl_req d <> None).
Proof. intros f v c its w x d WT R X D NL. eapply blocked_runs; eauto. Qed.

(* nothing is kept for later: the write leaves the endpoint as it was *)
Theorem C22_dropped : forall f v y i e mem m y' e' mem' ret a cs, write_ep f v y i e mem m = Ok (y', e', mem', ret, DSent a (- EAGAIN), cs) ->
  e' = e /\ mem' = mem /\ cs = [] /\ ret = - EAGAIN.
Proof.
  intros f v y i e mem m y' e' mem' ret a cs W. unfold write_ep in W. assert (- EAGAIN < 0) by reflexivity. destruct (ep_kind e) as [b cu t|cf pe t|r vl|[g b|q]] eqn:K.
  - destruct (negb (ep_fd e)); [inversion W|]. destruct (os_write v y _) as [q y3]. destruct (Z.eqb_spec q (- EAGAIN)); inversion W; subst; auto. congruence.
  - destruct (negb (ep_fd e)); [inversion W|]. destruct (snd pe =? 0); [inversion W|]. destruct (os_write v y _) as [q y3]. destruct (Z.ltb_spec q 0); inversion W; subst; auto. lia.
  - destruct (negb (ep_fd e)); [inversion W|]. destruct (os_write v y _) as [q y3]. destruct (Z.ltb_spec q 0); [|inversion W; subst; lia].
    destruct (Z.eqb_spec q (- EPIPE)). { destruct (tcp_lost v y3 i e r). inversion W; subst. discriminate. } inversion W; subst; auto.
  - inv_bind W. inversion W.
  - inv_bind W. inversion W.
Qed.

(* when the endpoint becomes writable nothing is written, and the request is withdrawn (unless the epoll_ctl call, the last
   system call made for the event, failed) *)
Theorem C22_withdrawn : forall f v w i err w' its, handle_event f v w (EEp i None true err) = Ok (w', its) ->
  its = [] /\ exists e e', lookup w i = Some e /\ lookup w' i = Some e' /\
  (exists p, e' = set_fd e (ep_fd e) p /\ (0 <= v_orc v (pred (y_pos (w_sys w'))) -> p <> Some true)) /\
  (forall j, j <> i -> lookup w' j = lookup w j).
Proof.
  intros f v w i err w' its H. cbn [handle_event] in H. inv_bind H. cbn [bind] in H. inv_bind H. inv_bind H.
  match goal with X : get w i = Ok ?q |- _ => rename X into G; rename q into e end. apply get_lookup in G.
  destruct (mod_fd v (w_sys w) e false) as [[y1 e1] r1] eqn:MX. set (w1 := put (set_sys w y1) i e1) in *.
  match type of H with Ok (?q, _) = _ => assert (W : w' = q) by congruence end. assert (its = []) by congruence. subst its. clear H. split; auto.
  assert (L1 : lookup w1 i = Some e1) by (eapply lookup_put_eq; rewrite lookup_sys; eauto).
  assert (LW : forall j, lookup w' j = lookup w1 j) by (intros j; rewrite W; destruct (err && _); auto). assert (YW : w_sys w' = y1) by (rewrite W; destruct (err && _); auto).
  exists e, e1. split; auto. split; [rewrite LW; auto|]. split.
  - rewrite YW. clear - MX. unfold mod_fd, ask in MX. destruct (ep_poll e) as [p|] eqn:P.
    + destruct (Z.ltb_spec (v_orc v (y_pos (w_sys w))) 0) as [Q|Q]; inversion MX; subst; cbn [y_pos pred].
      * exists (Some p). split; [destruct e1; cbn in P; subst; auto|]. intros X. cbn in X. lia.
      * exists (Some false). split; auto. discriminate.
    + inversion MX; subst. exists None. split; [destruct e1; cbn in P; subst; auto|]. discriminate.
  - intros j NE. rewrite LW. unfold w1. rewrite lookup_put_neq by auto. apply lookup_sys.
Qed.

(* who is handed a message does not depend on the results of any write: histories that differ only in them give the
   same recipients, in the same order *)
Definition blank (x : item) : item :=
  match x with IRecv i bs m d _ => IRecv i bs m d [] | ICtl i bs m _ => ICtl i bs m [] | x => x end.
Lemma blank_recv : forall h h' i bs m d ds, map blank h = map blank h' -> In (IRecv i bs m d ds) h -> exists ds', In (IRecv i bs m d ds') h'.
Proof.
  induction h as [|x h IH]; intros h' i bs m d ds E X; [destruct X|]. destruct h' as [|x' h']; [discriminate|]. cbn [map] in E. inversion E.
  destruct X as [->|X]; [|destruct (IH _ _ _ _ _ _ H1 X) as (ds' & D); exists ds'; right; auto]. destruct x'; cbn in H0; inversion H0; subst. eexists. left. reflexivity.
Qed.
Lemma blank_known : forall c h h' k a, map blank h = map blank h' -> known_after c h k a -> known_after c h' k a.
Proof.
  intros c h h' k a E [X|(i & bs & m & ds & X & Y)]; [left; auto|]. destruct (blank_recv _ _ _ _ _ _ _ E X) as (ds' & D). right. exists i, bs, m, ds'. auto.
Qed.
Lemma blank_open : forall c h h', map blank h = map blank h' -> open_after c h = open_after c h'.
Proof.
  intros c h h' E. assert (X : news h = news h' /\ gone h = gone h').
  { revert h' E. induction h as [|x h IH]; intros [|x' h'] E; try discriminate; auto. cbn [map] in E. inversion E. destruct (IH _ H1) as [A B].
    unfold news, gone in *. cbn [flat_map]. rewrite A, B. destruct x, x'; cbn in H0; inversion H0; auto. }
  unfold open_after. destruct X as [-> ->]. auto.
Qed.
Lemma blank_wanted : forall c h h' m k, map blank h = map blank h' -> wanted c h m k -> wanted c h' m k.
Proof.
  intros c h h' m k E (A & B & C). assert (X : forall a, known_after c h k a <-> known_after c h' k a) by (intros a; split; apply blank_known; auto).
  split. { intros Y. apply A. apply X; auto. } split; auto. destruct C as [C|C]; [left; eapply addressed_ext; [|exact C]|right; eapply sniffs_ext; [|exact C]]; intros a; symmetry; auto.
Qed.
Theorem C22_others_served : forall f f' v v' c its w its' w' pre pre' i bs m ds ds' post post',
  wf_table (v_tbl v) -> wf_table (v_tbl v') -> 0 <= cf_sniffer c < 256 -> runs f v c its w -> runs f' v' c its' w' ->
  its = pre ++ IRecv i bs m Routed ds :: post -> its' = pre' ++ IRecv i bs m Routed ds' :: post' -> map blank pre = map blank pre' ->
  map dl_to ds = map dl_to ds'.
Proof.
  intros f f' v v' c its w its' w' pre pre' i bs m ds ds' post post' WT WT' SN R R' E E' B.
  destruct (C17_delivered _ _ _ _ _ _ _ _ _ _ _ WT SN R E) as (ok & A1 & A2). destruct (C17_delivered _ _ _ _ _ _ _ _ _ _ _ WT' SN R' E') as (ok' & A1' & A2').
  assert (BB : map blank (pre ++ [IRecv i bs m Routed ds]) = map blank (pre' ++ [IRecv i bs m Routed ds'])) by (rewrite !map_app, B; auto).
  rewrite A1, A1', (blank_open _ _ _ BB). apply filter_ext_in. intros k K'. assert (K : In k (open_after c (pre ++ [IRecv i bs m Routed ds]))) by (rewrite (blank_open _ _ _ BB); auto).
  specialize (A2 k K). specialize (A2' k K'). destruct (ok k), (ok' k); auto.
  - symmetry. apply A2'. eapply blank_wanted; eauto. apply A2; auto.
  - apply A2. eapply blank_wanted; [symmetry; exact BB|]. apply A2'; auto.
Qed.

(* ---- C21: disconnected TCP endpoints --------------------------------------------------------------------------------- *)

(* While a TCP endpoint is disconnected nothing is sent on it and its counters do not move.  Missing: the message is still
   considered delivered, so it is not counted as unroutable. *)
Theorem C21_nothing_sent_partial : forall f v w mem m w' mem' ds its k e r vl, route NEST f v w mem m = Ok (w', mem', ds, its) ->
  lookup w k = Some e -> ep_kind e = KTcp r vl -> (0 < r -> vl = true) -> ep_fd e = false ->
  (forall d, In d (ds ++ flat_map made its) -> dl_to d = k -> dl_call d = DNone) /\
  exists e', lookup w' k = Some e' /\ ep_fd e' = false.
Proof.
  intros f v w mem m w' mem' ds its k e r vl RT L K V F. destruct (route_moves _ _ _ _ _ _ _ _ _ _ RT k e L) as (e' & s & L' & S & P).
  destruct (steps_tcp _ _ _ S _ _ K V) as (vl' & _ & _ & X). destruct (X F) as [X1 X2]. split; [|eauto].
  intros d D T. rewrite Forall_forall in X2. apply X2. eapply Permutation_in; [apply Permutation_sym; exact P|]. unfold tok. apply filter_In. split; auto. apply Nat.eqb_eq; auto.
Qed.

(* the disconnected TCP client (1) is the only endpoint that knows 1/1; the command for 1/1 is neither sent nor
   counted as unroutable *)
Definition cut_conf : config := mkCf [] [mkEc (CUdp true 8 14551) true no_filters []] [mkEc (CTcp 5 5760) true no_filters []] 0 None 0 false 0.
Definition cut_events : list (list event) :=
  [[rx_from 1 (0, 0) (rx_hb 1 1 0)]; [EEp 1 (Some (OsData [] (0, 0))) false false]; [rx_from 0 (5, 1000) (rx_cmd 255 190 1 1 0)]].
Theorem C21_reject_refuted : exists f v c its w k e r pre i bs m d, wf_table (v_tbl v) /\ runs f v c its w /\ lookup w k = Some e /\ ep_kind e = KTcp r true /\ 0 < r /\
  ep_fd e = false /\ its = pre ++ [IRecv i bs m Routed [d]] /\ dl_to d = k /\ dl_call d = DNone /\ w_unknown w = 0.
Proof.
  destruct (view_runs _ (fun w its => (option_map (fun e => (ep_kind e, ep_fd e)) (lookup w 1), match rev its with IRecv _ _ _ Routed [d] :: _ => Some (dl_to d, dl_call d) | _ => None end, w_unknown w))
    (Some (KTcp 5 true, false), Some (1%nat, DNone), 0) 9 (rx_env []) (Some []) cut_conf cut_events) as (w & its & R & X). { vm_compute. reflexivity. }
  injection X as X1 X2 X3. destruct (lookup w 1) as [e|] eqn:L; [|discriminate X1]. injection X1 as E1 E2.
  destruct (rev its) as [|[|i bs m [] [|d [|]]| | | |] l] eqn:IT; try discriminate X2. injection X2 as D1 D2.
  apply (f_equal (@rev item)) in IT. rewrite rev_involutive in IT. cbn [rev] in IT.
  exists 9%nat, (rx_env []), cut_conf, its, w, 1%nat, e, 5, (rev l), i, bs, m, d.
  split; [apply rx_tbl_wf|]. do 2 (split; [assumption|]). split; [assumption|]. split; [reflexivity|]. auto.
Qed.

(* ---- C34: where a UDP endpoint sends --------------------------------------------------------------------------------- *)

(* a message handed to UDP endpoint k goes to the sender of the last datagram received on k, or to the configured address
   if there was none (or the fallback timer fired since); an address with port 0 gets nothing *)
Theorem C34_destination : forall f v c its w pre x post d server cf, wf_table (v_tbl v) -> runs f v c its w -> its = pre ++ x :: post -> In d (made x) ->
  udp_conf c (dl_to d) = Some (server, cf) ->
  let p := peer_after cf pre (dl_to d) in
  (snd p = 0 -> dl_call d = DNone) /\ (snd p <> 0 -> exists r, dl_call d = DSent (Some p) r).
Proof.
  intros f v c its w pre x post d server cf WT R E D UC p. pose proof (lf_told _ _ _ (life_runs f v c its w WT R) pre x post d server cf E D UC) as T. cbn zeta in T. fold p in T.
  destruct (Z.eqb_spec (snd p) 0); split; auto; congruence.
Qed.

(* the datagrams received on k, latest first *)
Definition senders (h : list item) (k : nat) : list addr :=
  rev (flat_map (fun x => match x with IRead i (OsData _ from) => if Nat.eqb i k then [from] else [] | _ => [] end) h).

Lemma peer_senders : forall cf h k, (forall t, ~ In (IFire t (CbNoMsg k)) h) -> peer_after cf h k = hd cf (senders h k).
Proof.
  intros cf h k. induction h as [|x h IH] using rev_ind; intros N; auto. rewrite peer_app. cbn [fold_left]. unfold senders. rewrite flat_map_app, rev_app_distr. cbn [flat_map]. rewrite app_nil_r.
  assert (N1 : forall t, ~ In (IFire t (CbNoMsg k)) h) by (intros t X; apply (N t); apply in_or_app; auto). specialize (IH N1). unfold senders in IH.
  destruct x as [i [bs from| |]| | |t cb| |]; cbn [peer_step rev app]; auto.
  - destruct (Nat.eqb i k); cbn [rev app hd]; auto.
  - destruct cb; auto. destruct (Nat.eqb_spec i k) as [->|]; auto. destruct (N t). apply in_or_app. right. left. auto.
Qed.

(* a server sends nothing before the first datagram arrives, and then to the sender of the latest *)
Theorem C34_server : forall f v c its w pre x post d cf, wf_table (v_tbl v) -> runs f v c its w -> its = pre ++ x :: post -> In d (made x) ->
  udp_conf c (dl_to d) = Some (true, cf) ->
  match senders pre (dl_to d) with
  | [] => dl_call d = DNone
  | p :: _ => snd p <> 0 -> exists r, dl_call d = DSent (Some p) r
  end.
Proof.
  intros f v c its w pre x post d cf WT R E D UC. destruct (C34_destination _ _ _ _ _ _ _ _ _ _ _ WT R E D UC) as [A B].
  assert (N : forall t, ~ In (IFire t (CbNoMsg (dl_to d))) pre).
  { intros t X. destruct (fires_runs f v c its w WT R t (dl_to d)) as [Q _]. destruct Q as (q & Q). { rewrite E. apply in_or_app; auto. } congruence. }
  rewrite peer_senders in A, B by auto.
  destruct (senders pre (dl_to d)); cbn [hd] in *; [|exact B]. apply A. unfold udp_conf in UC. destruct (nth_error _ _); [|discriminate]. destruct (ec_kind e); inversion UC; subst. auto.
Qed.

(* a client sends to the configured address until a datagram arrives, then to its sender (until the fallback) *)
Theorem C34_client : forall f v c its w pre x post d cf, wf_table (v_tbl v) -> runs f v c its w -> its = pre ++ x :: post -> In d (made x) ->
  udp_conf c (dl_to d) = Some (false, cf) -> (forall t, ~ In (IFire t (CbNoMsg (dl_to d))) pre) ->
  let p := hd cf (senders pre (dl_to d)) in snd p <> 0 -> exists r, dl_call d = DSent (Some p) r.
Proof.
  intros f v c its w pre x post d cf WT R E D UC N p. destruct (C34_destination _ _ _ _ _ _ _ _ _ _ _ WT R E D UC) as [A B]. rewrite peer_senders in A, B by auto. auto.
Qed.

(* ---- examples -------------------------------------------------------------------------------------------------------- *)

(* a UDP server (0), a UDP client (1) and a TCP client (2); the second write on the UDP client would block, the last
   message is for nobody *)
Definition dest_conf : config := mkCf [] [mkEc (CUdp true 8 14551) true no_filters []; mkEc (CUdp false 7 14550) true no_filters []]
  [mkEc (CTcp 5 5760) true no_filters []] 0 None 0 false 0.
Definition dest_events : list (list event) :=
  [[rx_from 2 (0, 0) (rx_hb 1 1 0)]; [rx_from 1 (9, 9) (rx_hb 2 1 0)]; [rx_from 0 (5, 1000) (rx_hb 3 1 0)]; [rx_from 2 (0, 0) (rx_hb 1 1 1)]; [EEp 1 None true false];
   [rx_from 2 (0, 0) (rx_cmd 1 1 77 77 0)]].
Definition dest_seen (its : list item) : list (nat * list (nat * dcall * option Z)) :=
  flat_map (fun x => match x with IRecv i _ _ _ ds => [(i, map (fun d => (dl_to d, dl_call d, dl_req d)) ds)] | _ => [] end) its.
Definition dest_env : env := rx_env [(3373%nat, - EAGAIN)].
Definition dest_state (w : world) : list (option bool * Z * Z) := map (fun k => match lookup w k with Some e => (ep_poll e, ep_wtotal e, ep_wbytes e) | None => (None, 0, 0) end) (seq 0 3).
Definition dest_expected : list (nat * list (nat * dcall * option Z)) :=
  [(2%nat, [(0%nat, DNone, None); (1%nat, DSent (Some (7, 14550)) 21, None)]); (1%nat, [(0%nat, DNone, None); (2%nat, DSent None 21, None)]);
   (0%nat, [(1%nat, DSent (Some (9, 9)) 21, None); (2%nat, DSent None 21, None)]);
   (2%nat, [(0%nat, DSent (Some (5, 1000)) 21, None); (1%nat, DSent (Some (9, 9)) (- EAGAIN), Some 65536)]); (2%nat, [])].
Example destinations_nonvacuous : exists w its, runs 9 dest_env dest_conf its w /\ wf_table (v_tbl dest_env) /\
  udp_conf dest_conf 0 = Some (true, (8, 0)) /\ udp_conf dest_conf 1 = Some (false, (7, 14550)) /\ uart_conf dest_conf 2 = None /\
  dest_seen its = dest_expected /\
  w_unknown w = 1 /\ (forall i bs m ds, ~ In (ICtl i bs m ds) its) /\ dest_state w = [(Some false, 1, 21); (Some false, 2, 42); (Some false, 2, 42)].
Proof.
  destruct (view_runs _ (fun w its => (dest_seen its, w_unknown w, existsb (fun x => match x with ICtl _ _ _ _ => true | _ => false end) its, dest_state w)) (dest_expected, 1, false, [(Some false, 1, 21); (Some false, 2, 42); (Some false, 2, 42)])
    9 dest_env (Some []) dest_conf dest_events) as (w & its & R & X). { vm_compute. reflexivity. }
  injection X as X1 X2 X3 X4 X5 X6. exists w, its. split; auto. split; [apply rx_tbl_wf|]. do 3 (split; [reflexivity|]). split; [exact X1|]. split; [exact X2|]. split; [|unfold dest_state; cbn [seq map]; rewrite X4, X5, X6; reflexivity].
  intros i bs m ds Y. assert (Z : existsb (fun x => match x with ICtl _ _ _ _ => true | _ => false end) its = true) by (apply existsb_exists; eauto). congruence.
Qed.
Example blocked_before : match session 9 dest_env (Some []) dest_conf (firstn 4 dest_events) with Some (w, _) => dest_state w | None => [] end
  = [(Some false, 1, 21); (Some true, 2, 42); (Some false, 2, 42)].
Proof. vm_compute. reflexivity. Qed.

Print Assumptions C19_counted.
Print Assumptions C21_nothing_sent_partial.
Print Assumptions C21_reject_refuted.
Print Assumptions C22_requested.
Print Assumptions C22_dropped.
Print Assumptions C22_withdrawn.
Print Assumptions C22_others_served.
Print Assumptions C23_counters_partial.
Print Assumptions C23_counters_refuted.
Print Assumptions C34_destination.
Print Assumptions C34_server.
Print Assumptions C34_client.
