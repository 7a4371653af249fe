(* Properties C46 and C78: what start-up does with the log directory, and that the settings arrive. *)
From Coq Require Import String.
From Verif Require Import Base Names Num SpecNum NumProofs Mav SpecFrame Frame Dedup Accept NamesProofs Sys LogFile LogFileProofs LogInv LogStep ULog Loggers LogModes
  Conf SpecConf Router RouterSetup RouterRoute SpecRouter RouterStart Opts Main SpecSection Prop_LogFile Prop_Main.
Local Open Scope string_scope.
Local Open Scope list_scope.
Local Open Scope Z_scope.

(* start-up code that leaves the directory alone and installs no statistics timer *)
Definition still (y y' : sys) : Prop :=
  y_fs y' = y_fs y /\ (y_pos y <= y_pos y')%nat /\ forall t, In t (y_timers y') -> In t (y_timers y) \/ tm_cb t <> CbStats.

Lemma still_refl : forall y, still y y.
Proof. intros. split; auto. Qed.
Lemma still_trans : forall a b c, still a b -> still b c -> still a c.
Proof.
  intros a b c (A1 & A2 & A3) (B1 & B2 & B3). split; [congruence|]. split; [lia|]. intros t I. destruct (B3 t I); auto.
Qed.
Lemma still_ask : forall v y r y', ask v y = (r, y') -> still y y'.
Proof. intros v y r y' H. unfold ask in H. injection H as <- <-. split; [reflexivity|]. cbn. split; [lia|auto]. Qed.
Lemma still_bytes : forall n v y r y', ask_bytes n v y = (r, y') -> still y y'.
Proof.
  induction n; intros v y r y' H; cbn [ask_bytes] in H. { injection H as <- <-. apply still_refl. }
  destruct (ask v y) as [b y1] eqn:A. destruct (ask_bytes n v y1) as [q y2] eqn:B. injection H as <- <-. eapply still_trans; [eapply still_ask; eauto|eapply IHn; eauto].
Qed.
Lemma still_timer : forall v y ms cb o y', add_timer v y ms cb = (o, y') -> cb <> CbStats -> still y y'.
Proof.
  intros v y ms cb o y' H N. unfold add_timer in H. destruct (negb (v_tmr v (y_pos y))); injection H as <- <-; (split; [reflexivity|]); cbn; (split; [lia|]); auto.
  intros t [<-|I]; auto.
Qed.

Ltac sk H := first [apply still_ask in H | apply still_timer in H; [|discriminate]].

Lemma still_setup : forall v y i c y' e, setup_ep v y i c = Some (y', e) -> still y y'.
Proof.
  intros v y i c y' e H. unfold setup_ep in H. destruct (ec_kind c) as [bauds flow|server host port|retry port].
  - unfold setup_uart in H. destruct (negb (ec_valid c) || is_empty bauds); [discriminate|]. pose proof (still_bytes RXMAX v y) as E1. destruct (ask_bytes RXMAX v y) as [junk y1]. specialize (E1 _ _ eq_refl). destruct (ask v y1) as [o y2] eqn:E2.
    destruct (o <? 0); [discriminate|]. destruct (ask v y2) as [s y3] eqn:E3. destruct (_ && _); [discriminate|].
    destruct (if (length bauds =? 1)%nat then (None, y3) else add_timer v y3 5000 (CbBaud i)) as [t y4] eqn:E4. destruct (if flow then ask v y4 else (0, y4)) as [fl y5] eqn:E5.
    destruct (fl <? 0); [discriminate|]. unfold add_fd in H. destruct (ask v y5) as [a y6] eqn:E6.
    assert (Y6 : y6 = y') by congruence. subst y6. clear H. sk E2. sk E3. sk E6.
    assert (S4 : still y3 y4). { destruct (length bauds =? 1)%nat; [injection E4 as <- <-; apply still_refl|]. sk E4. auto. }
    assert (S5 : still y4 y5). { destruct flow; [sk E5; auto|injection E5 as <- <-; apply still_refl]. }
    eauto 10 using still_trans.
  - unfold setup_udp in H. destruct (negb _); [discriminate|]. pose proof (still_bytes RXMAX v y) as E1. destruct (ask_bytes RXMAX v y) as [junk y1]. specialize (E1 _ _ eq_refl). destruct (ask v y1) as [o y2] eqn:E2.
    destruct (o <? 0); [discriminate|]. destruct (if server then (None, y2) else add_timer v y2 0 (CbNoMsg i)) as [t y3] eqn:E3. unfold add_fd in H. destruct (ask v y3) as [a y6] eqn:E6.
    assert (Y6 : y6 = y') by congruence. subst y6. clear H. sk E2. sk E6.
    assert (S4 : still y2 y3). { destruct server; [injection E3 as <- <-; apply still_refl|]. sk E3. auto. }
    eauto 10 using still_trans.
  - unfold setup_tcp in H. destruct (negb _); [discriminate|]. pose proof (still_bytes RXMAX v y) as E1. destruct (ask_bytes RXMAX v y) as [junk y1]. specialize (E1 _ _ eq_refl). destruct (ask v y1) as [o y2] eqn:E2. destruct (o <? 0).
    + unfold schedule_reconnect in H. destruct (retry <=? 0). { assert (Y6 : y2 = y') by congruence. subst. sk E2. eauto using still_trans. }
      destruct (add_timer v y2 (1000 * retry) (CbRetry i)) as [t y3] eqn:E3. assert (Y6 : y3 = y') by congruence. subst. sk E2. sk E3. eauto using still_trans.
    + unfold add_fd in H. destruct (ask v y2) as [a y3] eqn:E3. assert (Y6 : y3 = y') by congruence. subst. sk E2. sk E3. eauto using still_trans.
Qed.

Lemma still_setups : forall v cs y eps y' eps', setup_all v y eps cs = Some (y', eps') -> still y y'.
Proof.
  intros v. induction cs as [|c cs IH]; intros y eps y' eps' H; cbn [setup_all] in H. { injection H as <- <-. apply still_refl. }
  destruct (setup_ep v y (length eps) c) as [[y1 e]|] eqn:E; [|discriminate]. eapply still_trans; [eapply still_setup; eauto|eapply IH; eauto].
Qed.

Lemma still_server : forall v y port b y', tcp_server v y port = (b, y') -> still y y' /\ (b = true -> port <> 0) /\ (calls_ok v y -> port <> 0 -> b = true).
Proof.
  intros v y port b y' H. unfold tcp_server in H. destruct (Z.eqb_spec port 0) as [P|P].
  { injection H as <- <-. split; [apply still_refl|]. split; congruence. }
  destruct (ask v y) as [o y1] eqn:E1. assert (O : o = v_orc v (y_pos y) /\ y1 = set_pos y (Datatypes.S (y_pos y))) by (unfold ask in E1; split; congruence). destruct O as [-> ->]. sk E1.
  destruct (Z.ltb_spec (v_orc v (y_pos y)) 0) as [Q|Q].
  { injection H as <- <-. split; auto. split; [congruence|]. intros K. specialize (K (y_pos y)). lia. }
  destruct (ask v (set_pos y (Datatypes.S (y_pos y)))) as [a y2] eqn:E2. assert (O : a = v_orc v (Datatypes.S (y_pos y))) by (unfold ask in E2; injection E2 as <- _; reflexivity). subst a. sk E2.
  injection H as <- <-. split; [eauto using still_trans|]. split; auto. intros K _. apply Z.leb_le. apply K. lia.
Qed.

(* what happened to the directory: some of the regular numbered files became read-only *)
Definition closing (y y' : sys) : Prop :=
  Forall2 (fun e e' => d_name e' = d_name e /\ d_kind e' = d_kind e /\ d_data e' = d_data e /\
                       (e' = e \/ (d_w e' = false /\ d_kind e = FReg /\ exists i, indexed (d_name e) i)))
          (entries (y_fs y)) (entries (y_fs y')).

Lemma closing_trans : forall a b c, closing a b -> closing b c -> closing a c.
Proof.
  unfold closing. intros a b c A. generalize (entries (y_fs c)). induction A as [|e e' l l' (A1 & A2 & A3 & A4) A IH]; intros m B; inversion B as [|? e2 ? m2 (B1 & B2 & B3 & B4) B5]; subst; constructor; auto.
  split; [congruence|]. split; [congruence|]. split; [congruence|]. destruct B4 as [->|(W & K & N)]; auto. right. rewrite A1, A2 in *. auto.
Qed.
Lemma closing_fs : forall y y', y_fs y' = y_fs y -> closing y y'.
Proof. intros y y' E. unfold closing. rewrite E. induction (entries (y_fs y)); constructor; auto. Qed.

Lemma mark_timers : forall v y, y_timers (mark_unfinished_logs v y) = y_timers y /\ (y_pos y <= y_pos (mark_unfinished_logs v y))%nat.
Proof.
  intros v y. unfold mark_unfinished_logs, ask. cbn [y_fs set_pos]. destruct (y_fs y) as [l|]; [|cbn; auto]. destruct (0 <=? v_orc v (y_pos y)); [|cbn; auto].
  destruct (mark_entries v _ l) as [l' y'] eqn:E. destruct (mark_entries_spec _ _ _ _ _ E) as ((S1 & _ & _ & S2) & _). cbn [y_timers y_pos set_fs set_pos] in *. split; [congruence|lia].
Qed.

Lemma still_logger : forall v y i c lo y', new_logger v y i c = (lo, y') -> still y y'.
Proof.
  intros v y i c lo y' H. unfold new_logger in H. destruct (lc_dialect c).
  - injection H as _ <-. apply still_refl.
  - revert H. generalize (still_bytes (UBUF + UPART) v y). destruct (ask_bytes (UBUF + UPART) v y) as [uj yc]. intros E H. apply (f_equal snd) in H. cbn [snd] in H. subst yc. exact (E _ _ eq_refl).
  - injection H as _ <-. apply still_refl.
Qed.

Lemma mark_dir : forall v y y2, still y y2 -> let y' := mark_unfinished_logs v y2 in
  closing y y' /\ (y_pos y <= y_pos y')%nat /\ (forall t, In t (y_timers y') -> In t (y_timers y) \/ tm_cb t <> CbStats) /\
  (calls_ok v y -> forall e n, In e (entries (y_fs y')) -> d_kind e = FReg -> numbered (d_name e) n -> d_w e = false).
Proof.
  intros v y y2 (F2 & Q2 & R2) y'. unfold y'. clear y'. destruct (mark_timers v y2) as [T2 P2].
  split. { eapply closing_trans; [apply closing_fs; exact F2|apply C46_nothing_else_changes]. }
  split; [lia|]. split. { intros t I. rewrite T2 in I. auto. }
  intros K. apply C46_all_closed. eapply calls_ok_step; [exact K|exact Q2].
Qed.

Lemma setup_log_dir : forall v y i c y' l, setup_log v y i c = (y', l) -> 
  closing y y' /\ (y_pos y <= y_pos y')%nat /\ (forall t, In t (y_timers y') -> In t (y_timers y) \/ tm_cb t <> CbStats) /\
  (calls_ok v y -> forall e n, In e (entries (y_fs y')) -> d_kind e = FReg -> numbered (d_name e) n -> d_w e = false).
Proof.
  intros v y i c y' l H. apply (f_equal fst) in H. cbn [fst] in H. subst y'. unfold setup_log. generalize (still_bytes RXMAX v y). destruct (ask_bytes RXMAX v y) as [junk y1]. intros E1. specialize (E1 _ _ eq_refl).
  generalize (still_logger v y1 i c). destruct (new_logger v y1 i c) as [lo y2]. intros E2. specialize (E2 _ _ eq_refl). pose proof (still_trans _ _ _ E1 E2) as S2. clear E1 E2.
  pose proof (mark_dir v y y2 S2) as M. destruct (lc_tlog c); [|exact M]. revert M. generalize (mark_unfinished_logs v y2). intros y3 (C3 & Q3 & R3 & _).
  generalize (still_bytes RXMAX v y3). destruct (ask_bytes RXMAX v y3) as [junk' y4]. intros E3. specialize (E3 _ _ eq_refl). cbn [fst]. destruct E3 as (F4 & Q4 & R4).
  destruct (mark_dir v y4 y4 (still_refl y4)) as (C5 & Q5 & R5 & K5).
  split. { eapply closing_trans; [exact C3|]. eapply closing_trans; [apply closing_fs; exact F4|exact C5]. }
  split; [lia|]. split. { intros t I. destruct (R5 t I) as [X|X]; auto. destruct (R4 t X); auto. }
  intros K. apply K5. eapply calls_ok_step; [exact K|lia].
Qed.

(* C46: whatever is in the log directory, after start-up the same files are there with the same contents; if the system calls
   succeed and a log directory is configured, every regular numbered file is read-only.  Without one nothing changes. *)
Theorem C46_startup : forall v y c w, start v y c = Some w ->
  match cf_log c with
  | None => y_fs (w_sys w) = y_fs y
  | Some _ =>
    Forall2 (fun e e' => d_name e' = d_name e /\ d_kind e' = d_kind e /\ d_data e' = d_data e /\
                         (e' = e \/ (d_w e' = false /\ d_kind e = FReg /\ exists i, indexed (d_name e) i)))
            (entries (y_fs y)) (entries (y_fs (w_sys w))) /\
    (calls_ok v y -> forall e i, In e (entries (y_fs (w_sys w))) -> d_kind e = FReg -> numbered (d_name e) i -> d_w e = false)
  end.
Proof.
  intros v y c w H. unfold start in H. destruct (setup_all v y [] _) as [[y1 eps]|] eqn:S; [|discriminate]. apply still_setups in S.
  destruct (tcp_server _ _ _) as [sv y2] eqn:TS. apply still_server in TS. destruct TS as (TS & _). pose proof (still_trans _ _ _ S TS) as S2.
  destruct (match cf_log c with None => _ | Some _ => _ end) as [y3 logs] eqn:LG.
  destruct (if cf_stats c then _ else _) as [t1 y4] eqn:E4. destruct (add_timer v y4 5000 CbAggregate) as [t2 y5] eqn:E5.
  assert (F4 : y_fs y4 = y_fs y3). { destruct (cf_stats c); [|injection E4 as _ <-; reflexivity]. unfold add_timer in E4. destruct (negb _); injection E4 as _ <-; reflexivity. }
  assert (F5 : y_fs y5 = y_fs y4) by (sk E5; apply E5).
  assert (W : w_sys w = y5) by (injection H as <-; reflexivity). rewrite W. clear H W.
  destruct S2 as (F2 & P2 & _). destruct (cf_log c) as [lc|].
  - apply setup_log_dir in LG. destruct LG as (C & P & _ & K).
    assert (CC : closing y y5). { eapply closing_trans; [apply closing_fs; exact F2|]. eapply closing_trans; [exact C|]. apply closing_fs. congruence. }
    split; [exact CC|]. intros KO e i I. rewrite F5, F4 in I. revert I. apply K. eapply calls_ok_step; eauto.
  - injection LG as <- _. congruence.
Qed.
Print Assumptions C46_startup.

(* ---- C78: the settings arrive in the started program ---- *)

(* what a logger was started with: the extension of its logs (None: depends on the autopilot), the free space to keep, the
   number of logs to keep, the mode and the system whose data it records *)
Definition logger_settings (e : option ep) : list (option (list Z) * Z * Z * lmode * Z) :=
  match e with
  | None => []
  | Some e => match ep_kind e with
              | KLog (LFile g _) => [(Some (l_ext g), l_minfree g, l_maxlogs g, l_mode g, l_target g)]
              | KLog (LAuto a) => [(None, a_minfree a, a_maxlogs a, a_mode a, a_fcu a)]
              | _ => []
              end
  end.
(* what the configuration asks for *)
Definition wanted_loggers (l : logc) : list (option (list Z) * Z * Z * lmode * Z) :=
  if is_empty (lo_dir l) then []
  else (match lo_dialect l with DAuto => None | DCommon => Some (lit "ulg") | DArdupilot => Some (lit "bin") end,
        lo_minfree l, lo_maxlogs l, lo_mode l, lo_fcu l)
       :: (if lo_tlog l then [(Some (lit "tlog"), lo_minfree l, lo_maxlogs l, lo_mode l, lo_fcu l)] else []).

Lemma link_one_kind : forall all i e k, ep_kind (link_one i e k all) = ep_kind e.
Proof.
  induction all as [|[o|] all IH]; intros i e k; cbn [link_one]; auto. rewrite IH. destruct (Nat.eqb i k); auto. unfold link_member.
  destruct (is_empty (ep_group e) || negb (beqs (ep_group o) (ep_group e))); reflexivity.
Qed.
Lemma link_settings : forall eps k all, flat_map logger_settings (link_from k all eps) = flat_map logger_settings eps.
Proof.
  induction eps as [|[e|] eps IH]; intros k all; cbn [link_from flat_map]; auto; rewrite IH; auto. f_equal. unfold logger_settings. destruct (is_empty (ep_group e)); auto.
  rewrite link_one_kind. reflexivity.
Qed.
Lemma fresh_settings : forall es cs P, Forall2 (fun (c : epconf) e => fresh_ep e /\ P c e) cs es -> flat_map logger_settings (map Some es) = [].
Proof.
  intros es cs P F. induction F as [|c e cs es ((_ & _ & _ & L) & _) F IH]; auto. cbn [map flat_map]. rewrite IH. unfold is_log in L. unfold logger_settings.
  destruct (ep_kind e); try reflexivity. discriminate.
Qed.
Lemma setup_log_settings : forall v y i c y' ls, setup_log v y i c = (y', ls) ->
  flat_map logger_settings (map Some ls) =
  (match lc_dialect c with DAuto => None | DCommon => Some (lit "ulg") | DArdupilot => Some (lit "bin") end, lc_minfree c, lc_maxlogs c, lc_mode c, lc_fcu c)
  :: (if lc_tlog c then [(Some (lit "tlog"), lc_minfree c, lc_maxlogs c, lc_mode c, lc_fcu c)] else []).
Proof.
  intros v y i c y' ls H. apply (f_equal snd) in H. cbn [snd] in H. subst ls. unfold setup_log. destruct (ask_bytes RXMAX v y) as [junk y1].
  assert (NL : forall lo y2, new_logger v y1 i c = (lo, y2) -> logger_settings (Some (log_ep junk lo)) = 
     [(match lc_dialect c with DAuto => None | DCommon => Some (lit "ulg") | DArdupilot => Some (lit "bin") end, lc_minfree c, lc_maxlogs c, lc_mode c, lc_fcu c)]).
  { intros lo y2 H. apply (f_equal fst) in H. cbn [fst] in H. subst lo. unfold new_logger. destruct (lc_dialect c); [reflexivity|destruct (ask_bytes (UBUF + UPART) v y1); reflexivity|reflexivity]. }
  destruct (new_logger v y1 i c) as [lo y2]. specialize (NL _ _ eq_refl). destruct (lc_tlog c).
  - destruct (ask_bytes RXMAX v (mark_unfinished_logs v y2)) as [junk' y4]. cbn [snd map flat_map]. rewrite NL. reflexivity.
  - cbn [snd map flat_map]. rewrite NL. reflexivity.
Qed.

Lemma start_parts : forall v y c w, start v y c = Some w ->
  flat_map logger_settings (w_eps w) = match cf_log c with None => [] | Some l =>
    (match lc_dialect l with DAuto => None | DCommon => Some (lit "ulg") | DArdupilot => Some (lit "bin") end, lc_minfree l, lc_maxlogs l, lc_mode l, lc_fcu l)
    :: (if lc_tlog l then [(Some (lit "tlog"), lc_minfree l, lc_maxlogs l, lc_mode l, lc_fcu l)] else []) end /\
  (w_server w = true -> cf_tcp_port c <> 0) /\ (calls_ok v y -> cf_tcp_port c <> 0 -> w_server w = true) /\
  ((forall t, In t (y_timers y) -> tm_cb t <> CbStats) -> 
   (cf_stats c = false -> forall t, In t (y_timers (w_sys w)) -> tm_cb t <> CbStats) /\
   (cf_stats c = true -> (forall n, v_tmr v n = true) -> exists t, In t (y_timers (w_sys w)) /\ tm_cb t = CbStats /\ tm_ms t = 1000)).
Proof.
  intros v y c w H. unfold start in H. destruct (setup_all v y [] _) as [[y1 eps]|] eqn:S; [|discriminate].
  destruct (setup_all_fresh _ _ _ _ _ _ S) as (es & E & F). cbn [app] in E. subst eps. apply still_setups in S.
  destruct (tcp_server _ _ _) as [sv y2] eqn:TS. apply still_server in TS. destruct TS as (TS & T1 & T2). pose proof (still_trans _ _ _ S TS) as S2.
  assert (LG : forall y3 logs, (match cf_log c with None => (y2, []) | Some lc => setup_log v y2 (length (link_groups (map Some es))) lc end) = (y3, logs) ->
     flat_map logger_settings (map Some logs) = match cf_log c with None => [] | Some l =>
    (match lc_dialect l with DAuto => None | DCommon => Some (lit "ulg") | DArdupilot => Some (lit "bin") end, lc_minfree l, lc_maxlogs l, lc_mode l, lc_fcu l)
    :: (if lc_tlog l then [(Some (lit "tlog"), lc_minfree l, lc_maxlogs l, lc_mode l, lc_fcu l)] else []) end /\
     forall t, In t (y_timers y3) -> In t (y_timers y2) \/ tm_cb t <> CbStats).
  { intros y3 logs X. destruct (cf_log c) as [lc|]. { split; [eapply setup_log_settings; eauto|]. apply setup_log_dir in X. apply X. } injection X as <- <-. auto. }
  destruct (match cf_log c with None => _ | Some _ => _ end) as [y3 logs]. specialize (LG _ _ eq_refl). destruct LG as (LG & R3).
  destruct (if cf_stats c then _ else _) as [t1 y4] eqn:E4. destruct (add_timer v y4 5000 CbAggregate) as [t2 y5] eqn:E5.
  assert (W1 : w_sys w = y5) by (injection H as <-; reflexivity). assert (W2 : w_server w = sv) by (injection H as <-; reflexivity).
  assert (W3 : w_eps w = link_groups (map Some es) ++ map Some logs) by (injection H as <-; reflexivity). clear H. rewrite W1, W2, W3. clear W1 W2 W3.
  split. { rewrite flat_map_app, LG. unfold link_groups. rewrite link_settings. rewrite (fresh_settings _ _ _ F). reflexivity. }
  split; auto. split. { intros K. apply T2. eapply calls_ok_step; [exact K|apply S]. }
  intros NO. destruct S2 as (_ & _ & R2). split.
  - intros CS t I. rewrite CS in E4. injection E4 as <- <-. sk E5. destruct E5 as (_ & _ & R5). destruct (R5 t I) as [X|X]; auto. destruct (R3 t X) as [X2|X2]; auto. destruct (R2 t X2); auto.
  - intros CS OK. rewrite CS in E4. unfold add_timer in E4, E5. rewrite OK in E4, E5. cbn [negb] in E4, E5. injection E4 as <- <-. injection E5 as <- <-.
    eexists. split; [right; left; reflexivity|]. split; reflexivity.
Qed.

(* C78: the values of the configuration arrive in the started program *)
Theorem C78_settings_partial : forall v y host g w, start v y (to_config host g) = Some w ->
  (0 <= g_sniffer g < 65536 -> w_sniffer w = g_sniffer g) /\
  (0 <= g_dedup g < 4294967296 -> dd_period (w_dedup w) = g_dedup g) /\
  (w_server w = true -> g_tcp_port g <> 0) /\ (calls_ok v y -> g_tcp_port g <> 0 -> w_server w = true) /\
  flat_map logger_settings (w_eps w) = wanted_loggers (g_log g) /\
  ((forall t, In t (y_timers y) -> tm_cb t <> CbStats) ->
   (g_stats g = false -> forall t, In t (y_timers (w_sys w)) -> tm_cb t <> CbStats) /\
   (g_stats g = true -> (forall n, v_tmr v n = true) -> exists t, In t (y_timers (w_sys w)) /\ tm_cb t = CbStats /\ tm_ms t = 1000)).
Proof.
  intros v y host g w H. pose proof (start_shape _ _ _ _ H) as (es & ls & _ & _ & _ & _ & _ & SN & _ & _ & DD & _).
  destruct (start_parts _ _ _ _ H) as (P1 & P2 & P3 & P4). cbn [to_config cf_log cf_stats cf_tcp_port cf_sniffer cf_dedup] in *.
  split. { intros B. rewrite SN. unfold u16. apply Z.mod_small. lia. }
  split. { intros B. rewrite DD. unfold dedup_new. cbn [dd_period]. destruct (Z.ltb_spec 0 (g_dedup g)); unfold u32; try (apply Z.mod_small; lia). change (0 mod 4294967296) with 0. lia. }
  split; auto. split; auto. split; [|exact P4]. rewrite P1. unfold wanted_loggers. destruct (is_empty (lo_dir (g_log g))); reflexivity.
Qed.
Print Assumptions C78_settings_partial.

(* a directory with two logs, one of them unfinished, and another file; a text with settings; the started program *)
Definition st_settings : list Z := lit "[General]
TcpServerPort = 5790
ReportStats = true
SnifferSysid = 254
DeduplicationPeriod = 200
Log = /var/log/flight-stack
MavlinkDialect = common
MinFreeSpace = 1000
MaxLogFiles = 7
LogTelemetry = true
[UdpEndpoint air]
Mode = server
Address = 0.0.0.0
Port = 14550
".
Definition st_dir : list Sys.dirent :=
  [mkDirent (lit "00001-2024-01-01_10-00-00.ulg") FReg false [1; 2]; mkDirent (lit "00002-2024-01-01_10-05-00.ulg") FReg true [3]; mkDirent (lit "notes.txt") FReg true [4]].
Example C46_startup_nonvacuous : exists cs g w,
  parse (NData st_settings) [] = Ok (0, cs) /\ parse_confs cs g_default = Ok (0, g) /\
  start ex_venv (mkSys 0 [] 0 (Some st_dir) 0) (to_config (fun _ => 7) g) = Some w /\
  map (fun e => (d_name e, d_w e)) (entries (y_fs (w_sys w))) =
    [(lit "00001-2024-01-01_10-00-00.ulg", false); (lit "00002-2024-01-01_10-05-00.ulg", false); (lit "notes.txt", true)] /\
  w_sniffer w = 254 /\ dd_period (w_dedup w) = 200 /\ w_server w = true /\
  flat_map logger_settings (w_eps w) = [(Some (lit "ulg"), 1000, 7, MAlways, -1); (Some (lit "tlog"), 1000, 7, MAlways, -1)] /\
  existsb (fun t => match tm_cb t with CbStats => true | _ => false end) (y_timers (w_sys w)) = true.
Proof.
  eexists. eexists. eexists. split; [vm_compute; reflexivity|]. split; [vm_compute; reflexivity|]. split; [vm_compute; reflexivity|].
  split; [vm_compute; reflexivity|]. split; [vm_compute; reflexivity|]. split; [vm_compute; reflexivity|]. split; [vm_compute; reflexivity|]. split; vm_compute; reflexivity.
Qed.
