(* Invariant of a logger: which timers it owns, whether its file is open. *)
From Verif Require Import Base Mav Frame Names NamesProofs Sys LogFile LogFileProofs ULog Loggers.

(* ---- timers ------------------------------------------------------------------------------- *)

Definition sys_ok (y : sys) : Prop :=
  NoDup (map tm_id (y_timers y)) /\ Forall (fun t => (tm_id t < y_next y)%nat) (y_timers y).

(* the logger endpoint a callback belongs to *)
Definition log_cb (cb : callback) : option nat :=
  match cb with CbLogStart i | CbFsync i | CbAlive i => Some i | _ => None end.
Definition mine (ep : nat) (t : timer) : bool :=
  match log_cb (tm_cb t) with Some i => Nat.eqb i ep | None => false end.
Definition others (ep : nat) (l : list timer) : list timer := filter (fun t => negb (mine ep t)) l.

(* nothing but the timers of logger [ep] changed (apart from directory, call counter, sequence number) *)
Definition own (ep : nat) (y y' : sys) : Prop :=
  others ep (y_timers y') = others ep (y_timers y) /\ (y_next y <= y_next y')%nat /\ (y_pos y <= y_pos y')%nat.

Lemma own_refl : forall ep y, own ep y y.
Proof. unfold own. auto. Qed.
Lemma own_trans : forall ep a b c, own ep a b -> own ep b c -> own ep a c.
Proof. unfold own. intros ep a b c (A & B & P) (C & D & Q). split; [congruence|lia]. Qed.
Lemma own_fs : forall ep y y', fs_step y y' -> own ep y y'.
Proof. intros ep y y' (A & B & _ & P). unfold own. rewrite A, B. auto. Qed.
Lemma sys_ok_fs : forall y y', fs_step y y' -> sys_ok y -> sys_ok y'.
Proof. intros y y' (A & B & _) H. unfold sys_ok in *. rewrite A, B. auto. Qed.

(* a live timer with this identity and callback *)
Definition live (y : sys) (id : nat) (cb : callback) : Prop :=
  exists t, In t (y_timers y) /\ tm_id t = id /\ tm_cb t = cb /\ tm_dead t = false.

Definition ptr_ok (y : sys) (p : option nat) (cb : callback) : Prop :=
  match p with Some id => live y id cb | None => True end.

Record linv (y : sys) (g : lg) : Prop := mkLinv {
  li_closed : l_open g = false -> l_tstart g = None /\ l_tfsync g = None /\ l_talive g = None;
  li_alive : l_tstart g <> None -> l_talive g = None;
  li_start : ptr_ok y (l_tstart g) (CbLogStart (l_ep g));
  li_fsync : ptr_ok y (l_tfsync g) (CbFsync (l_ep g));
  li_alv : ptr_ok y (l_talive g) (CbAlive (l_ep g));
  (* no other live timer calls this logger *)
  li_only : forall t, In t (y_timers y) -> tm_dead t = false ->
     (tm_cb t = CbLogStart (l_ep g) -> l_tstart g = Some (tm_id t)) /\
     (tm_cb t = CbFsync (l_ep g) -> l_tfsync g = Some (tm_id t)) /\
     (tm_cb t = CbAlive (l_ep g) -> l_talive g = Some (tm_id t)) }.

Lemma linv_fs : forall y y' g, fs_step y y' -> linv y g -> linv y' g.
Proof.
  intros y y' g (A & B & _) [C D E F G H]. split; auto; try rewrite A; auto;
  unfold ptr_ok, live in *; rewrite A; auto.
Qed.

(* the timers with the same list *)
Lemma linv_timers : forall y y' g g', y_timers y' = y_timers y -> linv y g ->
  l_ep g' = l_ep g -> l_open g' = l_open g -> l_tstart g' = l_tstart g -> l_tfsync g' = l_tfsync g -> l_talive g' = l_talive g ->
  linv y' g'.
Proof.
  intros y y' g g' A [C D E F G H] E1 E2 E3 E4 E5. split; rewrite ?E1, ?E2, ?E3, ?E4, ?E5; auto;
  unfold ptr_ok, live in *; rewrite ?A; auto.
Qed.

Lemma add_timer_spec : forall v y ms cb r y', add_timer v y ms cb = (r, y') -> sys_ok y ->
  sys_ok y' /\ y_fs y' = y_fs y /\ y_seq y' = y_seq y /\ y_pos y' = Datatypes.S (y_pos y) /\
  match r with
  | None => y_timers y' = y_timers y /\ y_next y' = y_next y
  | Some id => id = y_next y /\ y_timers y' = mkTimer id cb (u32 ms) false :: y_timers y /\ y_next y' = Datatypes.S (y_next y)
  end.
Proof.
  intros v y ms cb r y' H (ND & LT). unfold add_timer in H.
  destruct (negb (v_tmr v (y_pos y))); inversion H; subst; clear H; cbn [y_fs y_seq y_timers y_next y_pos set_pos].
  - repeat split; auto.
  - repeat split; auto; cbn [y_timers y_next set_pos map tm_id].
    + constructor; auto. intros X. apply in_map_iff in X. destruct X as (t & E & I). rewrite Forall_forall in LT.
      specialize (LT _ I). lia.
    + constructor; cbn; auto. eapply Forall_impl; [|exact LT]. cbn. intros; lia.
Qed.

Lemma add_timer_own : forall v y ms cb r y' ep, add_timer v y ms cb = (r, y') -> sys_ok y -> log_cb cb = Some ep -> own ep y y'.
Proof.
  intros v y ms cb r y' ep H K C. destruct (add_timer_spec _ _ _ _ _ _ H K) as (_ & _ & _ & P & R).
  destruct r as [id|]; unfold own; destruct R as [R1 R2].
  - destruct R2 as [R2 R3]. rewrite R2, R3. split; [|lia]. unfold others. cbn [filter].
    unfold mine at 1. cbn [tm_cb]. rewrite C, Nat.eqb_refl. reflexivity.
  - rewrite R1, R2. split; auto. lia.
Qed.

Definition mark_dead (id : nat) (l : list timer) : list timer :=
  map (fun t => if Nat.eqb (tm_id t) id then mkTimer (tm_id t) (tm_cb t) (tm_ms t) true else t) l.

Lemma mark_dead_ids : forall id l, map tm_id (mark_dead id l) = map tm_id l.
Proof. intros. unfold mark_dead. rewrite map_map. apply map_ext. intros t. destruct (Nat.eqb _ _); auto. Qed.

Lemma mark_dead_in : forall id l t, In t (mark_dead id l) -> tm_dead t = false -> In t l /\ tm_id t <> id.
Proof.
  intros id l t H D. apply in_map_iff in H. destruct H as (s & E & I).
  destruct (Nat.eqb_spec (tm_id s) id).
  - subst t. cbn in D. discriminate.
  - subst t. auto.
Qed.
Lemma mark_dead_keeps : forall id l t, In t l -> tm_id t <> id -> In t (mark_dead id l).
Proof.
  intros id l t I N. apply in_map_iff. exists t. split; auto. destruct (Nat.eqb_spec (tm_id t) id); congruence.
Qed.

Lemma mark_dead_others : forall ep id l, (forall t, In t l -> tm_id t = id -> mine ep t = true) ->
  others ep (mark_dead id l) = others ep l.
Proof.
  induction l as [|t l IH]; intros H; auto. cbn [mark_dead map]. fold (mark_dead id l). unfold others in *. cbn [filter].
  destruct (Nat.eqb_spec (tm_id t) id) as [E|E].
  - assert (M : mine ep t = true) by (apply H; cbn; auto).
    assert (M' : mine ep (mkTimer (tm_id t) (tm_cb t) (tm_ms t) true) = true) by exact M.
    rewrite M, M'. cbn [negb]. apply IH. intros; apply H; cbn; auto.
  - rewrite IH; auto. intros; apply H; cbn; auto.
Qed.

Lemma del_timer_spec : forall y id cb, sys_ok y -> live y id cb -> exists y',
  del_timer y id = Ok y' /\ sys_ok y' /\ y_timers y' = mark_dead id (y_timers y) /\ y_next y' = y_next y /\
  y_fs y' = y_fs y /\ y_seq y' = y_seq y /\ y_pos y' = y_pos y /\
  (forall t, In t (y_timers y) -> tm_id t = id -> tm_cb t = cb).
Proof.
  intros y id cb (ND & LT) (t & I & E & C & D). unfold del_timer, has_timer.
  assert (X : existsb (fun t => Nat.eqb (tm_id t) id) (y_timers y) = true).
  { apply existsb_exists. exists t. split; auto. apply Nat.eqb_eq. auto. }
  rewrite X. eexists. split; [reflexivity|]. cbn [y_timers y_next y_fs y_seq y_pos set_timers].
  fold (mark_dead id (y_timers y)). split.
  { split; cbn [y_timers y_next set_timers].
    - fold (mark_dead id (y_timers y)). rewrite mark_dead_ids. auto.
    - apply Forall_forall. intros s Hs. apply in_map_iff in Hs. destruct Hs as (s0 & <- & I0).
      rewrite Forall_forall in LT. specialize (LT _ I0). destruct (Nat.eqb _ _); auto. }
  repeat split; auto. intros s Is Es.
  assert (s = t).
  { clear - ND I Is E Es. induction (y_timers y) as [|a l IH]; [destruct I|]. cbn in ND. inversion ND; subst.
    destruct I as [->|I], Is as [->|Is]; auto.
    - exfalso. apply H1. rewrite <- Es. apply in_map; auto.
    - exfalso. apply H1. rewrite Es. apply in_map; auto. }
  subst s. auto.
Qed.

Lemma live_ids_distinct : forall y id1 id2 cb1 cb2, sys_ok y -> live y id1 cb1 -> live y id2 cb2 -> cb1 <> cb2 -> id1 <> id2.
Proof.
  intros y id1 id2 cb1 cb2 (ND & _) (t & I & E & C & D) (s & I' & E' & C' & D') N X.
  assert (s = t).
  { subst. clear - ND I I' X. induction (y_timers y) as [|a l IH]; [destruct I|]. cbn in ND. inversion ND; subst.
    destruct I as [->|I], I' as [->|I']; auto.
    - exfalso. apply H1. rewrite X. apply in_map; auto.
    - exfalso. apply H1. rewrite <- X. apply in_map; auto. }
  congruence.
Qed.

Lemma live_mark : forall y y' id id' cb, y_timers y' = mark_dead id (y_timers y) -> live y id' cb -> id' <> id -> live y' id' cb.
Proof.
  intros y y' id id' cb E (t & I & A & B & C) N. exists t. rewrite E. split; auto. apply mark_dead_keeps; congruence.
Qed.

(* dropping one of the logger's timers *)
Lemma drop_timer_spec : forall y p cb ep, sys_ok y -> ptr_ok y p cb -> log_cb cb = Some ep -> exists y',
  drop_timer y p = Ok y' /\ sys_ok y' /\ own ep y y' /\ y_fs y' = y_fs y /\ y_seq y' = y_seq y /\ y_pos y' = y_pos y /\
  (forall id' cb', live y id' cb' -> p <> Some id' -> live y' id' cb') /\
  (forall t, In t (y_timers y') -> tm_dead t = false -> In t (y_timers y) /\ p <> Some (tm_id t)).
Proof.
  intros y p cb ep K P C. destruct p as [id|]; cbn [drop_timer].
  - destruct (del_timer_spec y id cb K P) as (y' & E & K' & T & N & F & S & PO & U).
    exists y'. split; auto. split; auto. split.
    { unfold own. rewrite T, N, PO. split; auto. apply mark_dead_others. intros t I E'. unfold mine.
      rewrite (U t I E'), C, Nat.eqb_refl. auto. }
    split; auto. split; auto. split; auto. split.
    + intros id' cb' L NE. eapply live_mark; eauto; congruence.
    + intros t I D. rewrite T in I. destruct (mark_dead_in _ _ _ I D). split; auto; congruence.
  - exists y. split; auto. split; auto. split; [apply own_refl|]. repeat split; auto; congruence.
Qed.

(* ---- stop ------------------------------------------------------------------------------------- *)

(* what does not change while a logger runs *)
Definition same_cfg (g g' : lg) : Prop :=
  l_ep g' = l_ep g /\ l_ext g' = l_ext g /\ l_minfree g' = l_minfree g /\ l_maxlogs g' = l_maxlogs g /\
  l_target g' = l_target g /\ l_mode g' = l_mode g.
Lemma same_cfg_refl : forall g, same_cfg g g.
Proof. unfold same_cfg. auto 10. Qed.
Lemma same_cfg_trans : forall a b c, same_cfg a b -> same_cfg b c -> same_cfg a c.
Proof. unfold same_cfg. intuition; congruence. Qed.

Definition same_counts (g g' : lg) : Prop :=
  l_wtotal g' = l_wtotal g /\ l_wbytes g' = l_wbytes g /\ l_sent g' = l_sent g /\ l_mark g' = l_mark g.

(* the directory after closing the log: the file is read-only, if chmod succeeded *)
Definition closed_dir (y y' : sys) (name : list Z) : Prop :=
  y_fs y' = y_fs y \/
  (exists l, y_fs y = Some l /\ y_fs y' = Some (fs_upd l name d_readonly)).

Lemma log_stop_spec : forall v y g, sys_ok y -> linv y g -> exists y' g',
  log_stop v y g = Ok (y', g') /\ sys_ok y' /\ linv y' g' /\ own (l_ep g) y y' /\ same_cfg g g' /\ same_counts g g' /\
  l_open g' = false /\ l_name g' = l_name g /\ y_seq y' = y_seq y /\ closed_dir y y' (l_name g) /\
  (calls_ok v y -> forall l, y_fs y = Some l -> y_fs y' = Some (fs_upd l (l_name g) d_readonly)).
Proof.
  intros v y g K [C0 D0 E0 F0 G0 H0]. unfold log_stop.
  destruct (drop_timer_spec y (l_tstart g) _ (l_ep g) K E0) as (y1 & X1 & K1 & O1 & FS1 & SQ1 & PO1 & L1 & U1); auto.
  rewrite X1. cbn [bind].
  assert (A1 : ptr_ok y1 (l_talive g) (CbAlive (l_ep g))).
  { destruct (l_talive g) as [ida|] eqn:TA; cbn in *; auto. apply L1; auto.
    destruct (l_tstart g) as [ids|]; [|discriminate]. assert (X : Some ids <> None) by congruence. apply D0 in X. discriminate. }
  destruct (drop_timer_spec y1 (l_talive g) _ (l_ep g) K1 A1) as (y2 & X2 & K2 & O2 & FS2 & SQ2 & PO2 & L2 & U2); auto.
  rewrite X2. cbn [bind].
  assert (A2 : ptr_ok y2 (l_tfsync g) (CbFsync (l_ep g))).
  { destruct (l_tfsync g) as [idf|] eqn:TF; cbn in *; auto. apply L2; [apply L1; auto|].
    - intros X. rewrite X in E0. cbn in E0. assert (N : CbLogStart (l_ep g) <> CbFsync (l_ep g)) by discriminate. exact (live_ids_distinct y idf idf _ _ K E0 F0 N eq_refl).
    - intros X. rewrite X in G0. cbn in G0. assert (N : CbAlive (l_ep g) <> CbFsync (l_ep g)) by discriminate. exact (live_ids_distinct y idf idf _ _ K G0 F0 N eq_refl). }
  destruct (drop_timer_spec y2 (l_tfsync g) _ (l_ep g) K2 A2) as (y3 & X3 & K3 & O3 & FS3 & SQ3 & PO3 & L3 & U3); auto.
  rewrite X3. cbn [bind]. unfold ask.
  set (y4 := set_pos y3 (Datatypes.S (y_pos y3))).
  match goal with |- context [Ok (?a, ?b)] => exists a, b end. split; [reflexivity|].
  set (y5 := if 0 <=? v_orc v (y_pos y3) then _ else y4).
  assert (S4 : fs_step y3 y4) by (unfold fs_step; cbn; auto).
  assert (S5 : fs_step y4 y5).
  { unfold y5. destruct (0 <=? _); [destruct (y_fs y4)|]; unfold fs_step; cbn; auto. }
  assert (S : fs_step y3 y5) by (eapply fs_step_trans; eauto).
  split. { eapply sys_ok_fs; eauto. }
  split.
  { split; cbn [l_ep l_open l_tstart l_tfsync l_talive set_timeouts set_file ptr_ok]; auto.
    intros t I D. destruct S as (ST & _). rewrite ST in I. destruct (U3 _ I D) as [I2 N3].
    destruct (U2 _ I2 D) as [I1 N2]. destruct (U1 _ I1 D) as [I0 N1].
    destruct (H0 _ I0 D) as (Q1 & Q2 & Q3). repeat split; intros Q; exfalso; auto. }
  split. { eapply own_trans; [exact O1|]. eapply own_trans; [exact O2|]. eapply own_trans; [exact O3|]. apply own_fs; auto. }
  split. { unfold same_cfg. cbn. auto 10. }
  split. { unfold same_counts. cbn. auto 10. }
  split; [reflexivity|]. split; [reflexivity|]. split. { destruct S as (_ & _ & SQ & _). congruence. }
  assert (F4 : y_fs y4 = y_fs y) by (cbn; congruence).
  assert (F5 : y_fs y5 = y_fs y4 \/ (exists l, y_fs y4 = Some l /\ y_fs y5 = Some (fs_upd l (l_name g) d_readonly))).
  { unfold y5. destruct (0 <=? _); auto. destruct (y_fs y4) as [l|] eqn:F; auto. right. exists l. split; auto. }
  split. { unfold closed_dir. rewrite <- F4. exact F5. }
  intros KO l F. assert (X : 0 <=? v_orc v (y_pos y3) = true) by (apply Z.leb_le; apply KO; lia).
  unfold y5. rewrite X. rewrite F4, F. reflexivity.
Qed.

(* ---- start ------------------------------------------------------------------------------------- *)

Lemma log_start_spec : forall v y g, sys_ok y -> linv y g -> exists y' g' ok,
  log_start v y g = Ok (y', g', ok) /\ sys_ok y' /\ linv y' g' /\ own (l_ep g) y y' /\ same_cfg g g' /\ same_counts g g' /\
  y_seq y' = y_seq y /\
  l_open g' = (l_open g || ok) /\ (l_open g = true -> ok = false /\ y' = y /\ g' = g) /\
  (ok = true -> l_off g' = O).
Proof.
  intros v y g K L. unfold log_start. destruct (l_open g) eqn:OP.
  { exists y, g, false. rewrite OP. split; auto. split; auto. split; auto. split; [apply own_refl|].
    split; [apply same_cfg_refl|]. split; [unfold same_counts; auto 10|]. repeat split; auto. discriminate. }
  set (y1 := delete_old_logs v y g). destruct (delete_old_safe v y g) as (S1 & _). fold y1 in S1.
  destruct (get_file v y1 g) as [r y2] eqn:GF. destruct (get_file_spec _ _ _ _ _ GF) as (S2 & _).
  assert (S : fs_step y y2) by (eapply fs_step_trans; eauto).
  assert (K2 : sys_ok y2) by (eapply sys_ok_fs; eauto).
  assert (L2 : linv y2 g) by (eapply linv_fs; eauto).
  destruct (li_closed _ _ L2 OP) as (T1 & T2 & T3).
  destruct r as [name|].
  2:{ exists y2, g, false. rewrite OP. split; auto. split; auto. split; auto. split; [apply own_fs; auto|].
      split; [apply same_cfg_refl|]. split; [unfold same_counts; auto 10|]. split; [apply S|]. repeat split; auto; discriminate. }
  destruct (add_timer v y2 1000 (CbLogStart (l_ep g))) as [ts y3] eqn:A1.
  destruct (add_timer_spec _ _ _ _ _ _ A1 K2) as (K3 & F3 & Q3 & P3 & R3).
  assert (O3 : own (l_ep g) y2 y3) by (eapply add_timer_own; eauto; reflexivity).
  destruct ts as [ts|].
  2:{ destruct R3 as [R3 N3]. eexists. eexists. exists false. split; [reflexivity|]. split; auto. split.
      { eapply linv_timers; [exact R3|exact L2| | | | |]; cbn; auto. }
      split. { eapply own_trans; [apply own_fs; exact S|exact O3]. }
      split; [unfold same_cfg; cbn; auto 10|]. split; [unfold same_counts; cbn; auto 10|].
      split. { destruct S as (_ & _ & SQ & _). congruence. }
      cbn. repeat split; auto; discriminate. }
  destruct R3 as (-> & R3 & N3).
  destruct (add_timer v y3 1000 (CbFsync (l_ep g))) as [tf y4] eqn:A2.
  destruct (add_timer_spec _ _ _ _ _ _ A2 K3) as (K4 & F4 & Q4 & P4 & R4).
  assert (O4 : own (l_ep g) y3 y4) by (eapply add_timer_own; eauto; reflexivity).
  destruct tf as [tf|].
  - destruct R4 as (-> & R4 & N4). eexists. eexists. exists true. split; [reflexivity|]. split; auto. split.
    { split; cbn [l_ep l_open l_tstart l_tfsync l_talive set_timeouts set_file ptr_ok]; rewrite ?T3; auto.
      - discriminate.
      - unfold live. rewrite R4, R3. eexists. split; [right; left; reflexivity|]. auto.
      - unfold live. rewrite R4, R3. eexists. split; [left; reflexivity|]. auto.
      - exact I.
      - intros t I D. rewrite R4, R3 in I. destruct I as [<-|[<-|I]]; cbn [tm_cb tm_id]; try (repeat split; congruence).
        destruct (li_only _ _ L2 t I D) as (Q1 & Q2 & Q5). rewrite T1, T2, T3 in *.
        repeat split; intros Q; exfalso; [apply Q1 in Q|apply Q2 in Q|apply Q5 in Q]; discriminate. }
    split. { eapply own_trans; [apply own_fs; exact S|]. eapply own_trans; eauto. }
    split; [unfold same_cfg; cbn; auto 10|]. split; [unfold same_counts; cbn; auto 10|].
    split. { destruct S as (_ & _ & SQ & _). congruence. }
    cbn. repeat split; auto; discriminate.
  - destruct R4 as [R4 N4].
    assert (LV : live y4 (y_next y2) (CbLogStart (l_ep g))).
    { unfold live. rewrite R4, R3. eexists. split; [left; reflexivity|]. auto. }
    destruct (del_timer_spec y4 _ _ K4 LV) as (y5 & E5 & K5 & R5 & N5 & F5 & Q5 & P5 & U5).
    rewrite E5. cbn [bind]. eexists. eexists. exists false. split; [reflexivity|]. split; auto. split.
    { split; cbn [l_ep l_open l_tstart l_tfsync l_talive set_timeouts set_file ptr_ok]; rewrite ?T3; auto.
      - exact I.
      - intros t I D. rewrite R5 in I. apply mark_dead_in in I; auto. destruct I as [I NE]. rewrite R4, R3 in I.
        destruct I as [<-|I]. { cbn in NE. congruence. }
        destruct (li_only _ _ L2 t I D) as (W1 & W2 & W3). rewrite T1, T2, T3 in *. auto. }
    split.
    { eapply own_trans; [apply own_fs; exact S|]. eapply own_trans; [exact O3|]. eapply own_trans; [exact O4|].
      unfold own. rewrite R5, N5, P5. split; auto. apply mark_dead_others. intros t I E. unfold mine. rewrite (U5 t I E). cbn. apply Nat.eqb_refl. }
    split; [unfold same_cfg; cbn; auto 10|]. split; [unfold same_counts; cbn; auto 10|].
    split. { destruct S as (_ & _ & SQ & _). congruence. }
    cbn. repeat split; auto; discriminate.
Qed.
