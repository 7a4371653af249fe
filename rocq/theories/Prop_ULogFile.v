(* Property C83: a ULog log consists of whole messages of the vehicle, in order. *)
From Verif Require Import Base Mav SpecCrc SpecFrame Frame FrameProofs Names NamesProofs Sys LogFile LogFileProofs ULog Loggers LogInv LogStep
  SpecLog SpecULog LogRun LogModes LogModes2 BinProofs ULogProofs ULogStream ULogRun ULogMore CrcProofs ExFrame Prop_LogModes Prop_BinLog
  Prop_ULog Prop_ULogEx SpecVehicle ULogVehicle.

Lemma following_log : forall hd ms x ps y g u e, following hd ms x ps y g u e ->
  exists data, content y (l_name g) data /\ log_of hd ms data (firstn (Z.to_nat (u_plen u)) (u_part u)).
Proof.
  intros hd ms x ps y g u e [I _ _ (k & [(d & some & A & D & P & L) _] & _)]. exists d. split; [apply A|]. exists some. split; [eapply part_whole; eauto|]. split; auto.
  rewrite firstn_length. destruct (ui_buf u I). lia.
Qed.

Lemma session_following : forall fuel v y g u p0 tail0 evs hd x ms ps,
  ulog_dialect v -> ulog_started y g u -> opens_stream p0 tail0 hd x -> ul_event_ok v (LMsg p0 tail0) ->
  vehicle ms x ps -> arrives v ps 0 evs -> mild_writes v y ms -> (2049 <= fuel)%nat ->
  exists y' g' u' cs e, lrun fuel v y g (BULog u) (LMsg p0 tail0 :: evs) = Ok (y', g', BULog u', cs) /\ l_name g' = l_name g /\ (y_pos y <= y_pos y')%nat /\
    following hd ms x ps y' g' u' e.
Proof.
  intros fuel v y g u p0 tail0 evs hd x ms ps T (O & M & OF & C & buf & part & EU & LB & LP & BB) (IU & SQ & S17 & RM & EB & LH & MG) (BT & OK0) V AR MW F.
  rewrite IU in OK0. destruct OK0 as (UP & SZ & _).
  assert (I : ul_inv u).
  { subst u. split; cbn [u_exp u_first u_hdr u_plen u_len u_idx]; try lia; try discriminate; auto. split; cbn [u_buf u_part u_plen u_len u_idx]; auto; lia. }
  destruct (vehicle_header fuel hd ms x ps v y g u p0 tail0) as (y1 & g1 & u1 & c1 & E1 & K1 & FO1); auto; try (subst u; reflexivity).
  { split; auto. }
  destruct (vehicle_run fuel hd ms x ps v evs 0%nat y1 g1 u1) as (y2 & g2 & u2 & c2 & e2 & E2 & K2 & FO2); auto.
  { eapply mild_later; eauto. apply K1. } { destruct K1; congruence. }
  exists y2, g2, u2, (c1 ++ c2), e2. cbn [lrun]. rewrite E1. cbn [bind]. rewrite E2. cbn [bind]. split; auto. destruct K1, K2. split; [congruence|]. split; [lia|auto].
Qed.

(* C83: however packets are lost, repeated and delayed, and whatever the writes return, the file is the header followed by
   messages the vehicle sent: none of them changed, cut short (but the last), repeated or out of order. Proved unless a write leaves more
   than 1024 bytes of a message behind. *)
Theorem C83_whole_partial : forall fuel v y g u p0 tail0 evs hd x ms ps,
  ulog_dialect v -> ulog_started y g u -> opens_stream p0 tail0 hd x -> ul_event_ok v (LMsg p0 tail0) ->
  vehicle ms x ps -> arrives v ps 0 evs -> mild_writes v y ms -> (2049 <= fuel)%nat ->
  exists y' g' u' cs data rest, lrun fuel v y g (BULog u) (LMsg p0 tail0 :: evs) = Ok (y', g', BULog u', cs) /\
    content y' (l_name g) data /\ log_of hd ms data rest.
Proof.
  intros fuel v y g u p0 tail0 evs hd x ms ps T ST OS OK V AR MW F.
  destruct (session_following fuel v y g u p0 tail0 evs hd x ms ps T ST OS OK V AR MW F) as (y' & g' & u' & cs & e & R & N & _ & FO).
  destruct (following_log _ _ _ _ _ _ _ _ FO) as (data & C & L). exists y', g', u', cs, data, (firstn (Z.to_nat (u_plen u')) (u_part u')).
  split; auto. rewrite N in C. auto.
Qed.
Print Assumptions C83_whole_partial.

(* with messages of at most 1025 bytes nothing is asked of the writes *)
Theorem C83_small_partial : forall fuel v y g u p0 tail0 evs hd x ms ps,
  ulog_dialect v -> ulog_started y g u -> opens_stream p0 tail0 hd x -> ul_event_ok v (LMsg p0 tail0) ->
  vehicle ms x ps -> arrives v ps 0 evs -> Forall (fun m => Z.of_nat (length m) <= 1025) ms -> (2049 <= fuel)%nat ->
  exists y' g' u' cs data rest, lrun fuel v y g (BULog u) (LMsg p0 tail0 :: evs) = Ok (y', g', BULog u', cs) /\
    content y' (l_name g) data /\ log_of hd ms data rest.
Proof.
  intros fuel v y g u p0 tail0 evs hd x ms ps T ST OS OK V AR SM F. eapply C83_whole_partial; eauto.
  intros k m _ I _. rewrite Forall_forall in SM. specialize (SM m I). cbv beta in SM. lia.
Qed.
Print Assumptions C83_small_partial.

(* ---- closing the log ----------------------------------------------------------------------------------------------- *)

Lemma flush_part_false : forall f v y g u d y' g' u', ubuf_ok u -> at_end y g d -> flush_part f v y g u = Ok (y', g', u', Some false) ->
  exists k, (y_pos y <= k)%nat /\ v_orc v k < 0 /\ v_orc v k <> - EAGAIN.
Proof.
  induction f; intros v y g u d y' g' u' B A H; cbn [flush_part] in H; destruct (Z.eqb_spec (u_plen u) 0) as [Z0|Z0]; try discriminate.
  pose proof B as B'. destruct B as [B1 BB B2 B3 B4 B5 B6]. unfold UPART in *. rewrite slice_Ok in H by lia. cbn [bind skipn] in H.
  set (bs := firstn (Z.to_nat (u_plen u)) (u_part u)) in *.
  assert (LB : length bs = Z.to_nat (u_plen u)) by (unfold bs; rewrite firstn_length; lia).
  destruct (file_write v y g (l_off g) bs) as [[q y1] g1] eqn:FW.
  destruct (write_end _ _ _ _ _ _ _ _ A FW) as (K1 & P1 & OUT).
  destruct ((q =? 0) || (q =? - EAGAIN)) eqn:C1; [discriminate|].
  destruct (Z.ltb_spec q 0). { exists (y_pos y). split; auto. destruct OUT as [(Q & -> & _)|(Q & R & _)]; [|lia]. split; auto. lia. }
  destruct OUT as [(Q & R & _)|(Q & R & A1)]; [lia|].
  rewrite u16_small in H by lia. rewrite memmove_Ok in H by lia. cbn [bind firstn app] in H.
  apply (IHf v y1 g1 _ (d ++ firstn (Z.to_nat q) bs)) in H; auto.
  - destruct H as (k & K & X). exists k. split; [lia|auto].
  - split; cbn [set_part u_buf u_part u_len u_idx u_plen]; auto; try lia. rewrite app_length, firstn_length, !skipn_length. unfold UPART. lia.
Qed.

(* nothing is staged but the rest of a message *)
Lemma rest_flush : forall f hd ms v y g u k y' g' u' ok, ubuf_ok u -> u_len u = 0 -> filed hd ms y g u k -> ul_flush f v y g u = Ok (y', g', u', ok) ->
  ubuf_ok u' /\ u_len u' = 0 /\ filed hd ms y' g' u' k /\ keeps y g y' g' /\
  (ok = false -> exists k, (y_pos y <= k)%nat /\ v_orc v k < 0 /\ v_orc v k <> - EAGAIN).
Proof.
  intros f hd ms v y g u k y' g' u' ok B L0 FD H. unfold ul_flush in H.
  destruct (flush_part_safe f v y g u B) as [X|(y1 & g1 & u1 & r & E & B1 & _ & _ & _ & BU & LU & IU & _)]; [rewrite X in H; discriminate|].
  rewrite E in H. cbn [bind] in H. destruct FD as [(d & some & A & D & PO & PL) KM].
  destruct (flush_part_conserve _ _ _ _ _ _ _ _ _ _ B A E) as (K1 & d1 & A1 & E1). pose proof (flush_part_len _ _ _ _ _ _ _ _ _ B E) as LE.
  assert (W1 : window u1 = window u) by (unfold window; rewrite BU, LU, IU; reflexivity).
  unfold staged in E1. rewrite W1, !app_assoc in E1. apply app_inv_tail in E1.
  assert (FD1 : filed hd ms y1 g1 u1 k). { split; auto. exists d1, some. split; auto. rewrite E1. split; auto. split; auto. lia. }
  assert (Q : y' = y1 /\ g' = g1 /\ u' = u1 /\ (ok = false -> r = Some false)).
  { destruct r as [o|]. { inversion H; subst. repeat (split; auto). congruence. }
    destruct f; cbn [flush_msgs] in H; rewrite LU, L0 in H; cbn [Z.leb Z.compare andb negb] in H; inversion H; subst; repeat (split; auto); discriminate. }
  destruct Q as (-> & -> & -> & Q). split; auto. split; [congruence|]. split; auto. split; auto. intros F. rewrite (Q F) in E. exact (flush_part_false _ _ _ _ _ _ _ _ _ B A E).
Qed.

Lemma rest_stop : forall n f hd ms v y g u k y' g' u', ubuf_ok u -> u_len u = 0 -> filed hd ms y g u k -> stop_flush n f v y g u = Ok (y', g', u') ->
  ubuf_ok u' /\ filed hd ms y' g' u' k /\ keeps y g y' g' /\ (u_plen u' = 0 \/ exists k, (y_pos y <= k)%nat /\ v_orc v k < 0 /\ v_orc v k <> - EAGAIN).
Proof.
  induction n; intros f hd ms v y g u k y' g' u' B L0 FD H; cbn [stop_flush] in H; destruct (Z.eqb_spec (u_plen u) 0) as [Z0|Z0]; try discriminate.
  1,2: inversion H; subst; split; auto; split; auto; split; [apply keeps_refl|auto].
  destruct (ul_flush f v y g u) as [[[[y1 g1] u1] ok]| |] eqn:E; cbn [bind] in H; try discriminate.
  destruct (rest_flush _ _ _ _ _ _ _ _ _ _ _ _ B L0 FD E) as (B1 & L1 & FD1 & K1 & NG). destruct ok.
  - destruct (IHn _ _ _ _ _ _ _ _ _ _ _ B1 L1 FD1 H) as (B2 & FD2 & K2 & C). split; auto. split; auto. split; [eapply keeps_trans; eauto|].
    destruct C as [C|(j & J & C)]; [auto|]. right. exists j. split; auto. destruct K1. lia.
  - inversion H; subst. auto 10.
Qed.

Lemma stop_content : forall v y g y' g' n d, log_stop v y g = Ok (y', g') -> content y n d -> content y' n d.
Proof.
  intros v y g y' g' n d H C. unfold log_stop in H.
  assert (DT : forall y t y1, drop_timer y t = Ok y1 -> y_fs y1 = y_fs y).
  { intros y0 [id|] y1 E; cbn [drop_timer] in E; [|congruence]. unfold del_timer in E. destruct (has_timer y0 id); [|discriminate]. inversion E. reflexivity. }
  destruct (drop_timer y (l_tstart g)) as [y1| |] eqn:E1; cbn [bind] in H; try discriminate.
  destruct (drop_timer y1 (l_talive g)) as [y2| |] eqn:E2; cbn [bind] in H; try discriminate.
  destruct (drop_timer y2 (l_tfsync g)) as [y3| |] eqn:E3; cbn [bind] in H; try discriminate.
  assert (C3 : content y3 n d). { eapply content_fs; [|exact C]. rewrite (DT _ _ _ E3), (DT _ _ _ E2), (DT _ _ _ E1). reflexivity. }
  destruct C3 as (l & FS & (e & I & N) & D). unfold ask in H. cbn [y_fs] in H. destruct (0 <=? v_orc v (y_pos y3)).
  - assert (FS' : exists y4, y' = set_fs y4 (Some (fs_upd l (l_name g) d_readonly))).
    { unfold set_pos in H. cbn [y_fs] in H. rewrite FS in H. inversion H. eexists. reflexivity. }
    destruct FS' as (y4 & ->). exists (fs_upd l (l_name g) d_readonly). split; [reflexivity|]. split.
    + exists (if beqs (d_name e) (l_name g) then d_readonly e else e). split; [apply in_map_iff; exists e; auto|]. destruct (beqs _ _); auto.
    + intros e' I' N'. apply in_map_iff in I'. destruct I' as (e0 & <- & I0). destruct (beqs (d_name e0) (l_name g)); cbn [d_readonly d_data d_name] in *; auto.
  - inversion H; subst. exists l. split; auto. split; eauto.
Qed.

(* ... and when the log is closed nothing is missing at its end, unless a write failed *)
Theorem C83_closed_partial : forall fuel v y g u p0 tail0 evs hd x ms ps y' g' b' cs y2 g2 b2 cs2,
  ulog_dialect v -> ulog_started y g u -> opens_stream p0 tail0 hd x -> ul_event_ok v (LMsg p0 tail0) ->
  vehicle ms x ps -> arrives v ps 0 evs -> mild_writes v y ms -> (2049 <= fuel)%nat ->
  lrun fuel v y g (BULog u) (LMsg p0 tail0 :: evs) = Ok (y', g', b', cs) -> lstop fuel v y' g' b' = Ok (y2, g2, b2, cs2) ->
  exists data rest, content y2 (l_name g) data /\ log_of hd ms data rest /\
    (rest = [] \/ exists k, (y_pos y' <= k)%nat /\ v_orc v k < 0 /\ v_orc v k <> - EAGAIN).
Proof.
  intros fuel v y g u p0 tail0 evs hd x ms ps y' g' b' cs y2 g2 b2 cs2 T ST OS OK V AR MW F R S.
  destruct (session_following fuel v y g u p0 tail0 evs hd x ms ps T ST OS OK V AR MW F) as (y1 & g1 & u1 & cs1 & e & R1 & N & _ & FO).
  rewrite R in R1. inversion R1; subst y' g' b' cs. clear R1.
  pose proof FO as [I _ _ (k & FD & _)]. assert (O : l_open g1 = true). { destruct FD as [(d & s & A & _) _]. apply A. }
  cbn [lstop] in S. unfold ul_stop in S. rewrite O in S. cbn [negb] in S. unfold send_command, send_ctl in S. cbn [bind] in S.
  match type of S with context [stop_flush fuel fuel v ?a ?b ?c] => set (ya := a) in S; set (ga := b) in S; set (ua := c) in S; assert (FDa : filed hd ms ya ga ua k) end.
  { eapply filed_same; eauto. }
  assert (BA : ubuf_ok ua). { destruct (ui_buf _ I). split; cbn [ua set_buf u_buf u_part u_len u_idx u_plen]; auto; lia. }
  destruct (stop_flush fuel fuel v ya ga ua) as [[[ys gs] us]| |] eqn:E; cbn [bind] in S; try discriminate.
  destruct (rest_stop _ _ _ _ _ _ _ _ _ _ _ _ BA eq_refl FDa E) as (BS & FDs & KS & C).
  destruct (log_stop v ys gs) as [[yt gt]| |] eqn:EL; cbn [bind] in S; try discriminate. inversion S; subst y2 g2 b2 cs2.
  destruct FDs as [(d & some & A & D & P & L) _]. exists d, (firstn (Z.to_nat (u_plen us)) (u_part us)).
  assert (NS : l_name gs = l_name g). { destruct KS as [KN _ _]. rewrite KN, <- N. reflexivity. }
  split. { eapply stop_content; eauto. rewrite <- NS. apply A. }
  split. { exists some. split; [eapply part_whole; eauto|]. split; auto. rewrite firstn_length. destruct BS. lia. }
  destruct C as [C|(j & J & C)]; [left; rewrite C; reflexivity|]. right. exists j. split; auto.
Qed.
Print Assumptions C83_closed_partial.

(* ---- concrete sessions ------------------------------------------------------------------------------------------------ *)

Lemma part_length : forall (a b : list (list Z)), part_of a b -> (length (concat a) <= length (concat b))%nat.
Proof. induction 1; cbn [concat length]; rewrite ?app_length; lia. Qed.

(* a vehicle with five messages *)
Definition vx_ms : list (list Z) := [ux_msg; [2; 0; 66; 1; 7]; [4; 0; 67; 1; 2; 3; 4]; [1; 0; 68; 9]; [0; 0; 69]].
Definition vx_x : list Z := ux_msg ++ [2; 0; 66].
Definition vx_ps : list packet := [ux_data 1 2 [1; 7; 4; 0; 67]; ux_acked 2 4 [1; 2; 3; 4; 1; 0; 68; 9]; ux_data 3 0 [0; 0; 69]].
(* the second packet comes too late, the first twice; there is other traffic *)
Definition vx_evs : list lev := [LMsg (ux_data 1 2 [1; 7; 4; 0; 67]) []; LMsg (lx_hb 1 81 3) []; LMsg (ux_data 3 0 [0; 0; 69]) [];
  LMsg (ux_acked 2 4 [1; 2; 3; 4; 1; 0; 68; 9]) []; LStart; LMsg (ux_data 1 2 [1; 7; 4; 0; 67]) []].
(* writes stop after two or four bytes, every third is complete *)
Definition vx_env : env := mkEnv ux_tbl (fun _ => 0) (fun k => nth (Nat.modulo k 3) [4; 65536; 2] 0) (fun _ => true).

Lemma vx_vehicle : vehicle vx_ms vx_x vx_ps.
Proof.
  split.
  - repeat (apply Forall_cons; [split; [|cbn; lia]|]); try apply Forall_nil;
    [exists 3, 0, 65, [7; 8; 9]|exists 2, 0, 66, [1; 7]|exists 4, 0, 67, [1; 2; 3; 4]|exists 1, 0, 68, [9]|exists 0, 0, 69, []]; repeat split; unfold is_byte; lia.
  - exists []. vm_compute. reflexivity.
  - intros i p N. destruct i as [|[|[|i]]]; cbn [vx_ps nth_error] in N; [| | |destruct i; discriminate N]; inversion N; subst p;
    (split; [vm_compute; reflexivity|]; split; [split; [wfb|exact I]|]; split; [split; [vm_compute; discriminate|right; vm_compute; discriminate]|]; split; [vm_compute; reflexivity|]; right).
    + exists 2%nat. split; [cbn; lia|vm_compute; reflexivity].
    + exists 3%nat. split; [cbn; lia|vm_compute; reflexivity].
    + exists 4%nat. split; [cbn; lia|vm_compute; reflexivity].
Qed.

Lemma vx_arrives : arrives vx_env vx_ps 0 vx_evs.
Proof.
  unfold vx_evs. eapply (ar_data _ _ _ 0); [reflexivity|constructor|cbn; lia|].
  apply ar_other; [split; [constructor|]; vm_compute; discriminate|reflexivity|].
  eapply (ar_data _ _ _ 2); [reflexivity|constructor|cbn; lia|]. eapply (ar_data _ _ _ 1); [reflexivity|constructor|cbn; lia|].
  apply ar_other; [exact I|reflexivity|]. eapply (ar_data _ _ _ 0); [reflexivity|constructor|cbn; lia|]. apply ar_end.
Qed.

Definition vx_start : sys * lg * ulst := ux_at 9 [ux_hb].

Example C83_nonvacuous : let y := fst (fst vx_start) in let g := snd (fst vx_start) in let u := snd vx_start in
  ulog_dialect vx_env /\ ulog_started y g u /\ opens_stream (ux_data 0 16 (ux_hd ++ vx_x)) [] ux_hd vx_x /\ ul_event_ok vx_env (LMsg (ux_data 0 16 (ux_hd ++ vx_x)) []) /\
  vehicle vx_ms vx_x vx_ps /\ arrives vx_env vx_ps 0 vx_evs /\ mild_writes vx_env y vx_ms /\
  match lrun 2049 vx_env y g (BULog u) (LMsg (ux_data 0 16 (ux_hd ++ vx_x)) [] :: vx_evs) with
  | Ok (y', g', b', _) =>
    contentb y' (l_name g) (ux_hd ++ ux_msg ++ [2; 0; 66; 1; 7] ++ [0; 0]) = true /\
    match lstop 2049 vx_env y' g' b' with Ok (y2, _, _, _) => contentb y2 (l_name g) (ux_hd ++ ux_msg ++ [2; 0; 66; 1; 7] ++ [0; 0; 69]) = true | _ => False end
  | _ => False end.
Proof.
  cbv zeta. split. { intros id [-> | ->]; eexists; split; reflexivity. } split; [exact ux_started|].
  split. { split; [vm_compute; reflexivity|]. split; [vm_compute; reflexivity|]. split; [vm_compute; discriminate|]. split; [left; vm_compute; discriminate|]. split; [vm_compute; reflexivity|]. split; reflexivity. }
  split. { split; [apply Forall_nil|]; split; [split; [wfb|exact I]|]; split; [vm_compute; discriminate|right; vm_compute; discriminate]. }
  split; [exact vx_vehicle|]. split; [exact vx_arrives|].
  split. { intros k m _ M _. assert (L : Z.of_nat (length m) <= 7). { cbn [vx_ms In] in M. destruct M as [<-|[<-|[<-|[<-|[<-|[]]]]]]; vm_compute; discriminate. }
    change (v_orc vx_env k) with (nth (Nat.modulo k 3) [4; 65536; 2] 0). destruct (Nat.modulo k 3) as [|[|[|[|]]]]; cbn [nth]; lia. }
  vm_compute. split; reflexivity.
Qed.

(* C83 fails if a write leaves more than 1024 bytes of a message behind: what was written stays in the file and the
   message is written again behind it. The vehicle sends a message of 1500 bytes and one of 6; no packet is lost; one write takes
   only 100 bytes. *)
Definition vx_long : list Z := [217; 5; 68] ++ repeat 7 1497.
Fixpoint vx_cut (k : nat) (seq : Z) (d : list Z) : list packet :=
  match k with
  | O => []
  | Datatypes.S k => ux_data seq 255 (firstn 249 d) :: vx_cut k (seq + 1) (skipn 249 d)
  end.
Definition vx_long_ps : list packet := vx_cut 6 1 (skipn 200 vx_long) ++ [ux_data 7 0 ux_msg].
Definition vx_long_evs : list lev := map (fun p => LMsg p []) vx_long_ps.
Definition vx_long_env : env := mkEnv ux_tbl (fun _ => 0) (fun k => if Nat.eqb k 12 then 100 else 65536) (fun _ => true).

Lemma vx_long_vehicle : vehicle [vx_long; ux_msg] (firstn 200 vx_long) vx_long_ps.
Proof.
  split.
  - apply Forall_cons; [|apply Forall_cons; [|apply Forall_nil]]; (split; [|vm_compute; reflexivity]).
    + exists 217, 5, 68, (repeat 7 1497). rewrite repeat_length. repeat split; unfold is_byte; lia.
    + exists 3, 0, 65, [7; 8; 9]. repeat split; unfold is_byte; lia.
  - exists []. vm_compute. reflexivity.
  - intros i p N. do 7 (destruct i as [|i]; [apply (f_equal (fun o => match o with Some q => q | None => p end)) in N;
      match type of N with ?l = _ => let l' := eval cbv [vx_long_ps vx_cut nth_error app] in l in change (l' = p) in N end; subst p;
      (split; [vm_compute; reflexivity|]; split; [split; [wfb|exact I]|]; split; [split; [vm_compute; discriminate|first [left; vm_compute; reflexivity|right; vm_compute; discriminate]]|]; split; [vm_compute; reflexivity|]);
      first [left; vm_compute; reflexivity|right; exists 1%nat; split; [cbn; lia|vm_compute; reflexivity]]|]).
    destruct i; discriminate N.
Qed.

Theorem C83_long_refuted : exists v y g u p0 evs hd x ms ps y' g' u' cs data,
  ulog_dialect v /\ ulog_started y g u /\ opens_stream p0 [] hd x /\ ul_event_ok v (LMsg p0 []) /\ vehicle ms x ps /\ arrives v ps 0 evs /\
  lrun 2049 v y g (BULog u) (LMsg p0 [] :: evs) = Ok (y', g', BULog u', cs) /\ content y' (l_name g) data /\
  (exists m1 m2 k, ms = [m1; m2] /\ data = hd ++ firstn k m1 ++ m1 ++ m2 /\ k = 100%nat) /\ forall rest, ~ log_of hd ms data rest.
Proof.
  destruct (Ok_witness _ (lrun 2049 vx_long_env (fst (fst vx_start)) (snd (fst vx_start)) (BULog (snd vx_start)) (LMsg (ux_data 0 16 (ux_hd ++ firstn 200 vx_long)) [] :: vx_long_evs))
    (fun t => match t with (y, g, BULog u, _) => contentb y (l_name (snd (fst vx_start))) (ux_hd ++ firstn 100 vx_long ++ vx_long ++ ux_msg) | _ => false end)) as ([[[y' g'] b'] cs] & R & P); [vm_compute; reflexivity|].
  destruct b' as [|u'|]; [discriminate P| |discriminate P].
  exists vx_long_env, (fst (fst vx_start)), (snd (fst vx_start)), (snd vx_start), (ux_data 0 16 (ux_hd ++ firstn 200 vx_long)), vx_long_evs, ux_hd, (firstn 200 vx_long), [vx_long; ux_msg], vx_long_ps.
  exists y', g', u', cs, (ux_hd ++ firstn 100 vx_long ++ vx_long ++ ux_msg).
  split. { intros id [-> | ->]; eexists; split; reflexivity. } split; [exact ux_started|].
  split. { split; [vm_compute; reflexivity|]. split; [vm_compute; reflexivity|]. split; [vm_compute; discriminate|]. split; [left; vm_compute; discriminate|]. split; [vm_compute; reflexivity|]. split; reflexivity. }
  split. { split; [apply Forall_nil|]; split; [split; [wfb|exact I]|]; split; [vm_compute; discriminate|right; vm_compute; discriminate]. }
  split; [exact vx_long_vehicle|].
  split. { unfold vx_long_evs, vx_long_ps. cbn [vx_cut app map].
    eapply (ar_data _ _ _ 0); [reflexivity|constructor|cbn; lia|]. eapply (ar_data _ _ _ 1); [reflexivity|constructor|cbn; lia|].
    eapply (ar_data _ _ _ 2); [reflexivity|constructor|cbn; lia|]. eapply (ar_data _ _ _ 3); [reflexivity|constructor|cbn; lia|].
    eapply (ar_data _ _ _ 4); [reflexivity|constructor|cbn; lia|]. eapply (ar_data _ _ _ 5); [reflexivity|constructor|cbn; lia|].
    eapply (ar_data _ _ _ 6); [reflexivity|constructor|cbn; lia|]. apply ar_end. }
  split; [exact R|]. split; [apply contentb_ok; exact P|]. split. { exists vx_long, ux_msg, 100%nat. auto. }
  intros rest (some & PO & E & _). apply part_length in PO. apply (f_equal (@length Z)) in E. rewrite !app_length in E.
  assert (L1 : length vx_long = 1500%nat) by (vm_compute; reflexivity). assert (L2 : length (firstn 100 vx_long) = 100%nat) by (vm_compute; reflexivity).
  cbn [concat] in PO. rewrite !app_length in PO. cbn [length] in PO. lia.
Qed.
Print Assumptions C83_long_refuted.
