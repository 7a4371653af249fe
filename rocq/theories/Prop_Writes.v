(* Property C82: short and failed writes, binary log. *)
From Verif Require Import Base Mav SpecCrc SpecFrame Frame FrameProofs Names NamesProofs Sys LogFile LogFileProofs ULog Loggers LogInv LogStep
  SpecLog LogRun LogModes LogModes2 BinProofs CrcProofs ExFrame Prop_LogModes Prop_BinLog.

(* all files of a name *)
Definition files (y : sys) (name : list Z) (P : list Z -> Prop) : Prop := forall l e, y_fs y = Some l -> In e l -> d_name e = name -> P (d_data e).

Lemma content_files : forall y n d, content y n d -> files y n (fun x => x = d).
Proof. intros y n d (l & F & _ & C) l' e F' I N. rewrite F in F'. injection F' as <-. auto. Qed.

Lemma files_fs : forall y y' n P, y_fs y' = y_fs y -> files y n P -> files y' n P.
Proof. unfold files. intros y y' n P E. rewrite E. auto. Qed.

Lemma stop_files : forall v y g y' g' n P, log_stop v y g = Ok (y', g') -> sys_ok y -> linv y g -> files y n P -> files y' n P.
Proof.
  intros v y g y' g' n P H S L F. destruct (log_stop_spec v y g S L) as (y1 & g1 & E & _ & _ & _ & _ & _ & _ & _ & _ & D & _). rewrite H in E. injection E as <- <-.
  destruct D as [D|(l & D1 & D2)]; [eapply files_fs; eauto|]. intros l' e F' I N. rewrite D2 in F'. injection F' as <-.
  unfold fs_upd in I. apply in_map_iff in I. destruct I as (e0 & <- & I). destruct (beqs (d_name e0) (l_name g)); cbn [d_readonly d_data d_name] in *; eapply F; eauto.
Qed.

Lemma start_files : forall v y g y' g' ok n P, log_start v y g = Ok (y', g', ok) -> sys_ok y -> files y n P -> files y' n (fun d => P d \/ d = []).
Proof.
  intros v y g y' g' ok n P H S F. unfold log_start in H. destruct (l_open g). { injection H as <- <- <-. intros l e X I N. left. eapply F; eauto. }
  destruct (delete_old_safe v y g) as (S1 & ns & DF & _). set (y1 := delete_old_logs v y g) in *.
  assert (F1 : files y1 n P).
  { intros l e X I N. destruct (y_fs y) as [l0|] eqn:E0; [|congruence]. rewrite X in DF. injection DF as ->. unfold without in I. apply filter_In in I. eapply F; eauto. apply I. }
  destruct (get_file v y1 g) as [r y2] eqn:GF. destruct (get_file_spec _ _ _ _ _ GF) as (S2 & G).
  assert (K2 : sys_ok y2) by (eapply sys_ok_fs; [exact S2|]; eapply sys_ok_fs; eauto).
  assert (F2 : files y2 n (fun d => P d \/ d = [])).
  { destruct r as [name|].
    - destruct G as (k & t & _ & _ & _ & _ & _ & F'). intros l e X I N. rewrite F' in X. injection X as <-. apply in_app_or in I.
      destruct I as [I|[<-|[]]]; auto. left. destruct (y_fs y1) as [l1|] eqn:E1; [|destruct I]. eapply F1; eauto.
    - intros l e X I N. left. destruct G as [G|[G1 G2]]; [eapply F1; eauto; congruence|]. rewrite G2 in X. injection X as <-. destruct I. }
  destruct r as [name|]. 2:{ injection H as <- <- <-. exact F2. }
  destruct (add_timer v y2 1000 _) as [[ts|] y3] eqn:A1; destruct (add_timer_spec _ _ _ _ _ _ A1 K2) as (K3 & F3 & _).
  2:{ injection H as <- <- <-. eapply files_fs; eauto. }
  destruct (add_timer v y3 1000 _) as [[tf|] y4] eqn:A2; destruct (add_timer_spec _ _ _ _ _ _ A2 K3) as (K4 & F4 & _).
  - injection H as <- <- <-. eapply files_fs; [|exact F2]. congruence.
  - inv_bind H. injection H as <- <- <-. eapply files_fs; [|exact F2]. unfold del_timer in E. destruct (has_timer y4 ts); [|discriminate]. injection E as <-. cbn [y_fs set_timers]. congruence.
Qed.

Lemma restart_files : forall v y g a y' g' a' cs n P, bin_restart v y g a = Ok (y', g', a', cs) -> sys_ok y -> linv y g -> l_open g = true -> files y n P ->
  files y' n (fun d => P d \/ d = []) /\ In (BLOCK_STOP, 1) (statuses cs).
Proof.
  intros v y g a y' g' a' cs n P H S L O F. unfold bin_restart, bin_stop in H. rewrite O in H. cbn [negb] in H.
  destruct (send_block_status y g BLOCK_STOP 1) as [[y1 g1] c] eqn:SB. pose proof (calm_block_status _ _ _ _ _ _ _ SB) as CA.
  assert (BB : 0 <= BLOCK_STOP < 4294967296) by (unfold BLOCK_STOP; lia).
  destruct (send_block_status_spec _ _ _ _ _ _ _ BB SB) as (A1 & A2 & A3 & A4 & A5).
  destruct (log_stop v y1 g1) as [[y2 g2]| |] eqn:LS; cbn [bind] in H; try discriminate.
  destruct (log_stop_spec v y1 g1 (calm_sys _ _ _ _ CA S) (calm_linv _ _ _ _ CA L)) as (y2' & g2' & LS' & S2 & L2 & _). rewrite LS in LS'. injection LS' as <- <-.
  unfold bin_start in H. destruct (log_start v y2 g2) as [[[y3 g3] ok]| |] eqn:LT; cbn [bind] in H; try discriminate. injection H as <- <- <- <-.
  split. { eapply start_files; eauto. eapply stop_files; eauto using calm_sys, calm_linv. eapply files_fs; [|exact F]. auto. }
  unfold statuses. cbn [map]. rewrite A1. left. reflexivity.
Qed.

(* only the bytes of block n differ *)
Definition only_block (n : Z) (data data' : list Z) : Prop :=
  forall i, (i < Z.to_nat (200 * n) \/ Z.to_nat (200 * n) + 200 <= i)%nat -> nth i data' 0 = nth i data 0.

Lemma process_files : forall v y g a n d y' g' a' cs data, bin_process v y g a n d = Ok (y', g', a', cs) -> sys_ok y -> linv y g -> l_open g = true ->
  content y (l_name g) data -> 0 <= n < 21474836 -> length d = 200%nat ->
  (exists data', content y' (l_name g) data' /\ only_block n data data') \/
  (In (BLOCK_STOP, 1) (statuses cs) /\ files y' (l_name g) (fun x => x = data \/ x = [])).
Proof.
  intros v y g a n d y' g' a' cs data H S L O C N D. unfold bin_process in H. rewrite O in H. cbn [negb] in H. unfold ask at 1 in H.
  set (y1 := set_pos y (Datatypes.S (y_pos y))) in *.
  assert (S1 : sys_ok y1) by (destruct S; split; auto). assert (L1 : linv y1 g) by (destruct L; split; auto).
  assert (C1 : content y1 (l_name g) data) by (eapply content_fs; [|exact C]; reflexivity).
  destruct (v_orc v (y_pos y) <? 0).
  { right. destruct (restart_files _ _ _ _ _ _ _ _ _ _ H S1 L1 O (content_files _ _ _ C1)) as [F I]. auto. }
  destruct (file_write v y1 g (Z.to_nat (u32 (n * 200))) d) as [[r y2] g2] eqn:FW.
  unfold file_write, ask in FW. rewrite O in FW. destruct (Z.ltb_spec (v_orc v (y_pos y1)) 0) as [Q|Q].
  - injection FW as <- <- <-. assert (S2 : sys_ok (set_pos y1 (Datatypes.S (y_pos y1)))) by (destruct S; split; auto).
    assert (L2 : linv (set_pos y1 (Datatypes.S (y_pos y1))) g) by (destruct L; split; auto).
    assert (C2 : content (set_pos y1 (Datatypes.S (y_pos y1))) (l_name g) data) by (eapply content_fs; [|exact C]; reflexivity).
    destruct (_ && _).
    + right. destruct (restart_files _ _ _ _ _ _ _ _ _ _ H S2 L2 O (content_files _ _ _ C2)) as [F I]. auto.
    + match type of H with context [negb (?q =? 200)] => assert (QN : q < 0) by exact Q; assert (NE : q =? 200 = false) by (apply Z.eqb_neq; lia); rewrite NE in H end. cbn [negb] in H. injection H as <- <- <- <-.
      left. exists data. split; auto. intros i _. reflexivity.
  - set (k := Nat.min (Z.to_nat (v_orc v (y_pos y1))) (length d)) in *. destruct C1 as (l & F & CX). cbn [set_pos y_fs] in FW. rewrite F in FW. injection FW as <- <- <-.
    assert (C2 : content (set_fs (set_pos y1 (Datatypes.S (y_pos y1))) (Some (fs_upd l (l_name g) (d_put (Z.to_nat (u32 (n * 200))) (firstn k d))))) (l_name g)
      (file_put data (Z.to_nat (u32 (n * 200))) (firstn k d))).
    { apply content_put; auto. }
    assert (OB : only_block n data (file_put data (Z.to_nat (u32 (n * 200))) (firstn k d))).
    { intros i HI. rewrite file_put_nth, firstn_length, u32_small by lia. replace (n * 200) with (200 * n) by lia.
      destruct ((_ <=? i)%nat && (i <? _)%nat) eqn:X; auto. apply andb_prop in X. destruct X as [X1 X2]. apply Nat.leb_le in X1. apply Nat.ltb_lt in X2. lia. }
    assert (NG : (Z.of_nat k <? 0) = false) by (apply Z.ltb_ge; lia). rewrite NG in H. cbn [andb] in H. left.
    destruct (negb (Z.of_nat k =? 200)).
    + injection H as <- <- <- <-. eauto.
    + pose proof (f_equal (fun r => match r with Ok t => t | _ => (y, g, a, []) end) H) as H'. cbn beta iota in H'. clear H.
      assert (N' : 0 <= n < 4294967296) by lia. destruct (send_ack_spec _ _ _ _ _ _ _ _ N' H') as (_ & _ & B3 & _).
      eexists. split; [|exact OB]. eapply content_fs; [exact B3|exact C2].
Qed.

(* C82, binary log: whatever the system calls return, storing a block changes no byte outside the place of that block,
   unless the logger gives up the file and asks the flight stack to start again: then the file is as it was (or it was
   deleted as the oldest log, and its name taken for the new log). *)
Theorem C82_binary_partial : forall fuel v y g a p tail y' g' b' cs data,
  sys_ok y -> linv y g -> l_open g = true -> l_mode g = MAlways -> content y (l_name g) data -> log_dialect v [p] ->
  p_id p = 184 -> block_number p < 4294967296 / 200 ->
  levent fuel v y g (BBin a) (LMsg p tail) = Ok (y', g', b', cs) ->
  (exists data', content y' (l_name g) data' /\ only_block (block_number p) data data') \/
  (In (BLOCK_STOP, 1) (statuses cs) /\ files y' (l_name g) (fun d => d = data \/ d = [])).
Proof.
  intros fuel v y g a p tail y' g' b' cs data S L O M C ((ent & T & ML) & D) ID N H. change (4294967296 / 200) with 21474836 in N.
  destruct (D p (or_introl eq_refl) ID) as [W V]. assert (B : block_ok p) by (split; auto).
  cbn [levent] in H. unfold lwrite in H. destruct (learn_same g (info_of (v_tbl v) p)) as (Q1 & Q2 & Q3 & Q4 & Q5).
  pose proof (learn_inv _ _ (info_of (v_tbl v) p) L) as L0.
  rewrite auto_idle in H by congruence. cbn [bind] in H. set (g0 := learn_target g (info_of (v_tbl v) p)) in *.
  unfold bin_write in H. cbn [m_id info_of] in H. rewrite ID, T in H. cbn [Z.eqb negb Pos.eqb] in H.
  destruct (bin_read v ent p tail B T ML) as (pl & tz & mm & b & PD & LC & R32 & SL).
  rewrite PD in H. cbn [bind] in H. rewrite LC in H. cbn [bind] in H. rewrite R32 in H. cbn [bind] in H.
  pose proof (block_number_range p W) as BR. rewrite Q4 in H. rewrite <- Q3 in *. destruct (l_tstart g) eqn:TS.
  - destruct (Z.eqb_spec (block_number p) 0) as [Z0|Z0].
    + destruct (remove_start_timeout y g0) as [[y1 g1]| |] eqn:RS; cbn [bind] in H; try discriminate.
      destruct (start_alive v y1 g1) as [y2 g2] eqn:SA. cbn [bind] in H. rewrite SL in H. cbn [bind] in H.
      destruct (step_started _ _ _ _ _ _ _ RS SA) as ([S2 L2 _ _] & O2 & N2 & _ & T2 & F2 & M2 & _).
      destruct (bin_process v y2 g2 a (block_number p) (block_data p)) as [[[[y3 g3] a3] c3]| |] eqn:BP; cbn [bind app] in H; try discriminate.
      inversion H; subst. rewrite <- N2 in *. eapply process_files; eauto; try congruence; try lia. { eapply content_fs; eauto. } apply block_data_length.
    + destruct (send_block_status y g0 BLOCK_STOP 1) as [[y1 g1] c] eqn:SB. cbn [bind app] in H. inversion H; subst.
      assert (BB : 0 <= BLOCK_STOP < 4294967296) by (unfold BLOCK_STOP; lia).
      destruct (send_block_status_spec _ _ _ _ _ _ _ BB SB) as (A1 & A2 & A3 & A4 & A5). left. exists data. split. { eapply content_fs; eauto. } intros i _. reflexivity.
  - cbn [bind] in H. rewrite SL in H. cbn [bind] in H.
    destruct (bin_process v y g0 a (block_number p) (block_data p)) as [[[[y3 g3] a3] c3]| |] eqn:BP; cbn [bind app] in H; try discriminate.
    inversion H; subst. eapply process_files; eauto; try congruence; try lia. apply block_data_length.
Qed.

(* block 0 is stored; the disk takes 10 bytes of block 1, or refuses it *)
Definition wx_env (r : Z) : env := mkEnv lx_tbl (fun _ => 0) (fun k => if Nat.eqb k 15 then r else 65536) (fun _ => true).
Definition wx_state : sys * lg :=
  match lrun 9 lx_env lx_sys (lx_bin MAlways 1) (BBin 0) [LMsg (lx_hb 1 81 3) []; LMsg (lx_block 0) []] with
  | Ok (y, g, _, _) => (y, g) | _ => (lx_sys, lx_bin MAlways 1) end.

Example C82_binary_nonvacuous : let y := fst wx_state in let g := snd wx_state in
  sys_ok y /\ linv y g /\ l_open g = true /\ l_mode g = MAlways /\ content y (l_name g) (block_data (lx_block 0)) /\
  log_dialect (wx_env 10) [lx_block 1] /\ log_dialect (wx_env (-5)) [lx_block 1] /\ block_number (lx_block 1) = 1 /\
  match levent 9 (wx_env 10) y g (BBin 0) (LMsg (lx_block 1) []) with
  | Ok (y', g', _, cs) => statuses cs = [] /\ match y_fs y' with Some [e] => d_data e = block_data (lx_block 0) ++ firstn 10 (block_data (lx_block 1)) | _ => False end
  | _ => False end /\
  match levent 9 (wx_env (-5)) y g (BBin 0) (LMsg (lx_block 1) []) with
  | Ok (y', g', _, cs) => statuses cs = [(BLOCK_STOP, 1)] /\ match y_fs y' with Some [e; e'] => d_data e = block_data (lx_block 0) /\ d_data e' = [] | _ => False end
  | _ => False end.
Proof.
  cbv zeta. destruct (lrun_inv 9 lx_env [LMsg (lx_hb 1 81 3) []; LMsg (lx_block 0) []] lx_sys (lx_bin MAlways 1) (BBin 0) (fst wx_state) (snd wx_state) (BBin 0)
    (match lrun 9 lx_env lx_sys (lx_bin MAlways 1) (BBin 0) [LMsg (lx_hb 1 81 3) []; LMsg (lx_block 0) []] with Ok (_, _, _, cs) => cs | _ => [] end)) as (S & L & _).
  { vm_compute. reflexivity. } { split; constructor. } { apply linv_new. intros t []. }
  split; auto. split; auto. split; [vm_compute; reflexivity|]. split; [vm_compute; reflexivity|]. split.
  { eexists. split; [vm_compute; reflexivity|]. split.
    - eexists. split; [left; reflexivity|]. vm_compute. reflexivity.
    - intros e [<-|[]] _. vm_compute. reflexivity. }
  assert (D : forall r, log_dialect (wx_env r) [lx_block 1]).
  { intros r. split. { eexists. split; reflexivity. } intros p [<-|[]] _. split; [wfb|discriminate]. }
  split; auto. split; auto. split; [vm_compute; reflexivity|]. split; vm_compute; repeat split.
Qed.

Print Assumptions C82_binary_partial.
