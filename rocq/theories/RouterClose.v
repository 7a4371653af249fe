(* The end of the program with any logger: closing the log and routing the logger's last messages comes to an end. *)
From Verif Require Import Base Mav SpecFrame Frame FrameProofs Dedup Accept AcceptProofs Names Sys LogFile ULog Loggers LogInv LogStep LogMono LogSafe
  RouterCtl Router RouterRoute RouterRoute2 RouterSetup RouterActs RouterInv RouterLearn RouterStep RouterStart RouterHist SpecRouter SpecLife RouterTrace
  RouterTimers RouterTimers2 RouterLife2 RouterLife3 RouterStays SpecEnd RouterEnd RouterEnd2 RouterFinish RouterSafe RouterSafe2 ULogProofs.

(* ---- routing messages of loggers ------------------------------------------------------------------------------------- *)

Lemma write_fine2 : forall f v y k e mem m, is_log e = false -> fine (write_ep f v y k e mem m).
Proof.
  intros f v y k e mem m IL. unfold write_ep. unfold is_log in IL. destruct (ep_kind e) as [b c p|c pe p|r vl|l] eqn:K; [| | |discriminate].
  - destruct (negb _); auto. destruct (os_write _ _ _) as [r y1]. destruct (_ =? _); auto.
  - destruct (negb _); auto. destruct (_ =? 0); auto. destruct (os_write _ _ _) as [r y1]. destruct (_ <? 0); auto.
  - destruct (negb _); auto. destruct (os_write _ _ _) as [r1 y1]. destruct (_ <? 0); auto. destruct (if _ =? _ then _ else _); auto.
Qed.
Lemma deliver_fine2 : forall f v w k e mem m, is_log e = false -> (m_len m <= length mem)%nat -> fine (deliver f v w k e mem m).
Proof.
  intros f v w k e mem m IL ML. unfold deliver. apply fine_bind. { apply fine_slice. lia. } intros bs _.
  apply fine_bind. { apply write_fine2; auto. } intros [[[[[y e1] mem1] ret] call] cs] _.
  destruct (if ret =? - EAGAIN then _ else _) as [[y2 e2] req]. auto.
Qed.
Definition all_there (w : world) (order : list nat) : Prop := forall i, In i order -> lookup w i <> None.
Lemma there_routed : forall w w' order, routed w w' -> all_there w order -> all_there w' order.
Proof. intros w w' order R A i I. specialize (A i I). pose proof (ro_ep _ _ R i) as X. destruct (lookup w i); [|congruence]. destruct (lookup w' i); [congruence|destruct X]. Qed.

Lemma each_fine2 : forall f v sub mem m, (m_len m <= length mem)%nat -> from_log m -> forall order w u, logs_ok w -> all_there w order -> fine (route_each sub f v w order mem m u).
Proof.
  intros f v sub mem m ML FL. induction order as [|i r IH]; intros w u LO AL. { cbn [route_each]. auto. }
  rewrite route_each_cons. destruct (lookup w i) as [e|] eqn:L. 2:{ destruct (AL i); [left; auto|auto]. }
  rewrite (lookup_get _ _ _ L). cbn [bind]. assert (AL1 : all_there w r) by (intros j J; apply AL; right; auto).
  destruct (accept_msg _ _ _ _) eqn:AC; try (apply IH; auto).
  destruct (is_log e) eqn:LG. { rewrite (log_rejects _ _ _ _ (LO _ _ L LG) FL) in AC. discriminate. }
  apply fine_bind. { apply deliver_fine2; auto. } intros [[[w1 mem1] d] cs] D.
  destruct (deliver_spec _ _ _ _ _ _ _ _ _ _ _ D L) as (RR & _ & _ & N & _). destruct (N LG) as [-> ->]. cbn [route_ctls bind].
  apply fine_bind. { apply IH. { eapply logs_routed; eauto. } eapply there_routed; eauto. } intros [[[[? ?] ?] ?] ?] _. auto.
Qed.
Lemma nested_fine2 : forall k f v w c, logs_ok w -> all_there w (w_order w) -> ctl_ok c -> fine (nested (Datatypes.S k) f v w c).
Proof.
  intros k f v w c LO AL C. unfold nested. apply fine_bind.
  { rewrite route_S. apply fine_bind. { apply each_fine2; auto. { destruct C as (_ & _ & _ & -> & _). auto. } apply ctl_from; auto. } intros [[[[? ?] ?] ?] ?] _. auto. }
  intros [[[? ?] ?] ?] _. auto.
Qed.
Lemma ctls_fine2 : forall k f v cs w i, logs_ok w -> all_there w (w_order w) -> Forall ctl_ok cs -> fine (route_ctls (nested (Datatypes.S k) f v) w i cs).
Proof.
  intros k f v. induction cs as [|c cs IH]; intros w i LO AL F; cbn [route_ctls]; auto. inversion F; subst.
  apply fine_bind. { apply nested_fine2; auto. } intros [[w1 ds] its] E. pose proof (nested_routed _ _ _ _ _ _ _ _ E) as R.
  apply fine_bind. { apply IH; auto. { eapply logs_routed; eauto. } rewrite (ro_order _ _ R). eapply there_routed; eauto. } intros [? ?] _. auto.
Qed.

(* ---- closing the streaming log ------------------------------------------------------------------------------------------ *)

Definition no_stall (v : env) (y : sys) : Prop := forall k, (y_pos y <= k)%nat -> v_orc v k <> 0 /\ v_orc v k <> - EAGAIN.

Lemma part_ends : forall f v y g u, ubuf_ok u -> u_plen u < Z.of_nat f -> no_stall v y -> exists y' g' u' r, flush_part f v y g u = Ok (y', g', u', r) /\ u_len u' = u_len u /\ ubuf_ok u' /\
  (r = Some false \/ r = None /\ u_plen u' = 0).
Proof.
  induction f; intros v y g u B L NS. { destruct B. lia. }
  cbn [flush_part]. destruct (Z.eqb_spec (u_plen u) 0) as [Z0|Z0]; [eauto 10|].
  pose proof B as B0. destruct B as [B1 BB B2 B3 B4 B5 B6]. unfold UPART in *. rewrite slice_Ok by lia. cbn [bind skipn].
  set (bs := firstn (Z.to_nat (u_plen u)) (u_part u)).
  assert (LB : length bs = Z.to_nat (u_plen u)) by (unfold bs; rewrite firstn_length; lia).
  destruct (file_write v y g (l_off g) bs) as [[r y1] g1] eqn:FW. pose proof (file_write_bound _ _ _ _ _ _ _ _ FW) as RB.
  assert (R0 : r <> 0 /\ r <> - EAGAIN /\ no_stall v y1).
  { unfold file_write in FW. destruct (l_open g).
    - unfold ask in FW. destruct (NS (y_pos y) (le_n _)) as [N1 N2]. destruct (Z.ltb_spec (v_orc v (y_pos y)) 0).
      + injection FW as <- <- <-. split; auto. split; auto. intros k K. cbn [set_pos y_pos] in K. apply NS. lia.
      + cbn [y_fs set_pos] in FW. destruct (y_fs y); injection FW as <- <- <-; (split; [lia|]; split; [unfold EAGAIN; lia|]; intros k K; cbn [set_fs set_pos y_pos] in K; apply NS; lia).
    - injection FW as <- <- <-. split; [discriminate|]. split; [discriminate|]. auto. }
  destruct R0 as (N1 & N2 & NS1). apply Z.eqb_neq in N1 as E1. apply Z.eqb_neq in N2 as E2. rewrite E1, E2. cbn [orb].
  destruct (Z.ltb_spec r 0). { do 4 eexists. split; [reflexivity|]. auto. }
  rewrite u16_small by lia. rewrite memmove_Ok by lia. cbn [bind firstn app].
  match goal with |- context [flush_part f v y1 g1 ?z] => destruct (IHf v y1 g1 z) as (y' & g' & u' & q & E & A1 & A2 & A3) end; auto.
  - split; cbn [set_part u_buf u_part u_len u_idx u_plen]; auto; try lia. rewrite app_length, firstn_length, !skipn_length. unfold UPART. lia.
  - cbn [set_part u_plen]. lia.
  - rewrite E. do 4 eexists. split; [reflexivity|]. cbn [set_part u_len] in A1. auto.
Qed.
Lemma stop_ends : forall f v y g u, ubuf_ok u -> u_len u = 0 -> (1025 <= f)%nat -> no_stall v y -> fine (stop_flush f f v y g u).
Proof.
  intros f v y g u B L F NS. destruct f as [|f]; [lia|]. cbn [stop_flush]. destruct (Z.eqb_spec (u_plen u) 0); auto.
  destruct (part_ends (Datatypes.S f) v y g u) as (y' & g' & u' & r & E & A1 & A2 & A3); auto. { destruct B. unfold UPART in *. lia. }
  unfold ul_flush. rewrite E. cbn [bind]. destruct A3 as [->|[-> P0]]; cbn [bind]; auto.
  cbn [flush_msgs]. rewrite A1, L. cbn [Z.leb Z.compare andb negb bind]. destruct f as [|f]; [lia|]. cbn [stop_flush]. rewrite P0. cbn [Z.eqb]. auto.
Qed.
Lemma ul_stop_ends : forall f v y g u, ubuf_ok u -> sys_ok y -> linv y g -> (1025 <= f)%nat -> no_stall v y -> fine (lstop f v y g (BULog u)).
Proof.
  intros f v y g u B S L F NS. cbn [lstop]. apply fine_bind; [|intros [[[? ?] ?] ?] _; auto]. unfold ul_stop. destruct (l_open g) eqn:O; cbn [negb]; auto.
  destruct (send_command y g CMD_LOGGING_STOP) as [[y1 g1] c1] eqn:SB. apply calm_send_ctl in SB.
  apply fine_bind. { apply stop_ends; auto. { destruct B. split; cbn [set_buf u_buf u_part u_len u_idx u_plen]; auto; lia. } intros k K. apply NS. pose proof (ca_pos _ _ _ _ SB). lia. }
  intros [[y2 g2] u2] SF. apply calm_stop_flush in SF. pose proof (calm_trans _ _ _ _ _ _ SB SF) as C.
  apply fine_bind; [|intros [? ?] _; auto]. apply log_stop_fine; [eapply calm_sys; eauto|eapply calm_linv; eauto].
Qed.

(* ---- the end of the program ------------------------------------------------------------------------------------------------ *)

Lemma finish_ends : forall f v c its w i e, wf_table (v_tbl v) -> runs f v c its w -> w_log w = Some i -> lookup w i = Some e ->
  match ep_kind e with
  | KLog (LFile g b) => fine (lstop f v (w_sys w) g b)
  | KLog (LAuto a) => match a_inner a with Some (g, b) => fine (lstop f v (w_sys w) g b) | None => True end
  | _ => False
  end -> fine (finish f v w).
Proof.
  intros f v c its w i e WT R WL L Q. destruct (settled_runs _ _ _ _ _ WT R) as ([IV (arm & Tw) LF SY FA] & HG & VA).
  assert (LO : forall y1 e1, is_log e = true -> ep_ids e1 = ep_ids e -> logs_ok (put (set_sys w y1) i e1) /\ all_there (put (set_sys w y1) i e1) (w_order w)).
  { intros y1 e1 IL IE. split.
    - intros j ej J G. destruct (Nat.eq_dec j i) as [->|NE].
      + rewrite (lookup_put_eq _ _ _ e) in J by (rewrite lookup_sys; auto). injection J as <-. rewrite IE. apply (inv_logs _ IV i e); auto.
      + rewrite lookup_put_neq in J by auto. rewrite lookup_sys in J. apply (inv_logs _ IV j ej); auto.
    - intros j J. destruct (Nat.eq_dec j i) as [->|NE]. { rewrite (lookup_put_eq _ _ _ e) by (rewrite lookup_sys; auto). discriminate. }
      rewrite lookup_put_neq by auto. rewrite lookup_sys. apply (i_alive _ IV). auto. }
  unfold finish. rewrite WL, (lookup_get _ _ _ L). cbn [bind]. change (route_sub f v) with (nested 2 f v).
  assert (IL : is_log e = true). { unfold is_log. destruct (ep_kind e); auto; destruct Q. }
  destruct (ep_kind e) as [| | |[g b|a]] eqn:K; try (destruct Q; fail).
  - apply fine_bind; [exact Q|]. intros [[[y1 g1] b1] cs] LS. edestruct (LO y1) as [A B]; [exact IL| |apply ctls_fine2; [exact A|exact B|eapply ctl_lstop; eauto]]. reflexivity.
  - destruct (a_inner a) as [[g b]|]; [|auto]. apply fine_bind; [exact Q|]. intros [[[y1 g1] b1] cs] LS. edestruct (LO y1) as [A B]; [exact IL| |apply ctls_fine2; [exact A|exact B|eapply ctl_lstop; eauto]]. reflexivity.
Qed.
