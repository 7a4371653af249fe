(* C94: a connection that ended is let go of. *)
From Verif Require Import Base Mav SpecCrc SpecFrame Frame FrameProofs FrameLink Dedup DedupProofs SpecAccept Accept AcceptProofs Names NamesProofs Sys LogFile LogFileProofs ULog Loggers LogInv LogStep LogMono
  RouterCtl Router RouterRoute RouterRoute2 RouterSetup RouterActs RouterInv RouterLearn RouterStep RouterStart RouterHist SpecRouter SpecLife RouterTrace
  RouterLife RouterLife2 RouterLife3 RouterLife4 RouterTimers RouterTimers2 RouterLife5 RouterStays SpecEnd RouterEnd RouterEnd2 RouterDedup Prop_Dedup ExFrame ExRouter Prop_Router4.

(* the router reads from endpoint k, receives a message from it or writes to it *)
Definition concerns (k : nat) (x : item) : Prop :=
  (exists o, x = IRead k o) \/ (exists bs m d ds, x = IRecv k bs m d ds) \/ exists d, In d (made x) /\ dl_to d = k.

Definition silent (c : config) (h : list item) : Prop :=
  forall k a x b, group_of c k = [] -> h = a ++ x :: b -> In k (gone a) -> ~ concerns k x.
Lemma silent_act : forall f v c h w its w', wf_table (v_tbl v) -> act f v w its w' -> story v c h w -> silent c h -> silent c (h ++ its).
Proof.
  intros f v c h w its w' WT A SO S k a x b G E K C. pose proof (story_act _ _ _ _ _ _ _ WT A SO) as SO'. pose proof (so_inv _ _ _ _ SO) as I.
  destruct (split_app _ _ _ _ _ _ E) as [(q & Q)|(p & -> & Q)]; [eapply S; eauto|].
  rewrite gone_app in K. apply in_app_or in K. assert (X : In x its) by (rewrite Q; apply in_or_app; right; left; auto). destruct K as [K|K].
  - pose proof (fa_dead _ _ _ (so_fate _ _ _ _ SO) _ K G) as L.
    assert (K' : In k (gone (h ++ its))) by (rewrite gone_app; apply in_or_app; auto). pose proof (fa_dead _ _ _ (so_fate _ _ _ _ SO') _ K' G) as L'.
    destruct C as [(o & ->)|[(bs & m & d & ds & ->)|(d & D & T)]].
    + destruct (act_reads _ _ _ _ _ _ _ WT A I X) as (e & Y). congruence.
    + apply (act_recv_alive _ _ _ _ _ WT A I _ _ _ _ _ X). exact L'.
    + destruct (act_made _ _ _ _ _ WT A I d) as (e & e' & Y & _); [apply in_flat_map; eauto|]. congruence.
  - assert (HU : process_hangups w = Ok (w', its)).
    { assert (KI : In k (gone its)) by (rewrite Q, gone_app; apply in_or_app; auto).
      destruct (act_steady _ _ _ _ _ WT A I) as [Y|[(Y & _)|[_ Y]]]; auto; exfalso; [|rewrite Y in KI; destruct KI]. rewrite Y in KI. clear - KI. revert KI. unfold tcp_connection.
      destruct (ask v (w_sys w)) as [q y]. destruct (q <? 0); [intros []|]. destruct (ask_bytes RXMAX v y), (add_fd v _ _). intros []. }
    assert (XG : exists j, x = IGone j).
    { clear - HU X I. unfold process_hangups in HU. destruct (w_hang w). 2:{ inversion HU; subst its. destruct X. } inv_bind HU. inversion HU; subst; clear HU.
      match goal with Y : hangups _ _ = _ |- _ => destruct (hangups_spec _ _ _ _ _ Y (inv_sym _ I)) as (_ & _ & _ & D & _) end. rewrite D in X. apply in_map_iff in X. destruct X as (j & <- & _). eauto. }
    destruct XG as (j & ->). destruct C as [(o & C)|[(bs & m & d & ds & C)|(d & D & T)]]; try discriminate. destruct D.
Qed.
Lemma silent_acts : forall f v c w its w', wf_table (v_tbl v) -> acts f v w its w' -> forall h, story v c h w -> silent c h -> silent c (h ++ its).
Proof.
  intros f v c w its w' WT A. induction A; intros h SO S. { rewrite app_nil_r. auto. }
  rewrite app_assoc. apply IHA; [eapply story_act; eauto|eapply silent_act; eauto].
Qed.

(* A TCP endpoint outside groups that was removed because its connection ended is destroyed; epoll_wait no longer reports
   it; and nothing is ever read from it, received from it or written to it again, whatever happens. *)
Theorem C94_let_go_partial : forall f v c its w k, wf_table (v_tbl v) -> runs f v c its w -> group_of c k = [] ->
  (In k (gone its) -> lookup w k = None /\ forall rd out err, registered w (EEp k rd out err) = false) /\
  forall a x b, its = a ++ x :: b -> In k (gone a) -> ~ concerns k x.
Proof.
  intros f v c its w k WT (d & pos & w0 & S & E) G. pose proof (story_start _ _ _ _ _ S) as S0. apply exec_acts in E.
  pose proof (story_acts _ _ _ _ _ _ WT E _ S0) as S1. cbn [app] in S1. split.
  - intros K. pose proof (fa_dead _ _ _ (so_fate _ _ _ _ S1) _ K G) as L. split; [exact L|]. intros rd out err. cbn [registered]. rewrite L. reflexivity.
  - intros a x b Q K. assert (SI : silent c []) by (intros ? a0 ? ? ? Y; destruct a0; discriminate Y). eapply (silent_acts _ _ _ _ _ _ WT E _ S0 SI); eauto.
Qed.
Print Assumptions C94_let_go_partial.
(* two TCP clients without reconnect interval, in one group *)
Definition hg_conf : config := mkCf [] [] [mkEc (CTcp 0 5760) true no_filters [103]; mkEc (CTcp 0 5761) true no_filters [103]] 0 None 0 false 0.
Definition hg_eof : list event := [EEp 0 (Some (OsData [] (0, 0))) false false].
Definition hg_env : env := rx_env [].
Definition hg_read : item := IRead 0 (OsData [] (0, 0)).

(* Refuted: a removed endpoint of a group of which another endpoint is left is not destroyed.  Its connection stays open and
   registered: epoll_wait returns at once, as often as it is called, and each time the router reads the end of the file again and
   is left in the same state. *)
Theorem C94_spins_refuted : exists its w, runs 9 hg_env hg_conf its w /\ wf_table (v_tbl hg_env) /\ In 0%nat (gone its) /\ w_exit w = None /\
  Forall (wf_event w) hg_eof /\ forall n, run 9 hg_env w (repeat hg_eof n) = Ok (w, repeat hg_read n).
Proof.
  assert (F : view (session 9 hg_env (Some []) hg_conf [hg_eof]) (fun w its => (step 9 hg_env w hg_eof, gone its, w_exit w, forallb (wf_eventb w) hg_eof)) =
              view (session 9 hg_env (Some []) hg_conf [hg_eof]) (fun w its => (Ok (w, [hg_read]), [0%nat], None, true))) by (vm_compute; reflexivity).
  assert (S : after (session 9 hg_env (Some []) hg_conf [hg_eof]) (fun _ _ => true) = true) by (vm_compute; reflexivity).
  apply after_runs in S. destruct S as (w & its & S & R & _). rewrite S in F. unfold view in F. injection F as F1 F2 F3 F4.
  exists its, w. split; [exact R|]. split; [apply rx_tbl_wf|]. split; [rewrite F2; left; reflexivity|]. split; [exact F3|]. split.
  - apply Forall_forall. intros e E. apply wf_eventb_ok. assert (FB : forallb (wf_eventb w) hg_eof = true) by (cbn [forallb hg_eof]; rewrite F4; auto). rewrite forallb_forall in FB. auto.
  - clear S R F2 F4. induction n as [|n IH]; [reflexivity|]. cbn [repeat run]. rewrite F3, F1. cbn [bind]. rewrite IH. reflexivity.
Qed.
Print Assumptions C94_spins_refuted.

(* an accepted client outside groups: read from, removed, and nothing more *)
Example C94_nonvacuous : exists w its, runs 9 (rx_env [(4492%nat, - EPIPE)]) rm_conf its w /\ In 2%nat (gone its) /\ group_of rm_conf 2 = [] /\
  exists a b, its = a ++ b /\ (exists x, In x a /\ concerns 2 x) /\ In 2%nat (gone a) /\ b <> [].
Proof.
  destruct (view_runs _ (fun w its => (gone its, existsb (fun x => match x with IRead 2 _ => true | _ => false end) (firstn 5 its), gone (firstn 5 its), match skipn 5 its with [] => false | _ => true end))
    ([2; 1]%nat, true, [2%nat], true) 9 (rx_env [(4492%nat, - EPIPE)]) (Some []) rm_conf rm_events) as (w & its & R & X). { vm_compute. reflexivity. }
  pose proof (f_equal (fun p => fst (fst (fst p))) X) as X1. pose proof (f_equal (fun p => snd (fst (fst p))) X) as X2. pose proof (f_equal (fun p => snd (fst p)) X) as X3. pose proof (f_equal snd X) as X4.
  cbn [fst snd] in X1, X2, X3, X4. clear X. exists w, its. split; [exact R|]. split; [rewrite X1; left; auto|]. split; [reflexivity|]. exists (firstn 5 its), (skipn 5 its). rewrite firstn_skipn.
  split; [reflexivity|]. split; [|split; [rewrite X3; left; auto|destruct (skipn 5 its); discriminate]].
  apply existsb_exists in X2. destruct X2 as (x & IN & Q). exists x. split; auto. left. destruct x as [i o| | | | |]; try discriminate. exists o. destruct i as [|[|[|i]]]; try discriminate. reflexivity.
Qed.
