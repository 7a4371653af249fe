(* A message handed to a serial endpoint is written to its device. *)
From Verif Require Import Base Mav SpecCrc SpecFrame Frame FrameProofs Dedup SpecAccept Accept AcceptProofs Names NamesProofs Sys LogFile LogFileProofs ULog Loggers LogInv LogStep LogMono RouterCtl Router
  RouterRoute RouterRoute2 RouterSetup RouterActs RouterInv RouterLearn RouterStep RouterStart RouterHist SpecRouter SpecLife RouterTrace RouterLife RouterLife2 RouterLife3.
From Coq Require Import Permutation.

Lemma one_uart_call : forall e d e', one e d e' -> forall b cu tm, ep_kind e = KUart b cu tm -> ep_fd e = true -> exists r, dl_call d = DSent None r.
Proof.
  intros e d e' (f & v & w & i & mem & m & w' & mem' & cs & L & D & L') b cu tm K F. unfold deliver in D. inv_bind D. inv_bind D.
  match goal with E : write_ep _ _ _ _ _ _ _ = Ok (?a, ?b, ?c, ?d0, ?e0, ?f0) |- _ => rename e0 into call; rename E into W end.
  destruct (if _ =? - EAGAIN then _ else _) as [[y2 e2] req] eqn:MF. assert (DD : dl_call d = call) by (match type of D with Ok (_, _, ?q, _) = _ => assert (d = q) by congruence end; subst d; reflexivity). rewrite DD. clear D MF DD L'.
  unfold write_ep in W. rewrite K, F in W. cbn [negb] in W. destruct (os_write v (w_sys w) _) as [q y3]. destruct (q =? - EAGAIN); inversion W; eauto.
Qed.
Lemma steps_uart_call : forall e l e', steps e l e' -> forall b cu tm, ep_kind e = KUart b cu tm -> ep_fd e = true -> Forall (fun d => exists r, dl_call d = DSent None r) l.
Proof.
  intros e l e' S. induction S as [e|e d e1 ds e2 O S IH]; intros b cu tm K F. { constructor. }
  destruct (one_spec _ _ _ O) as [_ X]. { unfold is_log. rewrite K. auto. } rewrite K in X. destruct X as (K1 & F1).
  constructor; [eapply one_uart_call; eauto|eapply IH; [exact K1|congruence]].
Qed.

Theorem uart_told : forall f v c its w, wf_table (v_tbl v) -> runs f v c its w -> forall x d b, In x its -> In d (made x) -> uart_conf c (dl_to d) = Some b ->
  exists r, dl_call d = DSent None r.
Proof.
  intros f v c its w WT R.
  assert (G : life c its w /\ forall d b, In d (flat_map made its) -> uart_conf c (dl_to d) = Some b -> exists r, dl_call d = DSent None r).
  2:{ intros x d b X D U. apply (proj2 G d b); auto. apply in_flat_map. eauto. }
  revert its w R. apply (runs_ind f v c (fun its w => life c its w /\ forall d b, In d (flat_map made its) -> uart_conf c (dl_to d) = Some b -> exists r, dl_call d = DSent None r)); auto.
  - intros d pos w0 S. split; [eapply life_start; eauto|]. intros ? ? [].
  - intros h u it u' I (LF & T) A. split; [eapply life_act; eauto|]. intros d b D U. rewrite made_app in D. apply in_app_or in D. destruct D as [D|D]; [eauto|].
    destruct (act_shape _ _ _ _ _ WT A I) as [SH _].
    assert (SQ : forall x r, it = x :: r -> Forall quiet r). { intros x r E. apply Forall_forall. intros y Y. eapply SH; eauto. }
    destruct (act_made _ _ _ _ _ WT A I d D) as (e & e' & L & L'). pose proof (lf_kind _ _ _ LF _ e L) as KL.
    assert (QK : (dl_to d < length (confs c))%nat). { unfold uart_conf in U. apply nth_error_Some. destruct (nth_error (confs c) (dl_to d)); congruence. }
    assert (NL : is_log e = false). { unfold is_log. unfold kind_life in KL. destruct (ep_kind e); auto. lia. }
    destruct (act_life _ _ _ _ _ _ _ _ WT A I L L' NL) as (e1 & s & e2 & KI & ST & PE & MI).
    pose proof (kick_life _ _ _ h _ _ _ _ KL NL KI SQ) as KL1. unfold kind_life in KL1. destruct (ep_kind e1) as [b0 cu t|cf1 pe t|r vl|l0] eqn:K1.
    + destruct KL1 as (_ & F1 & _). pose proof (steps_uart_call _ _ _ ST _ _ _ K1 F1) as FA. rewrite Forall_forall in FA. apply FA.
      eapply Permutation_in; [apply Permutation_sym; exact PE|]. unfold sends, tok. apply filter_In. split; auto. apply Nat.eqb_refl.
    + exfalso. destruct KL1 as (s1 & B1 & _). unfold uart_conf, udp_conf in *. destruct (nth_error (confs c) (dl_to d)) as [q|]; [|discriminate]. destruct (ec_kind q); discriminate.
    + exfalso. destruct KL1 as [[B|[B _]] _]; [|lia]. unfold uart_conf, tcp_conf in *. destruct (nth_error (confs c) (dl_to d)) as [q|]; [|discriminate]. destruct (ec_kind q); discriminate.
    + lia.
Qed.
