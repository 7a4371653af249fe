(* The systems the loggers address: none (-1) or a system id. *)
From Verif Require Import Base Mav SpecFrame Frame FrameProofs FrameRefine FrameLink Dedup SpecAccept Accept AcceptProofs Names Sys LogFile LogFileProofs ULog Loggers LogInv LogStep RouterCtl Router RouterRoute RouterRoute2 RouterSetup RouterActs RouterInv RouterLearn RouterStep RouterStart RouterHist SpecRouter SpecStream RouterTrace RouterTimers RouterTimers2 RouterOwn.

(* ---- the loggers ------------------------------------------------------------------------------------------------- *)

Definition said (t : Z) (cs : list ctl) : Prop := Forall (fun c : ctl => m_tsys (snd c) = t) cs.
(* the target stays, and the messages are for it *)
Definition aims (g g' : lg) (cs : list ctl) : Prop := l_target g' = l_target g /\ said (l_target g) cs.

Lemma aims_nil : forall g, aims g g [].
Proof. intros. split; auto. constructor. Qed.
Lemma aims_app : forall a b c x y, aims a b x -> aims b c y -> aims a c (x ++ y).
Proof. intros a b c x y [A B] [C D]. split; [congruence|]. apply Forall_app. split; auto. rewrite <- A. auto. Qed.
Lemma aims_one : forall a b c x y, aims a b [x] -> aims b c y -> aims a c (x :: y).
Proof. intros. apply (aims_app a b c [x] y); auto. Qed.
Lemma aims_calm : forall y g y' g', calm y g y' g' -> aims g g' [].
Proof. intros y g y' g' C. split; [apply C|constructor]. Qed.
Lemma aims_then : forall a b c x, aims a b x -> aims b c [] -> aims a c x.
Proof. intros a b c x A B. rewrite <- (app_nil_r x). eapply aims_app; eauto. Qed.
Lemma aims_after : forall a b c x, aims a b [] -> aims b c x -> aims a c x.
Proof. intros a b c x A B. change x with ([] ++ x). eapply aims_app; eauto. Qed.
Lemma aims_count : forall a b x m, aims a b x -> aims a (count_write b m) x.
Proof. intros a b x m [A B]. split; auto. Qed.
Lemma aims_mode : forall a b x m, aims a b x -> aims a (set_mode b m) x.
Proof. intros a b x m [A B]. split; auto. Qed.

Lemma aims_send : forall y g i x p y' g' c, send_ctl y g i x p = (y', g', c) -> aims g g' [c].
Proof. intros y g i x p y' g' c H. unfold send_ctl in H. inversion H; subst. split; auto. repeat constructor. Qed.
Lemma aims_status : forall y g s t y' g' c, send_block_status y g s t = (y', g', c) -> aims g g' [c].
Proof. intros. eapply aims_send; eauto. Qed.
Lemma aims_command : forall y g s y' g' c, send_command y g s = (y', g', c) -> aims g g' [c].
Proof. intros. eapply aims_send; eauto. Qed.
Lemma aims_nacks : forall n y g s y' g' cs, send_nacks n y g s = (y', g', cs) -> aims g g' cs.
Proof.
  induction n; intros y g s y' g' cs H; cbn [send_nacks] in H. { inversion H; subst. apply aims_nil. }
  destruct (send_block_status y g s BLOCK_NACK) as [[y1 g1] c] eqn:A. destruct (send_nacks n y1 g1 s) as [[y2 g2] cs2] eqn:B.
  inversion H; subst. eapply aims_one; [eapply aims_status|eapply IHn]; eauto.
Qed.
Lemma aims_ack : forall y g a s y' g' a' cs, send_ack y g a s = (y', g', a', cs) -> aims g g' cs.
Proof.
  intros y g a s y' g' a' cs H. unfold send_ack in H. destruct (s <? a).
  - destruct (send_block_status y g s BLOCK_ACK) as [[y1 g1] c] eqn:A. inversion H; subst. eapply aims_status; eauto.
  - destruct (send_nacks _ _ _ _) as [[y1 g1] cs1] eqn:A. destruct (send_block_status y1 g1 s BLOCK_ACK) as [[y2 g2] c] eqn:B.
    inversion H; subst. eapply aims_app; [eapply aims_nacks|eapply aims_status]; eauto.
Qed.
Lemma aims_log_start : forall v y g y' g' ok, log_start v y g = Ok (y', g', ok) -> aims g g' [].
Proof.
  intros v y g y' g' ok H. unfold log_start in H. destruct (l_open g). { inversion H; subst. apply aims_nil. }
  destruct (get_file _ _ _) as [[name|] y1]. 2:{ inversion H; subst. apply aims_nil. }
  destruct (add_timer _ _ _ _) as [[ts|] y2]. 2:{ inversion H; subst. split; auto. constructor. }
  destruct (add_timer _ _ _ _) as [[tf|] y3]. { inversion H; subst. split; auto. constructor. }
  inv_bind H. inversion H; subst. split; auto. constructor.
Qed.
Lemma aims_log_stop : forall v y g y' g', log_stop v y g = Ok (y', g') -> aims g g' [].
Proof.
  intros v y g y' g' H. unfold log_stop in H. inv_bind H. inv_bind H. inv_bind H. destruct (ask _ _). inversion H; subst. split; auto. constructor.
Qed.
Lemma aims_alive : forall v y g y' g', start_alive v y g = (y', g') -> aims g g' [].
Proof. intros v y g y' g' H. unfold start_alive in H. destruct (add_timer _ _ _ _). inversion H; subst. split; auto. constructor. Qed.
Lemma aims_remove : forall y g y' g', remove_start_timeout y g = Ok (y', g') -> aims g g' [].
Proof. intros y g y' g' H. unfold remove_start_timeout in H. destruct (l_tstart g); [|discriminate]. inv_bind H. inversion H; subst. split; auto. constructor. Qed.

Lemma aims_bin_start : forall v y g a y' g' a' ok, bin_start v y g a = Ok (y', g', a', ok) -> aims g g' [].
Proof. intros v y g a y' g' a' ok H. unfold bin_start in H. inv_bind H. inversion H; subst. eapply aims_log_start; eauto. Qed.
Lemma aims_bin_stop : forall v y g y' g' cs, bin_stop v y g = Ok (y', g', cs) -> aims g g' cs.
Proof.
  intros v y g y' g' cs H. unfold bin_stop in H. destruct (negb _). { inversion H; subst. apply aims_nil. }
  destruct (send_block_status y g BLOCK_STOP 1) as [[y1 g1] c] eqn:A. inv_bind H. inversion H; subst. eapply aims_one; [eapply aims_status|eapply aims_log_stop]; eauto.
Qed.
Lemma aims_bin_restart : forall v y g a y' g' a' cs, bin_restart v y g a = Ok (y', g', a', cs) -> aims g g' cs.
Proof. intros v y g a y' g' a' cs H. unfold bin_restart in H. inv_bind H. inv_bind H. inversion H; subst. eapply aims_then; [eapply aims_bin_stop|eapply aims_bin_start]; eauto. Qed.
Lemma aims_bin_process : forall v y g a s d y' g' a' cs, bin_process v y g a s d = Ok (y', g', a', cs) -> aims g g' cs.
Proof.
  intros v y g a s d y' g' a' cs H. unfold bin_process in H. destruct (negb _). { eapply aims_bin_restart; eauto. }
  destruct (ask v y) as [sk y0]. destruct (sk <? 0). { eapply aims_bin_restart; eauto. }
  destruct (file_write _ _ _ _ _) as [[r y2] g2] eqn:W. apply calm_file_write, aims_calm in W. destruct (_ && _). { eapply aims_after; [exact W|]. eapply aims_bin_restart; eauto. }
  destruct (negb _). { inversion H; subst; auto. }
  assert (X : send_ack y2 g2 a s = (y', g', a', cs)) by congruence. eapply aims_after; [exact W|]. eapply aims_ack; eauto.
Qed.
Lemma aims_bin_write : forall v y g a mem m y' g' a' cs, bin_write v y g a mem m = Ok (y', g', a', cs) -> aims g g' cs.
Proof.
  intros v y g a mem m y' g' a' cs H. unfold bin_write in H. destruct (negb _). { inversion H; subst; apply aims_nil. }
  destruct (v_tbl v (m_id m)) as [e|]; [|inversion H; subst; apply aims_nil].
  inv_bind H. inv_bind H. inv_bind H. inv_bind H.
  assert (C : aims g l1 l0).
  { destruct (l_tstart g).
    - destruct (a0 =? 0).
      + inv_bind E2. destruct (start_alive _ _ _) eqn:S. inversion E2; subst. eapply aims_after; [eapply aims_remove|eapply aims_alive]; eauto.
      + destruct (send_block_status _ _ _ _) as [[y1 g1] c] eqn:A. inversion E2; subst. eapply aims_status; eauto.
    - inversion E2; subst; apply aims_nil. }
  destruct b.
  - inv_bind H. inv_bind H. inversion H; subst. apply aims_count. eapply aims_app; eauto. eapply aims_bin_process; eauto.
  - inversion H; subst; auto.
Qed.

Lemma aims_ul_start : forall v y g u y' g' u' ok, ul_start v y g u = Ok (y', g', u', ok) -> aims g g' [].
Proof. intros v y g u y' g' u' ok H. unfold ul_start in H. inv_bind H. inversion H; subst. eapply aims_log_start; eauto. Qed.
Lemma aims_ul_stop : forall f v y g u y' g' u' cs, ul_stop f v y g u = Ok (y', g', u', cs) -> aims g g' cs.
Proof.
  intros f v y g u y' g' u' cs H. unfold ul_stop in H. destruct (negb _). { inversion H; subst; apply aims_nil. }
  destruct (send_command _ _ _) as [[y1 g1] c] eqn:A. inv_bind H. inv_bind H. inversion H; subst. apply calm_stop_flush, aims_calm in E.
  eapply aims_one; [eapply aims_command; exact A|]. eapply aims_after; [exact E|]. eapply aims_log_stop; eauto.
Qed.
Lemma aims_ul_restart : forall f v y g u y' g' u' cs, ul_restart f v y g u = Ok (y', g', u', cs) -> aims g g' cs.
Proof. intros f v y g u y' g' u' cs H. unfold ul_restart in H. inv_bind H. inv_bind H. inversion H; subst. eapply aims_then; [eapply aims_ul_stop|eapply aims_ul_start]; eauto. Qed.
Lemma aims_ul_process : forall f v y g u mm b y' g' u' mm' cs, ul_process f v y g u mm b = Ok (y', g', u', mm', cs) -> aims g g' cs.
Proof.
  intros f v y g u mm b y' g' u' mm' cs H. unfold ul_process in H. inv_bind H. inv_bind H.
  destruct (logging_seq _ _) as [[u1 d]|]; [|inversion H; subst; apply aims_nil]. destruct (u_hdr u1).
  - inv_bind H. destruct (_ <? 16). { inv_bind H. inversion H; subst. eapply aims_ul_restart; eauto. }
    inv_bind H. destruct (negb _). { inv_bind H. inversion H; subst. eapply aims_ul_restart; eauto. }
    inv_bind H. inv_bind H. inv_bind H. inv_bind H. inv_bind H. inversion H; subst.
    match goal with X : ul_data _ _ _ _ _ _ _ _ = Ok _ |- _ => apply calm_ul_data, aims_calm in X; auto end.
  - inv_bind H. inversion H; subst. match goal with X : ul_data _ _ _ _ _ _ _ _ = Ok _ |- _ => apply calm_ul_data, aims_calm in X; auto end.
Qed.
Lemma aims_ul_write : forall f v y g u mem m y' g' u' mem' cs, ul_write f v y g u mem m = Ok (y', g', u', mem', cs) -> aims g g' cs.
Proof.
  intros f v y g u mem m y' g' u' mem' cs H. unfold ul_write in H. destruct (negb _). { inversion H; subst; apply aims_nil. }
  destruct (v_tbl v (m_id m)) as [e|]; [|inversion H; subst; apply aims_nil]. inv_bind H. destruct (m_id m =? 77).
  - inv_bind H. destruct (ask_bytes _ _ _) as [jk y1]. inv_bind H. inv_bind H. inv_bind H. destruct (l_tstart g); [|inversion H; subst; apply aims_nil].
    destruct (_ =? CMD_LOGGING_START); [|inversion H; subst; apply aims_nil]. destruct (_ =? 0); [|inversion H; subst; apply aims_count, aims_nil].
    inv_bind H. destruct (start_alive _ _ _) eqn:S. inversion H; subst. apply aims_count. eapply aims_after; [eapply aims_remove|eapply aims_alive]; eauto.
  - inv_bind H.
    assert (C : aims g l0 l).
    { destruct (m_id m =? 267).
      - inv_bind E0. inv_bind E0. destruct (send_ctl _ _ _ _ _) as [[y1 g1] c] eqn:A. inversion E0; subst. eapply aims_send; eauto.
      - inversion E0; subst; apply aims_nil. }
    destruct (_ =? 0).
    + inv_bind H. inversion H; subst. apply aims_count. eapply aims_app; eauto. eapply aims_ul_process; eauto.
    + inv_bind H. inv_bind H. inversion H; subst. apply aims_count. eapply aims_app; eauto. eapply aims_ul_process; eauto.
Qed.

Lemma aims_lstart : forall v y g b y' g' b' ok, lstart v y g b = Ok (y', g', b', ok) -> aims g g' [].
Proof.
  intros v y g b y' g' b' ok H. destruct b; cbn [lstart] in H; inv_bind H; inversion H; subst; [eapply aims_bin_start|eapply aims_ul_start|eapply aims_log_start]; eauto.
Qed.
Lemma aims_lstop : forall f v y g b y' g' b' cs, lstop f v y g b = Ok (y', g', b', cs) -> aims g g' cs.
Proof.
  intros f v y g b y' g' b' cs H. destruct b; cbn [lstop] in H.
  - inv_bind H. inversion H; subst. eapply aims_bin_stop; eauto.
  - inv_bind H. inversion H; subst. eapply aims_ul_stop; eauto.
  - destruct (negb _). { inversion H; subst; apply aims_nil. } inv_bind H. inversion H; subst. eapply aims_log_stop; eauto.
Qed.
Lemma aims_auto : forall f v y g b mem m y' g' b' cs, auto_start_stop f v y g b mem m = Ok (y', g', b', cs) -> aims g g' cs.
Proof.
  intros f v y g b mem m y' g' b' cs H. unfold auto_start_stop in H. destruct (_ =? -1). { inversion H; subst; apply aims_nil. }
  destruct (l_mode g).
  - destruct (l_open g). { inversion H; subst; apply aims_nil. } inv_bind H. inversion H; subst. apply aims_lstart in E. match goal with |- aims _ (if ?x then _ else _) _ => destruct x end; auto using aims_mode.
  - destruct (_ && _ && _); [|inversion H; subst; apply aims_nil]. inv_bind H. destruct (negb _ && _). { inv_bind H. inversion H; subst. apply aims_lstart in E0. match goal with |- aims _ (if ?x then _ else _) _ => destruct x end; auto using aims_mode. }
    destruct (_ && negb _); [|inversion H; subst; apply aims_nil]. eapply aims_lstop; eauto.
  - inversion H; subst; apply aims_nil.
Qed.
Lemma aims_lwrite : forall f v y g b mem m y' g' b' mem' cs, lwrite f v y g b mem m = Ok (y', g', b', mem', cs) -> aims (learn_target g m) g' cs.
Proof.
  intros f v y g b mem m y' g' b' mem' cs H. unfold lwrite in H. inv_bind H. apply aims_auto in E.
  destruct b0; inv_bind H; inversion H; subst.
  - eapply aims_app; eauto. eapply aims_bin_write; eauto.
  - eapply aims_app; eauto. eapply aims_ul_write; eauto.
  - eapply aims_then; eauto. match goal with X : tele_write _ _ _ _ _ = Ok _ |- _ => apply calm_tele_write, aims_calm in X; auto end.
Qed.
Lemma aims_cb_start : forall y g b y' g' cs, lcb_start y g b = (y', g', cs) -> aims g g' cs.
Proof.
  intros y g b y' g' cs H. destruct b; cbn [lcb_start] in H.
  - destruct (send_block_status y g BLOCK_START 1) as [[y2 g2] c] eqn:S. inversion H; subst. eapply aims_status; eauto.
  - destruct (send_command y g CMD_LOGGING_START) as [[y2 g2] c] eqn:S. inversion H; subst. eapply aims_command; exact S.
  - inversion H; subst; apply aims_nil.
Qed.
Lemma aims_cb_alive : forall f v y g b y' g' b' cs, lcb_alive f v y g b = Ok (y', g', b', cs) -> aims g g' cs.
Proof.
  intros f v y g b y' g' b' cs H. unfold lcb_alive in H. inv_bind H. inversion H; subst; clear H.
  assert (X : aims g l0 cs); [|destruct X; split; auto]. destruct (_ =? _).
  - inv_bind E. inv_bind E. inversion E; subst. eapply aims_then; [eapply aims_lstop|eapply aims_lstart]; eauto.
  - inversion E; subst. apply aims_nil.
Qed.

(* ---- the router -------------------------------------------------------------------------------------------------- *)

Section Targets.
(* a property of targets that lasts: Q holds of the messages handed to the loggers *)
Variable P : Z -> Prop.
Variable Q : minfo -> Prop.
Hypothesis learn_tgt : forall g m, P (l_target g) -> Q m -> P (l_target (learn_target g m)).

Definition tgt_kind (k : kind) : Prop :=
  match k with
  | KLog (LFile g _) => P (l_target g)
  | KLog (LAuto a) => P (a_fcu a) /\ match a_inner a with Some (g, _) => P (l_target g) | None => True end
  | _ => True
  end.
Definition tgts (w : world) : Prop := forall i e, lookup w i = Some e -> tgt_kind (ep_kind e).
Definition tgt_ctls (cs : list ctl) : Prop := Forall (fun c : ctl => P (m_tsys (snd c))) cs.
Definition tgt_item (x : item) : Prop := match x with ICtl _ _ m _ => P (m_tsys m) | _ => True end.

Lemma aims_tgt : forall g g' cs, aims g g' cs -> P (l_target g) -> P (l_target g') /\ tgt_ctls cs.
Proof. intros g g' cs [A B] R. rewrite A. split; auto. eapply Forall_impl; [|exact B]. intros c ->. auto. Qed.

Lemma write_tgt : forall f v y i e mem m y' e' mem' ret call cs, write_ep f v y i e mem m = Ok (y', e', mem', ret, call, cs) ->
  Q m -> tgt_kind (ep_kind e) -> tgt_kind (ep_kind e') /\ tgt_ctls cs.
Proof.
  intros f v y i e mem m y' e' mem' ret call cs H B T. pose proof (write_same _ _ _ _ _ _ _ _ _ _ _ _ _ H) as (S & _ & _ & N & _).
  destruct (is_log e) eqn:L.
  2:{ destruct (N eq_refl) as (-> & _). split; [|constructor]. pose proof (se_kind _ _ S) as K. unfold is_log in L. destruct (ep_kind e), (ep_kind e'); cbn in K; try discriminate; exact Logic.I. }
  unfold is_log in L. unfold write_ep in H. destruct (ep_kind e) as [| | |[g b|a]] eqn:K; try discriminate; cbn [tgt_kind] in T.
  - inv_bind H. apply aims_lwrite in E. inversion H; subst. cbn [ep_kind set_kind tgt_kind]. eapply aims_tgt; eauto.
  - inv_bind H. inversion H; subst. cbn [ep_kind set_kind tgt_kind]. unfold auto_write in E. destruct (a_inner a) as [[g b]|].
    + inv_bind E. apply aims_lwrite in E0. inversion E; subst. cbn [a_inner a_fcu]. destruct T as [T1 T2]. apply (learn_tgt g m) in T2; auto. destruct (aims_tgt _ _ _ E0 T2). auto.
    + destruct (negb _). { inversion E; subst. cbn. split; [tauto|constructor]. } inv_bind E.
      destruct (_ =? 12). { destruct (ask_bytes _ _ _). inversion E; subst. cbn. split; [tauto|constructor]. }
      destruct (_ =? 3); inversion E; subst; cbn; (split; [tauto|constructor]).
Qed.

Lemma tgts_put : forall w y i e0 e, lookup w i = Some e0 -> tgts w -> tgt_kind (ep_kind e) -> tgts (put (set_sys w y) i e).
Proof.
  intros w y i e0 e L0 T K j e' L. destruct (Nat.eq_dec i j) as [<-|N].
  - erewrite lookup_put_eq in L by (rewrite lookup_sys; eauto). inversion L; subst; auto.
  - rewrite lookup_put_neq, lookup_sys in L by auto. eauto.
Qed.
Lemma tgts_put0 : forall w i e0 e, lookup w i = Some e0 -> tgts w -> tgt_kind (ep_kind e) -> tgts (put w i e).
Proof.
  intros w i e0 e L0 T K j e' L. destruct (Nat.eq_dec i j) as [<-|N].
  - erewrite lookup_put_eq in L by eauto. inversion L; subst; auto.
  - rewrite lookup_put_neq in L by auto. eauto.
Qed.
Lemma tgts_alike : forall w w', alike w w' -> tgts w -> tgts w'.
Proof.
  intros w w' (_ & _ & A) T k e' L. specialize (A k). rewrite L in A. destruct (lookup w k) as [e|] eqn:E; [|tauto]. destruct A as [A _]. rewrite A. eauto.
Qed.
Lemma tgts_eps : forall w w', w_eps w' = w_eps w -> tgts w -> tgts w'.
Proof. intros w w' E T k e L. apply (T k). unfold lookup in *. rewrite E in L. auto. Qed.
Lemma tgt_quiet : forall e, is_log e = false -> tgt_kind (ep_kind e).
Proof. intros e L. unfold is_log in L. destruct (ep_kind e); try exact Logic.I. discriminate. Qed.

Lemma tgts_ctls : forall k f v cs w i w' its, logs_ok w -> Forall ctl_ok cs -> tgts w -> tgt_ctls cs ->
  route_ctls (nested (Datatypes.S k) f v) w i cs = Ok (w', its) -> tgts w' /\ Forall tgt_item its.
Proof.
  intros k f v cs w i w' its L C T TC H. destruct (RouterRoute2.ctls_items k f v cs w i w' its L C H) as [F K]. pose proof (ctls_routed _ (nested_routed _ f v) _ _ _ _ _ H) as R. split.
  - intros j e' L'. pose proof (ro_ep _ _ R j) as O. rewrite L' in O. destruct (lookup w j) as [e|] eqn:E; [|destruct O].
    destruct (is_log e) eqn:LG. { rewrite (K j e E LG) in L'. inversion L'; subst. eauto. }
    apply tgt_quiet. rewrite (same_log _ _ (se_kind _ _ O)). auto.
  - clear - F TC. induction F; constructor; inversion TC; subst; auto. destruct H as (ds & -> & _). auto.
Qed.

Lemma tgts_deliver : forall f v w i e mem m w' mem' d cs, deliver f v w i e mem m = Ok (w', mem', d, cs) -> lookup w i = Some e ->
  Q m -> tgts w -> tgts w' /\ tgt_ctls cs.
Proof.
  intros f v w i e mem m w' mem' d cs H L B T. unfold deliver in H. inv_bind H. inv_bind H. destruct (write_tgt _ _ _ _ _ _ _ _ _ _ _ _ _ E0 B (T _ _ L)) as [K C].
  match type of H with context [if ?r =? - EAGAIN then _ else _] => destruct (r =? - EAGAIN) end.
  - destruct (mod_fd v s e0 true) as [[y2 e2] rq] eqn:MD. inversion H; subst; clear H. split; auto.
    assert (X : tgts (put (set_sys w y2) i e2)).
    { eapply tgts_put; eauto. unfold mod_fd in MD. destruct (ask v s) as [r y3]. destruct (ep_poll e0); [destruct (r <? 0)|]; inversion MD; subst; auto. }
    match goal with |- tgts (if ?q then _ else _) => destruct q end; auto.
  - inversion H; subst; clear H. split; auto. assert (X : tgts (put (set_sys w s) i e0)) by (eapply tgts_put; eauto). match goal with |- tgts (if ?q then _ else _) => destruct q end; auto.
Qed.

Lemma tgts_each : forall k f v order w mem m u w' mem' ds its u', logs_ok w -> Q m -> tgts w ->
  route_each (nested (Datatypes.S k) f v) f v w order mem m u = Ok (w', mem', ds, its, u') -> tgts w' /\ Forall tgt_item its.
Proof.
  intros k f v. induction order as [|i r IH]; intros w mem m u w' mem' ds its u' L B T H.
  - cbn [route_each] in H. inversion H; subst. auto.
  - rewrite route_each_cons in H. inv_bind H. apply get_lookup in E. rename a into e. destruct (accept_msg _ _ _ _); eauto.
    inv_bind H. destruct (deliver_spec _ _ _ _ _ _ _ _ _ _ _ E0 E) as (R & _ & C & _). destruct (tgts_deliver _ _ _ _ _ _ _ _ _ _ _ E0 E B T) as [T1 TC].
    inv_bind H. assert (L1 : logs_ok w0) by (eapply logs_routed; eauto). destruct (tgts_ctls _ _ _ _ _ _ _ _ L1 C T1 TC E1) as [T2 TI].
    inv_bind H. inversion H; subst; clear H. apply IH in E2; auto. 2:{ eapply logs_routed; [eapply ctls_routed; [apply nested_routed|exact E1]|auto]. }
    split; [tauto|]. apply Forall_app. tauto.
Qed.
Lemma tgts_route : forall f v w mem m w' mem' ds its, logs_ok w -> Q m -> tgts w ->
  route NEST f v w mem m = Ok (w', mem', ds, its) -> tgts w' /\ Forall tgt_item its.
Proof.
  intros f v w mem m w' mem' ds its L B T H. unfold NEST in H. rewrite route_S in H. inv_bind H. inversion H; subst; clear H.
  destruct (tgts_each _ _ _ _ _ _ _ _ _ _ _ _ _ L B T E) as [T2 TI]. split; auto. destruct b; auto.
Qed.

Lemma tgts_log_cb : forall w i k f v w' its again, logs_ok w -> tgts w -> Router.log_cb w i k f v = Ok (w', its, again) ->
  (forall g b y g' b' cs ag, k g b = Ok (y, g', b', cs, ag) -> Forall ctl_ok cs /\ is_ulog b' = is_ulog b /\ aims g g' cs) -> tgts w' /\ Forall tgt_item its.
Proof.
  intros w i k f v w' its again L T H C. unfold Router.log_cb in H. inv_bind H. apply get_lookup in E. rename a into e. pose proof (T _ _ E) as TK.
  assert (RP : forall y l l0, ep_kind e = KLog l0 -> same_logger l0 l -> routed w (put (set_sys w y) i (set_kind e (KLog l)))).
  { intros y l l0 K SL. eapply routed_put; eauto. eapply same_log_kind; eauto. }
  assert (GO : forall y l l0 cs w2 its, ep_kind e = KLog l0 -> same_logger l0 l -> Forall ctl_ok cs -> tgt_kind (KLog l) -> tgt_ctls cs ->
    route_ctls (route_sub f v) (put (set_sys w y) i (set_kind e (KLog l))) i cs = Ok (w2, its) -> tgts w2 /\ Forall tgt_item its).
  { intros y l l0 cs w2 it K SL CC TL TC R. eapply (tgts_ctls 1); [|exact CC| |exact TC|exact R]. { eapply logs_routed; [eapply RP; eauto|auto]. } eapply tgts_put; eauto. }
  destruct (ep_kind e) as [| | |[g b|a]] eqn:K; try discriminate; cbn [tgt_kind] in TK.
  - inv_bind H. inv_bind H. inversion H; subst. apply C in E0. destruct E0 as (E0 & EU & EA). destruct (aims_tgt _ _ _ EA TK) as [A1 A2].
    refine (GO _ _ _ _ _ _ eq_refl _ E0 _ A2 ltac:(eassumption)); cbn; auto.
  - destruct (a_inner a) as [[g b]|] eqn:AI; [|discriminate]. inv_bind H. inv_bind H. inversion H; subst. apply C in E0. destruct E0 as (E0 & EU & EA). destruct TK as [TK1 TK2]. destruct (aims_tgt _ _ _ EA TK2) as [A1 A2].
    refine (GO _ _ _ _ _ _ eq_refl _ E0 _ A2 ltac:(eassumption)); cbn; auto.
Qed.

Lemma tgts_run_cb : forall f v w cb w' its again, logs_ok w -> tgts w -> run_cb f v w cb = Ok (w', its, again) -> tgts w' /\ Forall tgt_item its.
Proof.
  intros f v w cb w' its again L T H. destruct cb; cbn [run_cb] in H.
  - inv_bind H. inversion H; subst. split; auto. eapply tgts_alike; eauto. apply aggregate_alike; auto.
  - inversion H; subst. auto.
  - inv_bind H. inversion H; subst. split; auto. unfold cb_baud in E. inv_bind E. apply get_lookup in E0. destruct (ep_kind a) as [bs| | |]; try discriminate. destruct bs; [discriminate|].
    destruct (ask v (w_sys w)). inversion E; subst. eapply tgts_put; eauto. exact Logic.I.
  - inv_bind H. inversion H; subst. split; auto. unfold cb_nomsg in E. inv_bind E. apply get_lookup in E0. destruct (ep_kind a) as [|? ? []| |]; try discriminate.
    inv_bind E. inversion E; subst. eapply tgts_put; eauto. exact Logic.I.
  - inv_bind H. inversion H; subst. split; auto. unfold cb_retry in E. inv_bind E. apply get_lookup in E0. destruct (ep_kind a) eqn:K; try discriminate.
    destruct (ask v (w_sys w)) as [r y]. destruct (r <? 0). { inversion E; subst. eapply tgts_put; eauto. cbn. rewrite K. exact Logic.I. }
    unfold add_fd in E. destruct (ask v y). inversion E; subst. eapply tgts_put; eauto. exact Logic.I.
  - eapply tgts_log_cb; eauto. intros g b y g' b' cs ag Y. cbn in Y. destruct (lcb_start (w_sys w) g b) as [[y1 g1] cs1] eqn:E. inversion Y; subst. split; [eapply ctl_cb_start; eauto|]. split; auto. eapply aims_cb_start; eauto.
  - eapply tgts_log_cb; eauto. intros g b y g' b' cs ag Y. cbn in Y. inversion Y; subst. split; auto. split; auto. apply aims_nil.
  - eapply tgts_log_cb; eauto. intros g b y g' b' cs ag Y. cbn in Y. inv_bind Y. inversion Y; subst. split; [eapply ctl_cb_alive; eauto|]. split; [eapply alive_kind; eauto|eapply aims_cb_alive; eauto].
Qed.

Lemma tgts_handle : forall f v w i m w' its e, handle_msg f v w i m = Ok (w', its) -> Inv w -> lookup w i = Some e -> ep_fd e = true ->
  is_byte (m_ssys m) -> is_byte (m_scomp m) -> (forall bs ds, In (IRecv i bs m Routed ds) its -> Q m) -> tgts w -> tgts w' /\ Forall tgt_item its.
Proof.
  intros f v w i m w' its e H I L F B1 B2 BQ T. destruct (handle_inv _ _ _ _ _ _ _ H) as (e0 & pkt & w1 & fresh & L0 & SL & CD & C).
  rewrite L in L0. inversion L0; subst e0; clear L0. destruct (check_dup_eps _ _ _ _ _ CD) as [EE KD]. pose proof (tgts_eps _ _ EE T) as T1.
  assert (I1 : Inv w1) by (eapply kept_inv; eauto).
  destruct C as [(_ & -> & ->)|[(_ & _ & -> & ->)|(_ & _ & w2 & e2 & w3 & mem & ds & its' & e3 & LE & L2 & RT & L3 & -> & ->)]]; try (split; [assumption|repeat constructor]; fail).
  assert (L1 : lookup w1 i = Some e) by (unfold lookup in *; rewrite EE; auto).
  assert (NL : is_log e = false). { destruct (is_log e) eqn:G; auto. destruct (i_logs w I i e L G) as (_ & _ & X & _). congruence. }
  assert (I2 : Inv w2) by (eapply learn_inv_world; eauto; unfold is_byte in *; lia).
  destruct (tgts_route _ _ _ _ _ _ _ _ _ (inv_logs _ I2) (BQ _ _ (or_introl eq_refl)) (tgts_alike _ _ (learn_alike _ _ _ _ _ LE) T1) RT) as [T3 TI].
  split; [|constructor; [exact Logic.I|auto]]. eapply tgts_put0; eauto. apply (T3 i e3 L3).
Qed.

Lemma tgts_keep_baud : forall w i e w', lookup w i = Some e -> keep_baud w i e = Ok w' -> tgts w -> tgts w'.
Proof.
  intros w i e w' L H T. unfold keep_baud in H. destruct (ep_kind e) as [? ? [t|]| | |]; try (inversion H; subst; auto; fail). inv_bind H. inversion H; subst. eapply tgts_put; eauto. exact Logic.I.
Qed.

Lemma tgts_act : forall f v w its w', wf_table (v_tbl v) -> act f v w its w' -> Inv w ->
  (forall i bs m ds, In (IRecv i bs m Routed ds) its -> Q m) -> tgts w -> tgts w' /\ Forall tgt_item its.
Proof.
  intros f v w its w' WT A I BQ T. inversion A; subst; try (split; [assumption|repeat constructor]; fail).
  - split; [|repeat constructor]. destruct o; cbn [os_read] in H3; try (inversion H3; subst; auto; fail). destruct (ep_kind e) eqn:K; try (inversion H3; subst; auto; fail).
    + inv_bind H3. inversion H3; subst. eapply tgts_put; eauto. exact Logic.I.
    + destruct bs; [|inversion H3; subst; auto]. destruct (_ =? 0)%nat. { inversion H3; subst; auto. }
      unfold tcp_lost, schedule_reconnect in H3. destruct (0 <? retry); [destruct (retry <=? 0); [|destruct (add_timer _ _ _ _)]|]; inversion H3; subst; (eapply tgts_put; eauto; exact Logic.I).
  - split; [|constructor]. eapply tgts_put0; eauto. apply (T i e H).
  - destruct (recv_before f v w i e rr x st known m w1 WT I H H0 H1 H2 H3 _ _ H4) as (K & DD & e1 & p & L1 & F1 & KE & RX & RL & P1 & P2 & P3 & P4 & P5).
    assert (WM : wf_meta m) by (subst m; apply wf_meta_info; auto). assert (T1 : tgts w1).
    { assert (T0 : tgts (put w i (set_rx e x st))) by (eapply tgts_put0; eauto; apply (T i e H)). destruct known; [|inversion H3; subst; auto].
      eapply tgts_keep_baud; [eapply lookup_put_eq; exact H|exact H3|exact T0]. }
    eapply tgts_handle; eauto; [eapply kept_inv; eauto|apply WM|apply WM].
  - unfold tcp_connection. destruct (ask v (w_sys w)) as [r y]. destruct (r <? 0). { split; [apply (tgts_eps w); auto|constructor]. }
    destruct (ask_bytes RXMAX v y) as [junk y2]. unfold add_fd. destruct (ask v y2) as [r2 y3]. cbn [fst snd]. split; [|repeat constructor].
    intros k e' L'. unfold lookup in L'. cbn [w_eps set_order set_eps] in L'. destruct (Nat.lt_ge_cases k (length (w_eps w))) as [X|X].
    + rewrite nth_error_app1 in L' by auto. apply (T k). auto.
    + rewrite nth_error_app2 in L' by auto. destruct (k - length (w_eps w))%nat as [|[|q]]; cbn [nth_error] in L'; try discriminate. inversion L'; subst. exact Logic.I.
  - split; [|constructor]. eapply tgts_put; eauto. pose proof (T i e H) as TK. unfold mod_fd in H0. destruct (ask v (w_sys w)) as [q y0].
    destruct (ep_poll e); [destruct (q <? 0)|]; inversion H0; subst; auto.
  - unfold timer_read in H. destruct (find_timer (w_sys w) t) as [tm|]; [|discriminate]. destruct (negb fired || tm_dead tm). { inversion H; subst. auto. }
    inv_bind H. inv_bind H. inversion H; subst. clear H. match goal with E : run_cb _ _ _ _ = Ok _ |- _ => apply tgts_run_cb in E; auto; [destruct E as [T2 TI]|apply inv_logs; auto] end.
    split; [eapply tgts_eps; [reflexivity|exact T2]|constructor; [exact Logic.I|auto]].
  - unfold process_hangups in H. destruct (w_hang w); [|inversion H; subst; auto].
    inv_bind H. inversion H; subst; clear H. destruct (hangups_spec _ _ _ _ _ E (inv_sym _ I)) as (_ & _ & _ & D & LK). subst its. split.
    + intros k e' L'. change (lookup w0 k = Some e') in L'. rewrite LK in L'. destruct (_ && _); [discriminate|]. eauto.
    + apply Forall_forall. intros x X. apply in_map_iff in X. destruct X as (? & <- & _). exact Logic.I.
Qed.

Lemma tgts_start : forall v y c w, start v y c = Some w -> (forall lc, cf_log c = Some lc -> P (lc_fcu lc)) -> tgts w.
Proof.
  intros v y c w H FC. unfold start in H. destruct (setup_all v y [] _) as [[y1 eps]|] eqn:S; [|discriminate].
  destruct (setup_all_fresh _ _ _ _ _ _ S) as (es & E & F). cbn [app] in E. subst eps. fold (SpecRouter.confs c) in F.
  destruct (tcp_server _ _ _) as [sv y2].
  assert (LL : length (link_groups (map Some es)) = length es) by (unfold link_groups; rewrite link_len, map_length; auto).
  assert (LF : forall y3 logs, (match cf_log c with None => (y2, []) | Some lc => setup_log v y2 (length (link_groups (map Some es))) lc end) = (y3, logs) ->
    forall j e, nth_error logs j = Some e -> tgt_kind (ep_kind e)).
  { intros y3 logs. destruct (cf_log c) as [lc|] eqn:CL; [|intros X; injection X as _ <-; intros [|j] e; discriminate]. specialize (FC _ eq_refl).
    unfold setup_log. destruct (ask_bytes RXMAX v y2) as [junk ya].
    destruct (new_logger v ya (length (link_groups (map Some es))) lc) as [l yb] eqn:NL.
    assert (NV : tgt_kind (KLog l)).
    { unfold new_logger in NL. destruct (lc_dialect lc).
      - injection NL as <- _. exact FC.
      - destruct (ask_bytes _ v ya). injection NL as <- _. exact FC.
      - injection NL as <- _. split; [exact FC|exact Logic.I]. }
    destruct (lc_tlog lc).
    - destruct (ask_bytes RXMAX v (mark_unfinished_logs v yb)) as [junk' yc]. intros X. injection X as _ <-. intros [|[|j]] e N.
      + injection N as <-. auto.
      + injection N as <-. exact FC.
      + destruct j; cbn in N; discriminate N.
    - intros X. injection X as _ <-. intros [|j] e N; [|destruct j; cbn in N; discriminate N]. injection N as <-. auto. }
  destruct (match cf_log c with None => _ | Some _ => _ end) as [y3 logs] eqn:LG. specialize (LF _ _ eq_refl).
  destruct (if cf_stats c then _ else _) as [t1 y4]. destruct (add_timer v y4 5000 CbAggregate) as [t2 y5]. inversion H; subst; clear H.
  intros k e L. unfold lookup in L. cbn [w_eps] in L. destruct (Nat.lt_ge_cases k (length es)) as [A|A].
  - rewrite nth_error_app1 in L by lia. destruct (nth_error es k) as [e0|] eqn:N; [|apply nth_error_None in N; lia].
    destruct (nth_Forall2 _ _ _ _ _ _ _ F N) as (cc & NC & (FE1 & FE2 & FE3 & FE4) & FG & FF).
    assert (N2 : nth_error (map Some es) k = Some (Some e0)) by (rewrite nth_error_map, N; auto).
    destruct (link_groups_spec es k e0 N2 FE2) as (e' & L' & SE & ME). rewrite L' in L. inversion L; subst e'. rewrite SE. cbn.
    unfold is_log in FE4. destruct (ep_kind e0); try exact Logic.I. discriminate FE4.
  - rewrite nth_error_app2, nth_error_map in L by lia. destruct (nth_error logs (k - length (link_groups (map Some es)))) as [q|] eqn:N; [|discriminate]. cbn in L. inversion L; subst q.
    eapply LF; eauto.
Qed.

End Targets.

Lemma tgt_kind_impl : forall (P P' : Z -> Prop) k, (forall t, P t -> P' t) -> tgt_kind P k -> tgt_kind P' k.
Proof. intros P P' k H. destruct k as [| | |[g b|a]]; cbn; auto. destruct (a_inner a) as [[g b]|]; intuition. Qed.

Lemma from_more : forall c h h' t, (forall i bs m ds, In (IRecv i bs m Routed ds) h -> In (IRecv i bs m Routed ds) h') -> target_from c h t -> target_from c h' t.
Proof. intros c h h' t H (lc & C & [X|(X & i & bs & m & ds & Y & Z)]); exists lc; split; auto. right. split; auto. exists i, bs, m, ds. auto. Qed.

Lemma from_learn : forall c h g m, target_from c h (l_target g) -> (exists i bs ds, In (IRecv i bs m Routed ds) h) -> target_from c h (l_target (learn_target g m)).
Proof.
  intros c h g m (lc & C & X) (i & bs & ds & I). unfold learn_target. destruct ((l_target g =? -1) && (m_id m =? 0) && (m_scomp m =? 1)) eqn:E; [|exists lc; auto].
  apply andb_prop in E. destruct E as [E E3]. apply andb_prop in E. destruct E as [E1 E2]. apply Z.eqb_eq in E1, E2, E3. exists lc. split; auto. right. split.
  - destruct X as [X|[X _]]; congruence.
  - exists i, bs, m, ds. auto.
Qed.

(* received messages come first in what an act does *)
Lemma act_first : forall f v w its w', wf_table (v_tbl v) -> act f v w its w' -> Inv w ->
  forall p x q, its = p ++ x :: q -> (exists i bs m ds, x = ICtl i bs m ds) -> forall i bs m ds, In (IRecv i bs m Routed ds) its -> In (IRecv i bs m Routed ds) p.
Proof.
  intros f v w its w' WT A I p x q E (ci & cb & cm & cd & ->) i bs m ds X. destruct (act_cases f v w its w' WT A I) as [[N _]|(w0 & j & e & pk & K0 & _ & L & F & RL & WP & AC & SL & H)].
  { apply N in X. discriminate. }
  assert (I0 : Inv w0) by (eapply kept_inv; eauto).
  destruct (handle_cases f v w0 j e pk w' its H I0 L F WP SL) as (d' & ds' & its' & EQ & NR & C). rewrite EQ in X. destruct X as [X|X]; [|apply NR in X; discriminate].
  rewrite X in EQ. rewrite E in EQ. destruct p; cbn in EQ; inversion EQ; subst. left; auto.
Qed.

Lemma targets_runs : forall f v c its w, wf_table (v_tbl v) -> runs f v c its w ->
  forall pre i bs m ds post, its = pre ++ ICtl i bs m ds :: post -> target_from c pre (m_tsys m).
Proof.
  intros f v c its w WT R. assert (X : tgts (target_from c its) w /\ forall pre i bs m ds post, its = pre ++ ICtl i bs m ds :: post -> target_from c pre (m_tsys m)); [|apply X]. revert its w R.
  apply (runs_ind f v c (fun h w => tgts (target_from c h) w /\ forall pre i bs m ds post, h = pre ++ ICtl i bs m ds :: post -> target_from c pre (m_tsys m)) WT).
  - intros d pos w0 S. split; [eapply tgts_start; eauto|intros [|] ? ? ? ? ? X; discriminate X]. intros lc E. exists lc. auto.
  - intros h w its w' I (T & B) A.
    assert (T0 : tgts (target_from c (h ++ its)) w). { intros k e L. eapply tgt_kind_impl; [|apply (T k e L)]. intros t. apply from_more. intros. apply in_or_app. auto. }
    destruct (tgts_act (target_from c (h ++ its)) (fun m => exists i bs ds, In (IRecv i bs m Routed ds) (h ++ its)) (from_learn c (h ++ its)) f v w its w' WT A I) as [T1 TI]; auto.
    { intros i bs m ds X. exists i, bs, ds. apply in_or_app. auto. }
    split; auto. intros pre i bs m ds post E. destruct (app_eq_app _ _ _ _ E) as (l & [[E1 E2]|[E1 E2]]).
    + subst h. destruct l as [|x l].
      * cbn [app] in E2. rewrite app_nil_r in *. subst its. rewrite Forall_forall in TI. eapply from_more; [|apply (TI _ (or_introl eq_refl))].
        intros i' bs' m' ds' X. apply in_app_or in X. destruct X as [X|X]; auto. pose proof (act_first _ _ _ _ _ WT A I [] _ post eq_refl ltac:(eauto) _ _ _ _ X) as Y. destruct Y.
      * cbn [app] in E2. inversion E2; subst. eapply B; eauto.
    + subst pre. rewrite Forall_forall in TI. eapply from_more; [|apply (TI (ICtl i bs m ds)); rewrite E2; apply in_or_app; right; left; auto].
      intros i' bs' m' ds' X. apply in_or_app. apply in_app_or in X. destruct X as [X|X]; auto. right. apply (act_first _ _ _ _ _ WT A I _ _ _ E2); eauto.
Qed.

(* the messages of the loggers are well formed *)
Lemma ctl_meta : forall f v c its w, wf_table (v_tbl v) -> (forall lc, cf_log c = Some lc -> -1 <= lc_fcu lc < 256) -> runs f v c its w ->
  forall i bs m ds, In (ICtl i bs m ds) its -> wf_meta m.
Proof.
  intros f v c its w WT FC R i bs m ds X. pose proof (own_runs f v c its w WT R) as O. rewrite Forall_forall in O.
  assert (T : -1 <= m_tsys m < 256).
  { destruct (in_split _ _ X) as (pre & post & E). destruct (targets_runs f v c its w WT R pre _ _ _ _ _ E) as (lc & CL & [->|(_ & j & bs' & m' & ds' & Y & _ & _ & <-)]); auto.
    assert (Y' : In (IRecv j bs' m' Routed ds') its) by (rewrite E; apply in_or_app; auto). pose proof (filtered_runs f v c its w WT R) as F. rewrite Forall_forall in F. destruct (F _ Y') as ((p & WP & _ & _ & ->) & _).
    destruct (wf_meta_info (v_tbl v) p WP) as (B1 & _). unfold is_byte in B1. lia. }
  destruct (O _ X) as ((C1 & C2 & C3 & _ & p & E & ID & OP) & _). cbn [snd fst] in *.
  unfold wf_meta. rewrite C1, C2, C3, <- ID. unfold is_byte. split; [lia|]. split; [lia|]. split; [exact T|]. split; [lia|]. destruct OP as (_ & _ & _ & _ & x & k & K & _). cbn in K. destruct K as [K|[K|[K|[]]]]; inversion K; lia.
Qed.
