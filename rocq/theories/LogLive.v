(* What the trace says about a logger that lives through it (LogHist): the dialogue with the vehicle. *)
From Verif Require Import Base Mav SpecFrame Frame FrameProofs Names Sys LogFile LogFileProofs ULog Loggers LogInv LogStep SpecLog LogRun LogModes LogModes2
  BinProofs Prop_LogModes Prop_BinLog SpecAsk LogAsk LogAsk2 LogAsk3 Prop_Ask Router RouterTimers LogHist SpecTalk.

(* ---- splitting --------------------------------------------------------------------------------------------------------- *)

Lemma split_snoc : forall (A : Type) (a : list A) x b h r, a ++ x :: b = h ++ r ->
  (exists b1, h = a ++ x :: b1 /\ b = b1 ++ r) \/ (exists r1, a = h ++ r1 /\ r = r1 ++ x :: b).
Proof.
  intros A a x b h r E. apply app_eq_app in E. destruct E as (l & [[E1 E2]|[E1 E2]]).
  - right. exists l. auto.
  - destruct l as [|z l]; cbn [app] in E2.
    + right. exists []. rewrite app_nil_r in *. subst. auto.
    + left. injection E2 as <- ->. exists l. auto.
Qed.

Definition inner (l : logger) : option (lg * backend) := match l with LFile g b => Some (g, b) | LAuto a => a_inner a end.

Lemma due_inner : forall l e, due l e -> inner l = None /\ (exists p t, e = LMsg p t) \/ exists g b, inner l = Some (g, b) /\ match e with LMsg _ _ => True | LStart => l_tstart g <> None | LAlive => l_talive g <> None end.
Proof.
  intros l e [[A B]|(g & A & B)].
  - destruct l as [g b|a]; [discriminate|]. cbn [inner]. destruct (a_inner a) as [[g b]|]; [discriminate|]. auto.
  - destruct l as [g0 b|a]; cbn [inner]. { inversion A; subst. eauto. } destruct (a_inner a) as [[g0 b]|]; [|discriminate]. cbn in A. inversion A; subst. eauto.
Qed.

Lemma kevent_inner : forall f v y l e y' l' cs g b, kevent f v y l e = Ok (y', l', cs) -> inner l = Some (g, b) -> exists g' b', levent f v y g b e = Ok (y', g', b', cs) /\ inner l' = Some (g', b').
Proof.
  intros f v y l e y' l' cs g b H I. destruct l as [g0 b0|a]; cbn [inner kevent] in *.
  - inversion I; subst. inv_bind H. inversion H; subst. eauto.
  - destruct e as [p t| |]; [|rewrite I in H; inv_bind H; inversion H; subst; eauto|rewrite I in H; inv_bind H; inversion H; subst; eauto].
    inv_bind H. inversion H; subst. unfold auto_write in E. rewrite I in E. inv_bind E. inversion E; subst. exists l2, b0. cbn [levent inner a_inner]. rewrite E0. auto.
Qed.
Lemma kevent_none : forall f v y l e y' l' cs, kevent f v y l e = Ok (y', l', cs) -> inner l = None -> cs = [] /\
  (inner l' = None \/ exists ep ext mf ml md fcu b', inner l' = Some (lg_new ep ext mf ml md fcu, b')).
Proof.
  intros f v y l e y' l' cs H I. destruct l as [g0 b0|a]; cbn [inner kevent] in *; [discriminate|]. destruct e as [p t| |]; [|rewrite I in H; inversion H; subst; auto|rewrite I in H; inversion H; subst; auto].
  inv_bind H. injection H as <- <- <-. unfold auto_write in E. rewrite I in E. match type of E with context [if negb ?c then _ else _] => destruct (negb c) end.
  { injection E as _ <- _ <-. auto. }
  inv_bind E. destruct (_ =? 12).
  - destruct (ask_bytes _ v y) as [junk y1]. injection E as _ <- _ <-. split; auto. right. cbn [inner a_inner new_inner]. do 7 eexists. reflexivity.
  - destruct (_ =? 3); injection E as _ <- _ <-; auto. split; auto. right. cbn [inner a_inner new_inner]. do 7 eexists. reflexivity.
Qed.

(* the logger's own timers *)
Definition held (y : sys) (i : nat) (l : logger) : Prop := sys_ok y /\ timers_of y i l.
Lemma held_linv : forall y i l g b, held y i l -> inner l = Some (g, b) -> l_ep g = i /\ linv y g.
Proof. intros y i l g b [S H] I. destruct l as [g0 b0|a]; cbn [inner timers_of] in *. { inversion I; subst; auto. } destruct H as [_ H]. rewrite I in H. auto. Qed.
Lemma held_hist_gen : forall solo f v i y l n y' l' cs, lhist solo f v i y l n y' l' cs -> n = [] -> held y i l -> held y' i l'.
Proof. intros solo f v i y l n y' l' cs K. induction K; intros N Q; [auto|discriminate|]. apply IHK; auto. split; auto. Qed.
Lemma held_hist : forall solo f v i y l y', lhist solo f v i y l [] y' l [] -> held y i l -> held y' i l.
Proof. intros. eapply held_hist_gen; eauto. Qed.
Lemma kevent_held : forall f v i y l e y' l' cs, kevent f v y l e = Ok (y', l', cs) -> held y i l -> held y' i l'.
Proof.
  intros f v i y l e y' l' cs H [S TO].
  assert (LE : forall g b g' b' cs, levent f v y g b e = Ok (y', g', b', cs) -> l_ep g = i -> linv y g -> sys_ok y' /\ l_ep g' = i /\ linv y' g').
  { intros g b g' b' c0 Q EP L. destruct (levent_step _ _ _ _ _ _ _ _ _ _ Q S L) as (A & B & C & D & _). split; auto. split; auto. congruence. }
  destruct l as [g b|a]; cbn [timers_of kevent] in *.
  - destruct TO as [EP L]. inv_bind H. injection H as -> <- <-. destruct (LE _ _ _ _ _ E EP L) as (A & B & C). split; auto. split; auto.
  - destruct TO as [EA TO]. destruct (a_inner a) as [[g b]|] eqn:I.
    + destruct TO as [EP L]. assert (X : exists g' b' cs', levent f v y g b e = Ok (y', g', b', cs') /\ l' = LAuto (mkAuto (a_ep a) (a_minfree a) (a_maxlogs a) (a_mode a) (a_fcu a) (a_target a) (Some (g', b')))).
      { destruct e as [p t| |]; [|inv_bind H; inversion H; subst; eauto|inv_bind H; inversion H; subst; eauto].
        inv_bind H. inversion H; subst. unfold auto_write in E. rewrite I in E. inv_bind E. inversion E; subst. cbn [levent]. rewrite E0. cbn [bind]. eauto. }
      destruct X as (g' & b' & cs' & Q & ->). destruct (LE _ _ _ _ _ Q EP L) as (A & B & C). split; auto. cbn [timers_of a_ep a_inner]. auto.
    + destruct e as [p t| |]; [|inversion H; subst; split; auto; cbn [timers_of]; rewrite I; auto|inversion H; subst; split; auto; cbn [timers_of]; rewrite I; auto].
      inv_bind H. injection H as -> <- <-. unfold auto_write in E. rewrite I in E. match type of E with context [if negb ?c then _ else _] => destruct (negb c) end.
      { injection E as -> <- _ <-. split; auto. cbn [timers_of a_ep a_inner]. auto. }
      inv_bind E. destruct (_ =? 12).
      * destruct (ask_bytes _ v y) as [junk y1] eqn:J. injection E as -> <- _ <-. pose proof (calm_ask_bytes _ _ _ (lg_new 0 [] 0 0 MAlways 0) _ _ J) as CA.
        split; [eapply calm_sys; eauto|]. cbn [timers_of a_ep a_inner new_inner]. split; auto. split; auto. rewrite EA. apply new_linv. intros t0 [I0 D]. rewrite (ca_timers _ _ _ _ CA) in I0. apply TO. split; auto.
      * destruct (_ =? 3).
        -- injection E as -> <- _ <-. split; auto. cbn [timers_of a_ep a_inner new_inner]. split; auto. split; auto. rewrite EA. apply new_linv. auto.
        -- injection E as -> <- _ <-. split; auto. cbn [timers_of a_ep a_inner]. auto.
Qed.
Lemma lives_held : forall solo f v i y l its y' l', lives solo f v i y l its y' l' -> held y i l -> held y' i l'.
Proof.
  intros solo f v i y l its y' l' H. induction H; intros Q; auto.
  - eapply held_hist; [eassumption|]. eapply kevent_held; [eassumption|]. eapply held_hist; eauto.
  - eapply held_hist; eauto.
Qed.

(* ---- finding the event behind an item ------------------------------------------------------------------------------- *)

Lemma sent_nil : forall i r bs m ds, sent_by i r = [] -> ~ In (ICtl i bs m ds) r.
Proof.
  intros i r bs m ds E X. assert (Y : In (bs, m) (sent_by i r)); [|rewrite E in Y; destruct Y]. unfold sent_by. apply in_flat_map. eexists. split; [exact X|]. cbn. rewrite Nat.eqb_refl. left; auto.
Qed.
Lemma sent_in : forall i r bs m ds, In (ICtl i bs m ds) r -> In (bs, m) (sent_by i r).
Proof. intros i r bs m ds X. unfold sent_by. apply in_flat_map. eexists. split; [exact X|]. cbn. rewrite Nat.eqb_refl. left; auto. Qed.
Lemma in_sent : forall i r c, In c (sent_by i r) -> exists ds, In (ICtl i (fst c) (snd c) ds) r.
Proof.
  intros i r c X. unfold sent_by in X. apply in_flat_map in X. destruct X as (x & I & X). destruct x; try (destruct X; fail). destruct (Nat.eqb_spec i i0) as [->|]; [|destruct X]. destruct X as [<-|[]]. cbn [fst snd]. eauto.
Qed.
Lemma concern_not_ctl : forall i x, concerns i x = true -> forall j bs m ds, x <> ICtl j bs m ds.
Proof. intros i x C j bs m ds ->. discriminate. Qed.

(* a logger keeps its protocol *)
Lemma msg_proto : forall f v y g b p tail y' g' b' cs, levent f v y g b (LMsg p tail) = Ok (y', g', b', cs) -> proto b' = proto b.
Proof.
  intros f v y g b p tail y' g' b' cs H. cbn [levent] in H. inv_bind H. inversion H; subst; clear H.
  destruct (lwrite_split _ _ _ _ _ _ _ _ _ _ _ _ E) as (y1 & g1 & b1 & c1 & c2 & A & R & ->).
  destruct (auto_ask _ _ _ _ _ _ _ _ _ _ _ A) as (_ & _ & _ & P1 & _). rewrite <- P1. destruct b1; cbn [lwrite_rest] in R; inv_bind R; inversion R; reflexivity.
Qed.
Definition keeps (l l' : logger) : Prop := forall g b, inner l = Some (g, b) -> exists g' b', inner l' = Some (g', b') /\ proto b' = proto b.
Lemma keeps_refl : forall l, keeps l l. Proof. intros l g b E. eauto. Qed.
Lemma keeps_trans : forall l l1 l2, keeps l l1 -> keeps l1 l2 -> keeps l l2.
Proof. intros l l1 l2 A B g b E. destruct (A _ _ E) as (g1 & b1 & E1 & P1). destruct (B _ _ E1) as (g2 & b2 & E2 & P2). exists g2, b2. split; auto. congruence. Qed.
Lemma kevent_keeps : forall f v y l e y' l' cs, kevent f v y l e = Ok (y', l', cs) -> keeps l l'.
Proof.
  intros f v y l e y' l' cs H g b I. destruct (kevent_inner _ _ _ _ _ _ _ _ _ _ H I) as (g' & b' & LE & I'). exists g', b'. split; auto. destruct e as [p t| |].
  - eapply msg_proto; eauto.
  - destruct (start_ask _ _ _ _ _ _ _ _ _ LE) as (-> & _). auto.
  - destruct (alive_ask _ _ _ _ _ _ _ _ _ LE) as (_ & _ & _ & X & _). auto.
Qed.

Record moment (solo : list Z -> Prop) (f : nat) (v : env) (i : nat) (y : sys) (l : logger) (a : list item) (x : item) (r : list item) (l' : logger) : Prop := mkMoment {
  mo_event : exists y1 l1 y2 e y3 l3, lives solo f v i y l a y1 l1 /\ lhist solo f v i y1 l1 [] y2 l1 [] /\ ev_of v x e /\ due l1 e /\ kevent f v y2 l1 e = Ok (y3, l3, sent_by i r) /\ keeps l3 l';
  mo_concerns : concerns i x = true;
  mo_ctls : only_ctls r }.

Lemma moment_keeps : forall solo f v i y l a x r l1 l2, moment solo f v i y l a x r l1 -> keeps l1 l2 -> moment solo f v i y l a x r l2.
Proof. intros solo f v i y l a x r l1 l2 [(y1 & l0 & y2 & e & y3 & l3 & A & B & C & D & E & F) M1 M2] K. split; auto. exists y1, l0, y2, e, y3, l3. repeat split; auto. eapply keeps_trans; eauto. Qed.
Lemma lives_at : forall solo f v i y l its y' l', lives solo f v i y l its y' l' -> forall a x b, its = a ++ x :: b -> concerns i x = true ->
  exists r b', b = r ++ b' /\ moment solo f v i y l a x r l'.
Proof.
  intros solo f v i y l its y' l' H. induction H; intros a x0 b E C. { destruct a; discriminate. }
  - symmetry in E. apply split_snoc in E. destruct E as [(b1 & -> & ->)|(r1 & -> & E)].
    + destruct (IHlives _ _ _ eq_refl C) as (r0 & b' & -> & M). exists r0, (b' ++ x :: r). rewrite app_assoc. repeat (split; [reflexivity|]). first [exact M | eapply moment_keeps; [exact M|eapply kevent_keeps; eassumption]].
    + destruct r1 as [|z r1]; cbn [app] in E.
      * injection E as <- <-. exists r, []. rewrite !app_nil_r. split; auto. split; auto. exists y1, l1, y2, e, y3, l3. rewrite H6. auto 10 using keeps_refl.
      * exfalso. injection E as -> E. destruct (H5 x0) as (j & bs & m & ds & ->). { rewrite E. apply in_or_app. right; left; auto. } discriminate.
  - symmetry in E. apply split_snoc in E. destruct E as [(b1 & -> & ->)|(r1 & -> & ->)].
    + destruct (IHlives _ _ _ eq_refl C) as (r0 & b' & -> & M). exists r0, (b' ++ r). rewrite app_assoc. repeat (split; [reflexivity|]). first [exact M | eapply moment_keeps; [exact M|eapply kevent_keeps; eassumption]].
    + exfalso. rewrite filter_app in H0. cbn [filter] in H0. rewrite C in H0. apply app_eq_nil in H0. destruct H0 as [_ H0]. discriminate.
Qed.

Lemma lives_ctl : forall solo f v i y l its y' l', lives solo f v i y l its y' l' -> forall a bs m ds b, its = a ++ ICtl i bs m ds :: b ->
  exists a' x r1 r2 b', a = a' ++ x :: r1 /\ b = r2 ++ b' /\ moment solo f v i y l a' x (r1 ++ ICtl i bs m ds :: r2) l'.
Proof.
  intros solo f v i y l its y' l' H. induction H; intros a bs m ds b E. { destruct a; discriminate. }
  - symmetry in E. apply split_snoc in E. destruct E as [(b1 & -> & ->)|(r1 & -> & E)].
    + destruct (IHlives _ _ _ _ _ eq_refl) as (a' & x0 & r1 & r2 & b' & -> & -> & M). exists a', x0, r1, r2, (b' ++ x :: r). rewrite app_assoc. repeat (split; [reflexivity|]). first [exact M | eapply moment_keeps; [exact M|eapply kevent_keeps; eassumption]].
    + destruct r1 as [|z r1]; cbn [app] in E.
      * exfalso. injection E as -> _. discriminate.
      * injection E as <- E. exists its, x, r1, b, []. rewrite app_nil_r. split; auto. split; auto. split; auto; [|rewrite <- E; auto]. exists y1, l1, y2, e, y3, l3. rewrite <- E, H6. auto 10 using keeps_refl.
  - symmetry in E. apply split_snoc in E. destruct E as [(b1 & -> & ->)|(r1 & -> & ->)].
    + destruct (IHlives _ _ _ _ _ eq_refl) as (a' & x0 & r1 & r2 & b' & -> & -> & M). exists a', x0, r1, r2, (b' ++ r). rewrite app_assoc. repeat (split; [reflexivity|]). first [exact M | eapply moment_keeps; [exact M|eapply kevent_keeps; eassumption]].
    + exfalso. eapply sent_nil; [eassumption|]. apply in_or_app. right; left; reflexivity.
Qed.
