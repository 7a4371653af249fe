(* The loggers inside the router: what happens to one is its own history (LogHist). *)
From Verif Require Import Base Mav SpecFrame Frame FrameProofs Dedup Accept Names NamesProofs Sys LogFile LogFileProofs ULog Loggers LogInv LogStep LogMono LogRun
  RouterCtl Router RouterRoute RouterRoute2 RouterSetup RouterActs RouterInv RouterStep RouterLearn RouterStart RouterHist RouterTimers RouterTimers2 RouterBytes LogSpare LogHist.
From Verif Require RouterTrace.

Section One.
Variable i : nat.

Definition at_log (w : world) (l : logger) : Prop := exists e, lookup w i = Some e /\ ep_kind e = KLog l.
(* no other logger that changes messages in place *)
Definition clean (w : world) : Prop := forall j e, lookup w j = Some e -> j <> i ->
  match ep_kind e with KLog (LFile _ b) => is_ulog b = false | KLog (LAuto _) => False | _ => True end.
(* the logger at position [j] *)
Definition log_at (j : nat) (w : world) (l : logger) : Prop := exists e, lookup w j = Some e /\ ep_kind e = KLog l.

(* the names of the files that the other loggers never use *)
Variable P : list Z -> Prop.
Definition others (w : world) : Prop := forall j l, j <> i -> log_at j w l -> foreign P l.
(* the other loggers of [w'] are those of [w] *)
Definition sub_logs (w w' : world) : Prop := forall j l, j <> i -> log_at j w' l -> log_at j w l.
Definition evolves (f : nat) (v : env) (w : world) (evs : list lev) (w' : world) (cs : list ctl) : Prop :=
  forall l, at_log w l -> exists l', at_log w' l' /\ lhist P f v i (w_sys w) l evs (w_sys w') l' cs.
Definition fs_same (w w' : world) : Prop := spared P (w_sys w) (w_sys w').

Lemma evolves_refl : forall f v w, evolves f v w [] w [].
Proof. intros f v w l H. exists l. split; auto. constructor. Qed.
Lemma evolves_trans : forall f v a e1 b c1 e2 c c2, evolves f v a e1 b c1 -> evolves f v b e2 c c2 -> evolves f v a (e1 ++ e2) c (c1 ++ c2).
Proof. intros f v a e1 b c1 e2 c c2 H K l A. destruct (H l A) as (l1 & A1 & H1). destruct (K l1 A1) as (l2 & A2 & H2). exists l2. split; auto. eapply lhist_app; eauto. Qed.
Lemma evolves_then : forall f v a e1 b c1 c, evolves f v a e1 b c1 -> evolves f v b [] c [] -> evolves f v a e1 c c1.
Proof. intros. rewrite <- (app_nil_r e1), <- (app_nil_r c1). eapply evolves_trans; eauto. Qed.
Lemma evolves_after : forall f v a b e c cs, evolves f v a [] b [] -> evolves f v b e c cs -> evolves f v a e c cs.
Proof. intros f v a b e c cs H K. change e with ([] ++ e). change cs with ([] ++ cs). eapply evolves_trans; eauto. Qed.

Lemma T_log_timers : forall v arm w l, T v arm w -> at_log w l -> sys_ok (w_sys w) /\ timers_of (w_sys w) i l.
Proof.
  intros v arm w l [A B C] (e & L & K). split; auto. destruct (B i e L) as [_ H]. rewrite K in H. exact H.
Qed.

(* the logger is not touched *)
Lemma evolves_other : forall f v arm w w', T v arm w' -> (forall l, at_log w l -> at_log w' l) -> fs_same w w' -> evolves f v w [] w' [].
Proof.
  intros f v arm w w' Tw K F l A. exists l. pose proof (K l A) as A'. split; auto. destruct (T_log_timers _ _ _ _ Tw A') as [S L]. eapply lh_other; eauto. constructor.
Qed.
Lemma at_lookup : forall w w' l, lookup w' i = lookup w i -> at_log w l -> at_log w' l.
Proof. intros w w' l E (e & L & K). exists e. rewrite E. auto. Qed.
Lemma at_alike : forall w w' l, alike w w' -> at_log w l -> at_log w' l.
Proof. intros w w' l (_ & _ & A) (e & L & K). specialize (A i). rewrite L in A. destruct (lookup w' i) as [e'|] eqn:E; [|destruct A]. exists e'. destruct A. split; congruence. Qed.
Lemma at_put : forall w j e0 e l, lookup w j = Some e0 -> is_log e0 = false \/ ep_kind e = ep_kind e0 -> at_log w l -> at_log (put w j e) l.
Proof.
  intros w j e0 e l L N (e1 & L1 & K). destruct (Nat.eq_dec j i) as [->|X].
  - rewrite L in L1. inversion L1; subst e1. exists e. split; [eapply lookup_put_eq; eauto|]. destruct N as [N|N]; [|congruence]. unfold is_log in N. rewrite K in N. discriminate.
  - exists e1. rewrite lookup_put_neq by auto. auto.
Qed.
Lemma at_sys : forall w y l, at_log w l -> at_log (set_sys w y) l.
Proof. intros w y l (e & L & K). exists e. rewrite lookup_sys. auto. Qed.

Lemma clean_routed : forall w w', routed w w' -> clean w -> clean w'.
Proof.
  intros w w' R C j e' L N. pose proof (ro_ep _ _ R j) as X. rewrite L in X. destruct (lookup w j) as [e|] eqn:E; [|destruct X]. pose proof (se_kind _ _ X) as K.
  specialize (C j e E N). destruct (ep_kind e) as [| | |[g b|a]], (ep_kind e') as [| | |[g' b'|a']]; cbn in K; try tauto; try discriminate; try congruence.
Qed.
Lemma others_sub : forall w w', sub_logs w w' -> others w -> others w'.
Proof. intros w w' S O j l N A. apply (O j l N). apply S; auto. Qed.
Lemma sub_refl : forall w, sub_logs w w.
Proof. intros w j l _ A. exact A. Qed.
Lemma sub_trans : forall a b c, sub_logs a b -> sub_logs b c -> sub_logs a c.
Proof. intros a b c A B j l N H. apply A; auto. Qed.
Lemma sub_eps : forall w w', w_eps w' = w_eps w -> sub_logs w w'.
Proof. intros w w' E j l N (e & L & K). exists e. split; auto. unfold lookup in *. rewrite E in L. auto. Qed.
Lemma sub_alike : forall w w', alike w w' -> sub_logs w w'.
Proof. intros w w' (_ & _ & A) j l N (e & L & K). specialize (A j). rewrite L in A. destruct (lookup w j) as [e'|] eqn:E; [|destruct A]. exists e'. destruct A. split; congruence. Qed.
Lemma sub_put : forall w j e0 e, lookup w j = Some e0 -> is_log e = false \/ ep_kind e = ep_kind e0 -> sub_logs w (put w j e).
Proof.
  intros w j e0 e L N k l NE (e1 & L1 & K). destruct (Nat.eq_dec j k) as [->|X].
  - rewrite (lookup_put_eq _ _ _ _ L) in L1. inversion L1; subst e1. destruct N as [N|N]; [unfold is_log in N; rewrite K in N; discriminate|]. exists e0. split; congruence.
  - rewrite lookup_put_neq in L1 by auto. exists e1. auto.
Qed.
Lemma sub_own : forall w e, sub_logs w (put w i e).
Proof. intros w e k l NE (e1 & L1 & K). rewrite lookup_put_neq in L1 by auto. exists e1. auto. Qed.
Lemma fs_eq : forall w w', y_fs (w_sys w') = y_fs (w_sys w) -> fs_same w w'.
Proof. intros w w' E. apply spared_fs. auto. Qed.

(* ---- the file system ----------------------------------------------------------------------------------------------- *)

Lemma fs_write : forall f v y j e mem m y' e' mem' ret call cs, write_ep f v y j e mem m = Ok (y', e', mem', ret, call, cs) -> is_log e = false -> y_fs y' = y_fs y.
Proof.
  intros f v y j e mem m y' e' mem' ret call cs H N. unfold write_ep in H. unfold is_log in N. destruct (ep_kind e) as [b c p|c pe p|r vl|l]; [| | |discriminate].
  - destruct (negb _). { inversion H; subst; auto. } unfold os_write, ask in H. destruct (_ =? - EAGAIN); inversion H; subst; auto.
  - destruct (negb _). { inversion H; subst; auto. } destruct (_ =? 0). { inversion H; subst; auto. } unfold os_write, ask in H. destruct (_ <? 0); inversion H; subst; auto.
  - destruct (negb _). { inversion H; subst; auto. } unfold os_write, ask in H. match type of H with context [if ?q <? 0 then _ else _] => destruct (q <? 0) end; [|inversion H; subst; auto].
    match type of H with context [if ?q =? - EPIPE then _ else _] => destruct (q =? - EPIPE) end; [|inversion H; subst; auto].
    unfold tcp_lost, schedule_reconnect in H. destruct (0 <? r); [|inversion H; subst; auto]. destruct (r <=? 0); [inversion H; subst; auto|].
    unfold add_timer in H. cbn [y_pos set_pos] in H. match type of H with context [v_tmr v ?q] => destruct (v_tmr v q) end; inversion H; subst; auto.
Qed.
Lemma fs_mod_fd : forall v y e b y' e' r, mod_fd v y e b = (y', e', r) -> y_fs y' = y_fs y.
Proof. intros v y e b y' e' r H. unfold mod_fd, ask in H. destruct (ep_poll e); [destruct (_ <? 0)|]; inversion H; subst; auto. Qed.
Lemma fs_deliver : forall f v w j e mem m w' mem' d cs, deliver f v w j e mem m = Ok (w', mem', d, cs) -> is_log e = false -> y_fs (w_sys w') = y_fs (w_sys w).
Proof.
  intros f v w j e mem m w' mem' d cs H N. unfold deliver in H. inv_bind H. inv_bind H. apply fs_write in E0; auto.
  match type of H with context [if ?r =? - EAGAIN then _ else _] => destruct (r =? - EAGAIN) end.
  - destruct (mod_fd v s e0 true) as [[y2 e2] rq] eqn:MD. apply fs_mod_fd in MD. inversion H; subst. match goal with |- context [if ?q then _ else _] => destruct q end; cbn; congruence.
  - inversion H; subst. match goal with |- context [if ?q then _ else _] => destruct q end; cbn; congruence.
Qed.
Lemma fs_from_log : forall sub f v m, from_log m -> forall order w mem u w' mem' ds its u', logs_ok w -> route_each sub f v w order mem m u = Ok (w', mem', ds, its, u') ->
  y_fs (w_sys w') = y_fs (w_sys w).
Proof.
  intros sub f v m FL. induction order as [|j r IH]; intros w mem u w' mem' ds its u' L H; [cbn [route_each] in H; inversion H; auto|].
  rewrite route_each_cons in H. inv_bind H. apply get_lookup in E. rename a into e. destruct (accept_msg _ _ _ _) eqn:A; eauto.
  assert (NL : is_log e = false). { destruct (is_log e) eqn:X; auto. rewrite log_rejects in A; auto; [discriminate|eapply L; eauto]. }
  inv_bind H. destruct (deliver_spec _ _ _ _ _ _ _ _ _ _ _ E0 E) as (R & M & C & N & _). destruct (N NL) as [-> ->]. apply fs_deliver in E0; auto.
  inv_bind H. cbn [route_ctls] in E1. inversion E1; subst; clear E1. inv_bind H. inversion H; subst; clear H. apply IH in E1; [congruence|]. eapply logs_routed; eauto.
Qed.
Lemma fs_ctls : forall k f v cs w j w' its, logs_ok w -> Forall ctl_ok cs -> route_ctls (nested k f v) w j cs = Ok (w', its) -> y_fs (w_sys w') = y_fs (w_sys w).
Proof.
  intros k f v. induction cs as [|c cs IH]; intros w j w' its L F H; cbn [route_ctls] in H. { inversion H; auto. }
  inv_bind H. inv_bind H. inversion H; subst; clear H. inversion F; subst. pose proof (nested_routed _ _ _ _ _ _ _ _ E) as R. apply IH in E0; [|eapply logs_routed; eauto|auto]. rewrite E0.
  unfold nested in E. inv_bind E. inversion E; subst; clear E. destruct k; [discriminate|]. rewrite route_S in E1. inv_bind E1. inversion E1; subst; clear E1.
  apply fs_from_log in E; auto; [|apply ctl_from; auto]. match goal with |- context [if ?q then _ else _] => destruct q end; cbn; auto.
Qed.

(* ---- routing --------------------------------------------------------------------------------------------------------- *)

Lemma ctl_items_sent : forall w j cs its, Forall2 (ctl_item w j) cs its -> sent_by i its = if Nat.eqb i j then cs else [].
Proof.
  intros w j cs its F. induction F as [|c x cs its (ds & -> & _) F IH]; [destruct (Nat.eqb i j); auto|]. cbn [sent_by flat_map]. fold (sent_by i its). rewrite IH. destruct c. cbn. destruct (Nat.eqb i j); auto.
Qed.

Lemma sub_ctls : forall w w', routed w w' -> (forall k e, lookup w k = Some e -> is_log e = true -> lookup w' k = Some e) -> sub_logs w w'.
Proof.
  intros w w' R K j l N (e' & L' & K'). pose proof (ro_ep _ _ R j) as X. rewrite L' in X. destruct (lookup w j) as [e|] eqn:E; [|destruct X].
  assert (LG : is_log e = true). { rewrite <- (same_log _ _ (se_kind _ _ X)). unfold is_log. rewrite K'. auto. }
  rewrite (K j e E LG) in L'. inversion L'; subst e'. exists e. auto.
Qed.
Lemma ctls_evolve : forall k f v arm cs w j w' its, logs_ok w -> Forall ctl_ok cs -> T v arm w ->
  route_ctls (nested (Datatypes.S k) f v) w j cs = Ok (w', its) -> evolves f v w [] w' [] /\ sent_by i its = (if Nat.eqb i j then cs else []) /\ T v arm w' /\ sub_logs w w'.
Proof.
  intros k f v arm cs w j w' its L C Tw H. destruct (RouterRoute2.ctls_items k f v cs w j w' its L C H) as [F K].
  assert (T' : T v arm w'). { apply (ctls_good v (nested (Datatypes.S k) f v)) in H; [apply H; auto|]. intros a c a' ds its0 Q. unfold nested in Q. inv_bind Q. inversion Q; subst. eapply route_good; eauto. }
  pose proof (sub_ctls _ _ (ctls_routed _ (nested_routed _ f v) _ _ _ _ _ H) K) as SB.
  split; [|split; [eapply ctl_items_sent; eauto|auto]]. eapply evolves_other; [exact T'| |].
  - intros l (e & A & B). exists e. split; auto. apply K; auto. unfold is_log. rewrite B. auto.
  - apply fs_eq. eapply fs_ctls; eauto.
Qed.
Lemma spared_deliver : forall f v w j e mem m w' mem' d cs, deliver f v w j e mem m = Ok (w', mem', d, cs) -> lookup w j = Some e -> (forall l, ep_kind e = KLog l -> foreign P l) ->
  fs_same w w' /\ forall l, log_at j w' l -> foreign P l.
Proof.
  intros f v w j e mem m w' mem' d cs H L FO. destruct (is_log e) eqn:LG.
  2:{ split; [apply fs_eq; eapply fs_deliver; eauto|]. intros l (e' & L' & K'). exfalso. destruct (deliver_spec _ _ _ _ _ _ _ _ _ _ _ H L) as (R & _).
      pose proof (ro_ep _ _ R j) as X. rewrite L, L' in X. pose proof (same_log _ _ (se_kind _ _ X)) as Y. unfold is_log in *. rewrite K' in Y. congruence. }
  unfold is_log in LG. destruct (ep_kind e) as [| | |l0] eqn:K; try discriminate. specialize (FO l0 eq_refl).
  unfold deliver in H. inv_bind H. inv_bind H. unfold write_ep in E0. rewrite K in E0.
  assert (NZ : forall n, Z.of_nat n =? - EAGAIN = false /\ Z.of_nat n =? - EPIPE = false). { intros n. split; apply Z.eqb_neq; unfold EAGAIN, EPIPE; lia. }
  destruct l0 as [g b|al0].
  - inv_bind E0. injection E0 as <- <- <- <- <- <-. destruct (NZ (m_len m)) as [N1 N2]. rewrite N1, N2 in H. injection H as <- <- <- <-.
    destruct (spare_lwrite _ _ _ _ _ _ _ _ _ _ _ _ _ E1 FO) as [F1 F2]. split; [exact F2|]. intros l (e' & L' & K').
    erewrite lookup_put_eq in L' by (rewrite lookup_sys; eauto). inversion L'; subst e'. cbn in K'. inversion K'; subst. exact F1.
  - inv_bind E0. injection E0 as <- <- <- <- <- <-. destruct (NZ (m_len m)) as [N1 N2]. rewrite N1, N2 in H. injection H as <- <- <- <-.
    destruct (spare_auto_write _ _ _ _ _ _ _ _ _ _ _ E1 FO) as [F1 F2]. split; [exact F2|]. intros l (e' & L' & K').
    erewrite lookup_put_eq in L' by (rewrite lookup_sys; eauto). inversion L'; subst e'. cbn in K'. inversion K'; subst. exact F1.
Qed.

Lemma deliver_other : forall f v arm w j e mem m w' mem' d cs, deliver f v w j e mem m = Ok (w', mem', d, cs) -> lookup w j = Some e -> j <> i ->
  T v arm w -> others w -> evolves f v w [] w' [] /\ T v arm w' /\ others w'.
Proof.
  intros f v arm w j e mem m w' mem' d cs H L N Tw SO. assert (T' : T v arm w') by (eapply deliver_good2; eauto).
  destruct (deliver_spec _ _ _ _ _ _ _ _ _ _ _ H L) as (R & _ & _ & _ & _ & _ & K).
  destruct (spared_deliver _ _ _ _ _ _ _ _ _ _ _ H L) as [F1 F2]. { intros l Kl. apply (SO j l N). exists e. auto. }
  split; [|split; auto].
  - eapply evolves_other; [exact T'| |exact F1]. intros l. apply at_lookup. apply K. auto.
  - intros k l NK A. destruct (Nat.eq_dec k j) as [->|NE]; [apply F2; auto|]. apply (SO k l NK). destruct A as (ek & Lk & Kk). rewrite K in Lk by auto. exists ek. auto.
Qed.
Lemma deliver_mem : forall f v w j e mem m w' mem' d cs, deliver f v w j e mem m = Ok (w', mem', d, cs) -> lookup w j = Some e -> j <> i -> clean w -> mem' = mem.
Proof.
  intros f v w j e mem m w' mem' d cs H L N C. specialize (C j e L N). unfold deliver in H. inv_bind H. inv_bind H.
  assert (X : l0 = mem); [|subst l0; match type of H with context [if ?r =? - EAGAIN then _ else _] => destruct (r =? - EAGAIN) end;
    [destruct (mod_fd v s e0 true) as [[? ?] ?]|]; inversion H; subst; auto].
  destruct (is_log e) eqn:LG.
  2:{ apply write_same in E0. destruct E0 as (_ & _ & _ & X & _). apply X in LG. tauto. }
  unfold is_log in LG. unfold write_ep in E0. destruct (ep_kind e) as [| | |[g b|al]]; try discriminate; [|destruct C].
  inv_bind E0. inversion E0; subst. apply mem_lwrite in E1. apply E1; auto.
Qed.
Lemma deliver_own : forall f v arm w e p tail w' mem' d cs, deliver f v w i e (encode p ++ tail) (info_of (v_tbl v) p) = Ok (w', mem', d, cs) -> lookup w i = Some e ->
  T v arm w -> is_log e = true -> evolves f v w [LMsg p tail] w' cs /\ T v arm w' /\ sub_logs w w'.
Proof.
  intros f v arm w e p tail w' mem' d cs H L Tw LG. remember (info_of (v_tbl v) p) as mm eqn:Em. assert (T' : T v arm w') by (eapply deliver_good2; eauto).
  split; [|split; auto; destruct (deliver_spec _ _ _ _ _ _ _ _ _ _ _ H L) as (_ & _ & _ & _ & _ & _ & KK); intros k l0 NK (ek & Lk & Kk); rewrite KK in Lk by auto; exists ek; auto].
  unfold deliver in H. inv_bind H. inv_bind H. intros lg0 (e2 & L2 & K). rewrite L in L2. inversion L2; subst e2. unfold write_ep in E0. rewrite K in E0.
  assert (NZ : forall n, Z.of_nat n =? - EAGAIN = false /\ Z.of_nat n =? - EPIPE = false). { intros n. split; apply Z.eqb_neq; unfold EAGAIN, EPIPE; lia. }
  destruct lg0 as [g b|al0].
  - inv_bind E0. injection E0 as <- <- <- <- <- <-. destruct (NZ (m_len mm)) as [N1 N2]. rewrite N1, N2 in H. injection H as <- <- <- <-. eexists. split.
    + eexists. split; [eapply lookup_put_eq; rewrite lookup_sys; eauto|]. cbn. reflexivity.
    + match goal with |- lhist _ _ _ _ _ _ _ _ _ ?q => rewrite <- (app_nil_r q) end. eapply lh_event; [apply due_msg| |constructor]. cbn [kevent levent]. rewrite <- Em, E1. cbn [bind]. reflexivity.
  - inv_bind E0. injection E0 as <- <- <- <- <- <-. destruct (NZ (m_len mm)) as [N1 N2]. rewrite N1, N2 in H. injection H as <- <- <- <-. eexists. split.
    + eexists. split; [eapply lookup_put_eq; rewrite lookup_sys; eauto|]. cbn. reflexivity.
    + match goal with |- lhist _ _ _ _ _ _ _ _ _ ?q => rewrite <- (app_nil_r q) end. eapply lh_event; [apply due_msg| |constructor]. cbn [kevent]. rewrite <- Em, E1. cbn [bind]. reflexivity.
Qed.

Definition the_log (w : world) : Prop := exists e, lookup w i = Some e /\ is_log e = true.
Lemma the_routed : forall w w', routed w w' -> the_log w -> the_log w'.
Proof.
  intros w w' R (e & L & G). pose proof (ro_ep _ _ R i) as X. rewrite L in X. destruct (lookup w' i) as [e'|] eqn:E; [|destruct X]. exists e'. split; auto.
  rewrite (same_log _ _ (se_kind _ _ X)). auto.
Qed.

Lemma each_evolve : forall k f v arm p order w mem u w' mem' ds its u', logs_ok w -> T v arm w -> clean w -> others w -> the_log w -> NoDup order ->
  (In i order -> exists tail, mem = encode p ++ tail /\ bytes tail) -> route_each (nested (Datatypes.S k) f v) f v w order mem (info_of (v_tbl v) p) u = Ok (w', mem', ds, its, u') ->
  T v arm w' /\ others w' /\ (In i (map dl_to ds) -> In i order) /\
  exists evs, evolves f v w evs w' (sent_by i its) /\ if existsb (Nat.eqb i) (map dl_to ds) then exists tail, evs = [LMsg p tail] /\ bytes tail else evs = [].
Proof.
  intros k f v arm p. induction order as [|j r IH]; intros w mem u w' mem' ds its u' LO Tw CL SO TL ND M H.
  - cbn [route_each] in H. inversion H; subst. split; auto. split; auto. split; auto. exists []. split; [apply evolves_refl|reflexivity].
  - rewrite route_each_cons in H. inv_bind H. apply get_lookup in E. rename a into e. inversion ND as [|? ? NI ND']; subst.
    destruct (accept_msg _ _ _ _) eqn:AC.
    2:{ destruct (IH _ _ _ _ _ _ _ _ LO Tw CL SO TL ND' (fun I => M (or_intror I)) H) as (A & O & B & C). split; auto. split; auto. split; auto. intros; right; auto. }
    2:{ destruct (IH _ _ _ _ _ _ _ _ LO Tw CL SO TL ND' (fun I => M (or_intror I)) H) as (A & O & B & C). split; auto. split; auto. split; auto. intros; right; auto. }
    inv_bind H. match type of E0 with _ = Ok (?a, ?b, ?c, ?d) => rename a into w1; rename b into mem1; rename c into d1; rename d into cs1 end.
    destruct (deliver_spec _ _ _ _ _ _ _ _ _ _ _ E0 E) as (R & _ & C & _ & DT & _). inv_bind H.
    match type of E1 with _ = Ok (?a, ?b) => rename a into w2; rename b into its1 end. assert (L1 : logs_ok w1) by (eapply logs_routed; eauto).
    pose proof (ctls_routed _ (nested_routed _ f v) _ _ _ _ _ E1) as R2. pose proof (routed_trans _ _ _ R R2) as R3.
    inv_bind H. inversion H; subst; clear H.
    assert (TL2 : the_log w2) by (eapply the_routed; eauto). assert (CL2 : clean w2) by (eapply clean_routed; eauto). assert (LO2 : logs_ok w2) by (eapply logs_routed; eauto).
    destruct (Nat.eq_dec (dl_to d1) i) as [EI|NE].
    + rewrite EI in *. destruct (M (or_introl eq_refl)) as (tail & -> & BT). destruct TL as (e' & L' & LG). rewrite E in L'. inversion L'; subst e'.
      destruct (deliver_own _ _ arm _ _ _ _ _ _ _ _ E0 E Tw LG) as (EV1 & T1 & B1). destruct (ctls_evolve _ _ _ _ _ _ _ _ _ L1 C T1 E1) as (EV2 & S1 & T2 & B2).
      pose proof (others_sub _ _ (sub_trans _ _ _ B1 B2) SO) as SO2.
      rewrite Nat.eqb_refl in S1. destruct (IH _ _ _ _ _ _ _ _ LO2 T2 CL2 SO2 TL2 ND' (fun I => False_ind _ (NI I)) E2) as (T3 & O3 & IN & evs & EV3 & EX).
      split; auto. split; auto. split; [left; auto|]. cbn [map existsb]. rewrite EI, Nat.eqb_refl. cbn [orb]. exists [LMsg p tail]. split; [|eauto].
      match type of EX with context [existsb ?a ?b] => destruct (existsb a b) eqn:X end.
      { exfalso. apply existsb_exists in X. destruct X as (q & X & Y). apply Nat.eqb_eq in Y. subst q. auto. }
      subst evs. rewrite sent_app, S1. change [LMsg p tail] with ([LMsg p tail] ++ []). eapply evolves_trans; [|exact EV3]. eapply evolves_then; eauto.
    + destruct (deliver_other _ _ arm _ _ _ _ _ _ _ _ _ E0 E NE Tw SO) as (EV1 & T1 & O1). pose proof (deliver_mem _ _ _ _ _ _ _ _ _ _ _ E0 E NE CL) as ->.
      destruct (ctls_evolve _ _ _ _ _ _ _ _ _ L1 C T1 E1) as (EV2 & S1 & T2 & B2). pose proof (others_sub _ _ B2 O1) as SO2. rewrite (proj2 (Nat.eqb_neq i (dl_to d1))) in S1 by auto.
      destruct (IH _ _ _ _ _ _ _ _ LO2 T2 CL2 SO2 TL2 ND' (fun I => M (or_intror I)) E2) as (T3 & O3 & IN & evs & EV3 & EX).
      split; auto. split; auto. split; [intros [X|X]; [left; auto|right; auto]|]. exists evs. rewrite sent_app, S1. cbn [app map existsb]. rewrite (proj2 (Nat.eqb_neq i (dl_to d1))) by auto.
      split; auto. eapply evolves_after; [exact EV1|]. eapply evolves_after; [exact EV2|exact EV3].
Qed.

Lemma clean_kinds : forall w w', (forall k e', lookup w' k = Some e' -> (exists e, lookup w k = Some e /\ class (ep_kind e) (ep_kind e')) \/ is_log e' = false) -> clean w -> clean w'.
Proof.
  intros w w' K C j e' L N. destruct (K j e' L) as [(e & L0 & CL)|NL].
  - specialize (C j e L0 N). apply (never_class _ _ CL C).
  - unfold is_log in NL. destruct (ep_kind e'); auto. discriminate.
Qed.
Lemma handle_evolve : forall f v arm w j e p w' its, handle_msg f v w j (info_of (v_tbl v) p) = Ok (w', its) -> Inv w -> lookup w j = Some e -> ep_fd e = true -> wf_packet p ->
  m_len (info_of (v_tbl v) p) = length (encode p) -> slice (rx_data (ep_rx e)) 0 (m_len (info_of (v_tbl v) p)) = Ok (encode p) ->
  T v arm w -> clean w -> others w -> the_log w ->
  others w' /\ exists evs, evolves f v w evs w' (sent_by i its) /\ heard v i its evs.
Proof.
  intros f v arm w j e p w' its H I L F WP LEN SL Tw CL SO TL. destruct (handle_inv _ _ _ _ _ _ _ H) as (e0 & pkt & w1 & fresh & L0 & SL0 & CD & C).
  rewrite L in L0. inversion L0; subst e0; clear L0. rewrite SL in SL0. inversion SL0; subst pkt; clear SL0.
  destruct (check_dup_eps _ _ _ _ _ CD) as [EE KD]. pose proof (dup_alike _ _ _ _ _ CD) as AL1. pose proof (T_alike _ _ _ _ AL1 Tw) as T1.
  assert (FS1 : y_fs (w_sys w1) = y_fs (w_sys w)).
  { unfold check_dup in CD. destruct (_ =? 0). { inversion CD; auto. } destruct (ask v (w_sys w)) as [now y] eqn:AK. inv_bind CD. inversion CD; subst. unfold ask in AK. inversion AK; subst. auto. }
  assert (EV1 : evolves f v w [] w1 []). { eapply evolves_other; [exact T1| |apply fs_eq; auto]. intros l. apply at_alike; auto. }
  pose proof (others_sub _ _ (sub_alike _ _ AL1) SO) as O1.
  destruct C as [(_ & -> & ->)|[(_ & AL & -> & ->)|(_ & AL & w2 & e2 & w3 & mem & ds & its' & e3 & LE & L2 & RT & L3 & -> & ->)]].
  - split; auto. exists []. split; auto. constructor.
  - split; auto. exists []. split; auto. constructor.
  - assert (I1 : Inv w1) by (eapply kept_inv; eauto).
    assert (L1 : lookup w1 j = Some e) by (unfold lookup in *; rewrite EE; auto).
    assert (NL : is_log e = false). { destruct (is_log e) eqn:G; auto. destruct (i_logs w I j e L G) as (_ & _ & X & _). congruence. }
    destruct (wf_meta_info (v_tbl v) p WP) as (B1 & B2 & _).
    assert (I2 : Inv w2) by (eapply learn_inv_world; eauto; unfold is_byte in *; lia).
    pose proof (learn_alike _ _ _ _ _ LE) as AL2. pose proof (T_alike _ _ _ _ AL2 T1) as T2.
    destruct (learn_exact _ _ _ _ _ _ LE I1 L1) as [TA _].
    assert (EV2 : evolves f v w1 [] w2 []). { eapply evolves_other; [exact T2| |apply fs_eq; rewrite (ta_w _ _ _ TA); auto]. intros l. apply at_alike; auto. }
    assert (KK : forall k e', lookup w2 k = Some e' -> exists ek, lookup w k = Some ek /\ ep_kind e' = ep_kind ek).
    { intros k e' L'. destruct (taught_lookup_rev _ _ _ _ _ TA L') as (ek & Lk & TK). pose proof (taught_ep_fields _ _ _ TK) as (_ & _ & _ & T4 & _).
      exists ek. split; auto. unfold lookup in *. rewrite EE in Lk. auto. }
    assert (CL2 : clean w2). { intros k e' L' N. destruct (KK k e' L') as (ek & Lk & ->). exact (CL k ek Lk N). }
    pose proof (others_sub _ _ (sub_alike _ _ AL2) O1) as SO2.
    assert (TL2 : the_log w2).
    { destruct TL as (ei & Li & LG). assert (Li1 : lookup w1 i = Some ei) by (unfold lookup in *; rewrite EE; auto). destruct (taught_lookup _ _ _ _ _ TA Li1) as (ei' & Li' & TK).
      pose proof (taught_ep_fields _ _ _ TK) as (_ & _ & _ & T4 & _). exists ei'. split; auto. unfold is_log in *. rewrite T4. auto. }
    assert (RX : rx_data (ep_rx e2) = encode p ++ skipn (length (encode p)) (rx_data (ep_rx e))).
    { destruct (taught_lookup _ _ _ _ _ TA L1) as (ej & Lj & TK). rewrite L2 in Lj. inversion Lj; subst ej. pose proof (taught_ep_fields _ _ _ TK) as (_ & _ & _ & _ & T5 & _). rewrite T5.
      unfold slice in SL. rewrite LEN in SL. cbn [skipn Nat.add] in SL. destruct (_ <=? _)%nat; [|discriminate]. inversion SL as [Q]. rewrite Q. rewrite <- Q at 1. symmetry. apply firstn_skipn. }
    assert (BT : bytes (skipn (length (encode p)) (rx_data (ep_rx e)))). { apply FrameRefine.bytes_skipn. apply (i_rx _ I j e L). }
    unfold NEST in RT. rewrite route_S in RT. inv_bind RT. inversion RT; subst; clear RT.
    destruct (each_evolve 0 f v arm p _ _ _ _ _ _ _ _ _ (inv_logs _ I2) T2 CL2 SO2 TL2 (i_nodup _ I2) (fun _ => ex_intro _ _ (conj RX BT)) E) as (T3 & O3 & IN & evs & EV3 & EX).
    match type of E with _ = Ok (?a, _, _, _, ?b) => rename a into w4; rename b into un end.
    set (w5 := if un then set_unknown w4 (u32 (w_unknown w4 + 1)) else w4) in *.
    assert (SE : w_sys w5 = w_sys w4 /\ w_eps w5 = w_eps w4) by (subst w5; destruct un; auto).
    split. { eapply others_sub; [|exact O3]. eapply sub_trans; [apply sub_eps; apply SE|]. eapply sub_put; [exact L3|right; reflexivity]. }
    exists evs. split.
    + cbn [sent_by flat_map app]. fold (sent_by i its'). eapply evolves_after; [exact EV1|]. eapply evolves_after; [exact EV2|]. eapply evolves_then; [exact EV3|].
      eapply evolves_other with (arm := arm).
      * assert (T5 : T v arm w5) by (eapply T_alike; [|exact T3]; apply alike_eps; apply SE). eapply T_alike; [|exact T5]. eapply alike_put; eauto.
      * intros l A. eapply at_put; [exact L3|right; reflexivity|]. eapply at_lookup; [|exact A]. unfold lookup. rewrite (proj2 SE). auto.
      * apply fs_eq. cbn. rewrite (proj1 SE). auto.
    + pose proof (each_items (nested 1 f v) f v) as EI. assert (CT : Forall is_ctl its').
      { eapply EI; [|exact E]. intros a c a' ds' it Q. unfold nested in Q. inv_bind Q. inversion Q; subst. eapply route_items; eauto. }
      unfold heard. cbn [filter concerns]. replace (filter (concerns i) its') with (@nil item).
      2:{ clear - CT. induction CT as [|x r (a & b & c & d & ->) F IH]; auto. }
      match type of EX with context [existsb ?a ?b] => destruct (existsb a b) end.
      * destruct EX as (tail & -> & BT'). constructor; [|constructor]. cbn. auto.
      * subst evs. constructor.
Qed.

(* ---- timers --------------------------------------------------------------------------------------------------------- *)

Lemma aggregate_sys : forall w w', cb_aggregate w = Ok w' -> w_sys w' = w_sys w.
Proof.
  intros w w' H. unfold cb_aggregate in H. change (w_sys w) with (w_sys (set_unknown w 0)). revert H. generalize (set_unknown w 0). generalize (w_order w). clear w.
  induction l as [|j r IH]; intros w H; cbn [fold_left] in H. { inversion H; subst; auto. }
  assert (NO : forall l (x : res world), (x = UB \/ x = Fuel) -> fold_left (fun rw i => let* w := rw in let* e := get w i in Ok (put w i (set_wstat e (ep_wtotal e) (ep_wbytes e) 0))) l x = Ok w' -> False).
  { induction l as [|q l IHl]; intros x [-> | ->] Q; cbn [fold_left] in Q; try discriminate; apply (IHl _ (or_introl eq_refl)) in Q || apply (IHl _ (or_intror eq_refl)) in Q; auto. }
  cbn [bind] in H. destruct (get w j) as [e| |] eqn:G; cbn [bind] in H.
  - apply IH in H. exact H.
  - exfalso. eapply NO; [|exact H]; auto.
  - exfalso. eapply NO; [|exact H]; auto.
Qed.

Lemma fs_del : forall y t y', del_timer y t = Ok y' -> y_fs y' = y_fs y.
Proof. intros y t y' H. unfold del_timer in H. destruct (has_timer y t); inversion H; auto. Qed.
Lemma fs_mod : forall y t ms y', mod_timer y t ms = Ok y' -> y_fs y' = y_fs y.
Proof. intros y t ms y' H. unfold mod_timer in H. destruct (has_timer y t); inversion H; auto. Qed.

Lemma log_cb_own : forall w k f v arm w' its again ev, Router.log_cb w i k f v = Ok (w', its, again) -> T v arm w -> logs_ok w ->
  (forall g b y g' b' cs ag, l_ep g = i -> linv (w_sys w) g -> k g b = Ok (y, g', b', cs, ag) -> mono (w_sys w) y /\ step_ok (w_sys w) g y g' /\ Forall ctl_ok cs /\ is_ulog b' = is_ulog b /\
     match ev with Some e => levent f v (w_sys w) g b e = Ok (y, g', b', cs) /\ match e with LMsg _ _ => True | LStart => l_tstart g <> None | LAlive => l_talive g <> None end | None => y = w_sys w /\ g' = g /\ b' = b /\ cs = [] end) ->
  evolves f v w (match ev with Some e => [e] | None => [] end) w' (sent_by i its).
Proof.
  intros w k f v arm w' its again ev H Tw LO Hk l (e & L & K). unfold Router.log_cb in H. inv_bind H. apply get_lookup in E. rewrite L in E. inversion E; subst a; clear E.
  destruct (T_log_timers _ _ _ l Tw (ex_intro _ e (conj L K))) as [S TO]. rewrite K in H.
  assert (GO : forall y l2 cs, T v arm (put (set_sys w y) i (set_kind e (KLog l2))) -> same_logger l l2 -> Forall ctl_ok cs ->
    route_ctls (route_sub f v) (put (set_sys w y) i (set_kind e (KLog l2))) i cs = Ok (w', its) ->
    exists l', at_log w' l' /\ lhist P f v i y l2 [] (w_sys w') l' [] /\ sent_by i its = cs).
  { intros y l2 cs T2 SL C R. assert (RP : routed w (put (set_sys w y) i (set_kind e (KLog l2)))) by (eapply routed_put; eauto; eapply same_log_kind; eauto).
    destruct (ctls_evolve 1 _ _ _ _ _ _ _ _ (logs_routed _ _ RP LO) C T2 R) as (EV & SB & _). rewrite Nat.eqb_refl in SB.
    destruct (EV l2) as (l' & A & Hh). { eexists. split; [eapply lookup_put_eq; rewrite lookup_sys; eauto|reflexivity]. } exists l'. auto. }
  destruct l as [g b|al].
  - cbn [timers_of] in TO. destruct TO as [EP LI]. inv_bind H. inv_bind H. inversion H; subst; clear H.
    match goal with Q : k g b = Ok (?y1, ?g1, ?b1, ?c1, _) |- _ => rename y1 into y; rename g1 into g'; rename b1 into b'; rename c1 into cs; destruct (Hk _ _ _ _ _ _ _ EP LI Q) as (M & ST & C & U & EV) end.
    match goal with Q : route_ctls _ _ _ _ = Ok _ |- _ => rename Q into RC end.
    assert (T2 : T v arm (put (set_sys w y) i (set_kind e (KLog (LFile g' b'))))).
    { eapply (T_put1 v w i e); eauto. intros arm0 S0 Hd. pose proof Hd as [_ B]. rewrite K in B. destruct B as [B1 B2].
      pose proof (so_own _ _ _ _ ST S0 B2) as O. pose proof (so_sys _ _ _ _ ST S0 B2) as S'. rewrite B1 in O. split; [apply frame_own; auto|].
      eapply log_held; [exact Hd|exact K|exact O|exact S'|]. split; [|apply (so_inv _ _ _ _ ST); auto]. destruct (so_cfg _ _ _ _ ST S0 B2) as (Q & _). congruence. }
    destruct (GO y (LFile g' b') cs T2 U C RC) as (l' & A & Hh & SB). exists l'. split; auto. rewrite SB. destruct ev as [ev|].
    + destruct EV as [EV DU]. rewrite <- (app_nil_r cs). eapply lh_event; [right; exists g; auto| |exact Hh]. cbn [kevent]. rewrite EV. reflexivity.
    + destruct EV as (-> & -> & -> & ->). exact Hh.
  - cbn [timers_of] in TO. destruct TO as [EA TO]. destruct (a_inner al) as [[g b]|] eqn:IN; [|discriminate]. destruct TO as [EP LI]. inv_bind H. inv_bind H. inversion H; subst; clear H.
    match goal with Q : k g b = Ok (?y1, ?g1, ?b1, ?c1, _) |- _ => rename y1 into y; rename g1 into g'; rename b1 into b'; rename c1 into cs; destruct (Hk _ _ _ _ _ _ _ EP LI Q) as (M & ST & C & U & EV) end.
    match goal with Q : route_ctls _ (put _ _ (set_kind _ (KLog ?q))) _ _ = Ok _ |- _ => rename Q into RC; set (l2 := q) in * end.
    assert (T2 : T v arm (put (set_sys w y) i (set_kind e (KLog l2)))).
    { eapply (T_put1 v w i e); eauto. intros arm0 S0 Hd. pose proof Hd as [_ B]. rewrite K, IN in B. destruct B as (B0 & B1 & B2).
      pose proof (so_own _ _ _ _ ST S0 B2) as O. pose proof (so_sys _ _ _ _ ST S0 B2) as S'. rewrite B1 in O. split; [apply frame_own; auto|].
      subst l2. eapply log_held; [exact Hd|exact K|exact O|exact S'|]. cbn [a_ep a_inner]. split; auto. split; [|apply (so_inv _ _ _ _ ST); auto]. destruct (so_cfg _ _ _ _ ST S0 B2) as (Q & _). congruence. }
    destruct (GO y l2 cs T2 Logic.I C RC) as (l' & A & Hh & SB). exists l'. split; auto. rewrite SB. destruct ev as [ev|].
    + destruct EV as [EV DU]. rewrite <- (app_nil_r cs). subst l2. assert (D : due (LAuto al) ev) by (right; exists g; rewrite IN; auto).
      destruct ev as [p tail| |]; (eapply lh_event; [exact D| |exact Hh]); cbn [kevent]; [|rewrite IN, EV; reflexivity|rewrite IN, EV; reflexivity].
      unfold auto_write. rewrite IN. cbn [levent] in EV.
      destruct (lwrite f v (w_sys w) g b (encode p ++ tail) (info_of (v_tbl v) p)) as [[[[[? ?] ?] ?] ?]| |]; cbn [bind] in *; try discriminate. inversion EV; subst. reflexivity.
    + destruct EV as (-> & -> & -> & ->). subst l2. rewrite <- IN in Hh. replace (LAuto al) with (LAuto (mkAuto (a_ep al) (a_minfree al) (a_maxlogs al) (a_mode al) (a_fcu al) (a_target al) (a_inner al))) by (destruct al; reflexivity). exact Hh.
Qed.

Lemma log_cb_else : forall w j k f v w' its again, Router.log_cb w j k f v = Ok (w', its, again) -> logs_ok w -> j <> i ->
  (forall g b y g' b' cs ag, k g b = Ok (y, g', b', cs, ag) -> Forall ctl_ok cs /\ is_ulog b' = is_ulog b) ->
  (forall l, at_log w l -> at_log w' l) /\ sent_by i its = [] /\ exists e, lookup w j = Some e /\ is_log e = true.
Proof.
  intros w j k f v w' its again H LO N Hk. unfold Router.log_cb in H. inv_bind H. apply get_lookup in E. rename a into e.
  assert (GO : forall y l l2 cs, ep_kind e = KLog l -> same_logger l l2 -> Forall ctl_ok cs ->
    route_ctls (route_sub f v) (put (set_sys w y) j (set_kind e (KLog l2))) j cs = Ok (w', its) ->
    (forall l, at_log w l -> at_log w' l) /\ sent_by i its = [] /\ exists e, lookup w j = Some e /\ is_log e = true).
  { intros y l l2 cs K SL C R. assert (RP : routed w (put (set_sys w y) j (set_kind e (KLog l2)))) by (eapply routed_put; eauto; eapply same_log_kind; eauto).
    destruct (RouterRoute2.ctls_items 1 _ _ _ _ _ _ _ (logs_routed _ _ RP LO) C R) as (F & KP). split; [|split].
    - intros l0 (e0 & L0 & K0). exists e0. split; auto. apply KP; [rewrite lookup_put_neq by auto; rewrite lookup_sys; auto|]. unfold is_log. rewrite K0. auto.
    - rewrite (ctl_items_sent _ _ _ _ F). rewrite (proj2 (Nat.eqb_neq i j)) by auto. auto.
    - exists e. split; auto. unfold is_log. rewrite K. auto. }
  destruct (ep_kind e) as [b c p|c pe p|r vl|[g b|al]] eqn:K; try discriminate.
  - inv_bind H. inv_bind H. inversion H; subst; clear H. match goal with Q : k g b = Ok _ |- _ => apply Hk in Q; destruct Q as [C U] end. eapply GO; [reflexivity| |exact C|eassumption]. exact U.
  - destruct (a_inner al) as [[g b]|] eqn:IN; [|discriminate]. inv_bind H. inv_bind H. inversion H; subst; clear H.
    match goal with Q : k g b = Ok _ |- _ => apply Hk in Q; destruct Q as [C U] end. eapply GO; [reflexivity| |exact C|eassumption]. exact Logic.I.
Qed.

Lemma log_cb_others : forall w j k f v w' its again, Router.log_cb w j k f v = Ok (w', its, again) -> logs_ok w -> others w ->
  (forall g b y g' b' cs ag, k g b = Ok (y, g', b', cs, ag) -> Forall ctl_ok cs /\ is_ulog b' = is_ulog b /\ spare P (w_sys w) g y g') ->
  others w' /\ (j <> i -> fs_same w w').
Proof.
  intros w j k f v w' its again H LO O Hk. unfold Router.log_cb in H. inv_bind H. apply get_lookup in E. rename a into e.
  assert (GO : forall y l l2 cs, ep_kind e = KLog l -> same_logger l l2 -> Forall ctl_ok cs -> (j <> i -> foreign P l2 /\ spared P (w_sys w) y) ->
    route_ctls (route_sub f v) (put (set_sys w y) j (set_kind e (KLog l2))) j cs = Ok (w', its) -> others w' /\ (j <> i -> fs_same w w')).
  { intros y l l2 cs K SL C FO R. assert (RP : routed w (put (set_sys w y) j (set_kind e (KLog l2)))) by (eapply routed_put; eauto; eapply same_log_kind; eauto).
    pose proof (logs_routed _ _ RP LO) as L1. destruct (RouterRoute2.ctls_items 1 _ _ _ _ _ _ _ L1 C R) as (_ & KP).
    pose proof (sub_ctls _ _ (ctls_routed _ (nested_routed _ f v) _ _ _ _ _ R) KP) as SB. split.
    - eapply others_sub; [exact SB|]. intros q lq NQ (eq0 & Lq & Kq). destruct (Nat.eq_dec q j) as [->|X].
      + erewrite lookup_put_eq in Lq by (rewrite lookup_sys; eauto). inversion Lq; subst eq0. cbn in Kq. inversion Kq; subst. apply FO; auto.
      + rewrite lookup_put_neq, lookup_sys in Lq by auto. apply (O q lq NQ). exists eq0. auto.
    - intros NE. unfold fs_same. eapply spared_trans; [apply FO; auto|]. apply spared_fs. rewrite (fs_ctls 2 f v _ _ _ _ _ L1 C R). reflexivity. }
  destruct (ep_kind e) as [b c p|c pe p|r vl|[g b|al]] eqn:K; try discriminate.
  - inv_bind H. inv_bind H. inversion H; subst; clear H. match goal with Q : k g b = Ok _ |- _ => apply Hk in Q; destruct Q as (C & U & SP) end.
    eapply GO; [reflexivity| |exact C| |eassumption]; [exact U|]. intros NE. apply SP. apply (O j (LFile g b) NE). exists e. auto.
  - destruct (a_inner al) as [[g b]|] eqn:IN; [|discriminate]. inv_bind H. inv_bind H. inversion H; subst; clear H.
    match goal with Q : k g b = Ok _ |- _ => apply Hk in Q; destruct Q as (C & U & SP) end. eapply GO; [reflexivity| |exact C| |eassumption]; [exact Logic.I|].
    intros NE. assert (FA : foreign P (LAuto al)) by (apply (O j _ NE); exists e; auto). cbn [foreign a_inner] in *. rewrite IN in FA. destruct FA as (F1 & F2 & F3). destruct (SP F3). auto.
Qed.

Lemma ctl_nothing : forall (its : list item), (forall x, In x its -> exists j bs m ds, x = ICtl j bs m ds) -> filter (concerns i) its = [].
Proof. induction its as [|x r IH]; intros H; auto. destruct (H x (or_introl eq_refl)) as (j & bs & m & ds & ->). cbn. apply IH. intros; apply H; right; auto. Qed.

Lemma log_cb_fires : forall f v w cb w' its again, run_cb f v w cb = Ok (w', its, again) -> match cb with CbLogStart _ | CbAlive _ => again = true | _ => True end.
Proof.
  intros f v w cb w' its again R. destruct cb; auto; cbn [run_cb] in R; unfold Router.log_cb in R; inv_bind R; destruct (ep_kind a) as [| | |[g b|al]]; try discriminate R.
  - inv_bind R. inv_bind R. inversion R; subst. destruct (lcb_start _ g b) as [[? ?] ?]. inversion E0; auto.
  - destruct (a_inner al) as [[g b]|]; [|discriminate R]. inv_bind R. inv_bind R. inversion R; subst. destruct (lcb_start _ g b) as [[? ?] ?]. inversion E0; auto.
  - inv_bind R. inv_bind R. inversion R; subst. inv_bind E0. inversion E0; auto.
  - destruct (a_inner al) as [[g b]|]; [|discriminate R]. inv_bind R. inv_bind R. inversion R; subst. inv_bind E0. inversion E0; auto.
Qed.

Lemma timer_evolve : forall f v arm w t fired w' its, timer_read f v w t fired = Ok (w', its) -> logs_ok w -> T v arm w -> others w ->
  others w' /\ exists evs, evolves f v w evs w' (sent_by i its) /\ heard v i its evs.
Proof.
  intros f v arm w t fired w' its H LO Tw SO. destruct (timer_T _ _ _ _ _ _ _ H LO) as [_ TT]. specialize (TT arm Tw).
  unfold timer_read in H. destruct (find_timer (w_sys w) t) as [x|] eqn:F; [|discriminate].
  destruct (negb fired || tm_dead x) eqn:D. { inversion H; subst. split; auto. exists []. split; [apply evolves_refl|constructor]. }
  apply orb_false_iff in D. destruct D as [_ D].
  unfold find_timer in F. apply find_some in F. destruct F as [Ix Ex]. assert (Ax : alive (w_sys w) x) by (split; auto).
  inv_bind H. inv_bind H. match type of E0 with _ = Ok ?q => rename q into a0 end. inversion H; subst; clear H. rename E into R. rename E0 into DL.
  match type of R with run_cb _ _ _ _ = Ok (?u, ?l, ?ag) => rename u into w1; rename l into its1; rename ag into again end.
  pose proof (RouterTrace.run_cb_ctls _ _ _ _ _ _ _ LO R) as CT. pose proof (log_cb_fires _ _ _ _ _ _ _ R) as AG.
  assert (QI : filter (concerns i) its1 = []). { apply ctl_nothing. intros z Z. apply CT in Z. destruct Z as (j & m & ds & (bs & Z & _) & _). eauto. }
  assert (FD : y_fs a0 = y_fs (w_sys w1)). { destruct again; [inversion DL; auto|eapply fs_del; eauto]. }
  cbn [sent_by flat_map app]. fold (sent_by i its1).
  assert (NOEV : forall cb, concerns i (IFire t cb) = false -> heard v i (IFire t cb :: its1) []).
  { intros cb C. unfold heard. cbn [filter]. rewrite C, QI. constructor. }
  assert (PLAIN : (forall l, at_log w l -> at_log w1 l) -> fs_same w w1 -> others w1 -> sent_by i its1 = [] -> concerns i (IFire t (tm_cb x)) = false ->
    others (set_sys w1 a0) /\ exists evs, evolves f v w evs (set_sys w1 a0) (sent_by i its1) /\ heard v i (IFire t (tm_cb x) :: its1) evs).
  { intros A B O C N. split; [eapply others_sub; [|exact O]; apply sub_eps; reflexivity|]. exists []. split; auto. rewrite C. eapply evolves_other; [exact TT| |].
    - intros l Al. apply at_sys. auto.
    - unfold fs_same. eapply spared_trans; [exact B|]. apply spared_fs. exact FD. }
  assert (OTHER : forall w2 j e0 e y, its1 = [] -> w1 = put (set_sys w y) j e -> w2 = w -> lookup w j = Some e0 -> is_log e0 = false -> is_log e = false -> y_fs y = y_fs (w_sys w) -> concerns i (IFire t (tm_cb x)) = false ->
    others (set_sys w1 a0) /\ exists evs, evolves f v w evs (set_sys w1 a0) (sent_by i its1) /\ heard v i (IFire t (tm_cb x) :: its1) evs).
  { intros w2 j e0 e y -> -> _ L G G2 FS C. apply PLAIN; auto.
    - intros l A. eapply at_put; [rewrite lookup_sys; eauto|left; auto|]. apply at_sys; auto.
    - apply fs_eq. exact FS.
    - eapply others_sub; [|exact SO]. eapply sub_trans; [apply (sub_eps w (set_sys w y)); reflexivity|]. eapply sub_put; [rewrite lookup_sys; eauto|left; auto]. }
  destruct (tm_cb x) as [| |j|j|j|j|j|j] eqn:C; cbn [run_cb] in R.
  - inv_bind R. inversion R; subst. apply PLAIN; auto.
    + intros l. apply at_alike. apply aggregate_alike; auto.
    + apply fs_eq. apply aggregate_sys in E. congruence.
    + eapply others_sub; [apply sub_alike; apply aggregate_alike; eauto|auto].
  - inversion R; subst. apply PLAIN; auto. apply spared_refl.
  - inv_bind R. inversion R; subst. unfold cb_baud in E. inv_bind E. apply get_lookup in E0. destruct (ep_kind a) as [b c p|c pe p|r vl|l] eqn:K; try discriminate. destruct b as [|b0 b]; [discriminate|].
    unfold ask in E. inversion E; subst; clear E. eapply OTHER; eauto; unfold is_log; cbn [ep_kind set_kind set_fd]; try rewrite K; auto.
  - inv_bind R. inversion R; subst. unfold cb_nomsg in E. inv_bind E. apply get_lookup in E0. destruct (ep_kind a) as [b c p|c pe [tt0|]|r vl|l] eqn:K; try discriminate. inv_bind E. inversion E; subst; clear E.
    eapply OTHER; eauto; try (unfold is_log; cbn [ep_kind set_kind]; try rewrite K; auto; fail). eapply fs_mod; eauto.
  - inv_bind R. inversion R; subst. unfold cb_retry in E. inv_bind E. apply get_lookup in E0. destruct (ep_kind a) as [b c p|c pe p|r vl|l] eqn:K; try discriminate.
    unfold ask in E. destruct (_ <? 0).
    + inversion E; subst; clear E. eapply OTHER; eauto; unfold is_log; cbn [ep_kind set_kind set_fd]; try rewrite K; auto.
    + unfold add_fd, ask in E. inversion E; subst; clear E. eapply OTHER; eauto; unfold is_log; cbn [ep_kind set_kind set_fd]; try rewrite K; auto.
  - subst again. inversion DL; subst a0. rewrite set_sys_id in *. destruct (Nat.eq_dec j i) as [->|NE].
    + split.
      { eapply (log_cb_others w i); [exact R|exact LO|exact SO|]. intros g b y g' b' cs ag Hk. cbn beta in Hk. destruct (lcb_start (w_sys w) g b) as [[y1 g1] cs1] eqn:LS. injection Hk as <- <- <- <- <-.
        split; [exact (ctl_cb_start _ _ _ _ _ _ LS)|]. split; auto. exact (spare_cb_start _ _ _ _ _ _ _ LS). }
      exists [LStart]. split.
      * eapply (log_cb_own w _ f v arm w1 its1 true (Some LStart)); [exact R|exact Tw|exact LO|].
        intros g b y g' b' cs ag EP LI Hk. cbn beta in Hk. destruct (lcb_start (w_sys w) g b) as [[y1 g1] cs1] eqn:LS. injection Hk as <- <- <- <- <-.
        split; [exact (mono_cb_start _ _ _ _ _ _ LS)|]. split; [exact (step_cb_start _ _ _ _ _ _ LS)|]. split; [exact (ctl_cb_start _ _ _ _ _ _ LS)|]. split; auto.
        cbn [levent]. destruct Ax as [Ai Ad]. destruct (li_only _ _ LI x Ai Ad) as (Q & _). rewrite Q by (rewrite EP; auto). rewrite LS. split; [auto|discriminate].
      * unfold heard. cbn [filter concerns]. rewrite Nat.eqb_refl, QI. constructor; [exact Logic.I|constructor].
    + destruct (log_cb_else _ _ _ _ _ _ _ _ R LO NE) as (A & B & (e & L & G)).
      { intros g b y g' b' cs ag Hk. cbn beta in Hk. destruct (lcb_start (w_sys w) g b) as [[y1 g1] cs1] eqn:LS. inversion Hk; subst. split; auto. eapply ctl_cb_start; eauto. }
      destruct (log_cb_others _ _ _ _ _ _ _ _ R LO SO) as (O1 & FS).
      { intros g b y g' b' cs ag Hk. cbn beta in Hk. destruct (lcb_start (w_sys w) g b) as [[y1 g1] cs1] eqn:LS. injection Hk as <- <- <- <- <-.
        split; [exact (ctl_cb_start _ _ _ _ _ _ LS)|]. split; auto. exact (spare_cb_start _ _ _ _ _ _ _ LS). }
      apply PLAIN; auto. cbn. apply Nat.eqb_neq. auto.
  - assert (again = true) by (eapply fsync_again; eauto). subst again. inversion DL; subst a0. rewrite set_sys_id in *. destruct (Nat.eq_dec j i) as [->|NE].
    + split.
      { eapply (log_cb_others w i); [exact R|exact LO|exact SO|]. intros g b y g' b' cs ag Hk. inversion Hk; subst. split; [constructor|]. split; auto. apply spare_refl. }
      exists []. split; [|apply NOEV; auto].
      eapply (log_cb_own w _ f v arm w1 its1 true None); [exact R|exact Tw|exact LO|].
      intros g b y g' b' cs ag EP LI Hk. inversion Hk; subst. split; [apply mono_refl|]. split; [apply step_refl|]. split; [constructor|]. repeat split.
    + destruct (log_cb_else _ _ _ _ _ _ _ _ R LO NE) as (A & B & (e & L & G)).
      { intros g b y g' b' cs ag Hk. inversion Hk; subst. auto. }
      destruct (log_cb_others _ _ _ _ _ _ _ _ R LO SO) as (O1 & FS).
      { intros g b y g' b' cs ag Hk. inversion Hk; subst. split; [constructor|]. split; auto. apply spare_refl. }
      apply PLAIN; auto.
  - subst again. inversion DL; subst a0. rewrite set_sys_id in *. destruct (Nat.eq_dec j i) as [->|NE].
    + split.
      { eapply (log_cb_others w i); [exact R|exact LO|exact SO|]. intros g b y g' b' cs ag Hk. cbn beta in Hk. inv_bind Hk. inversion Hk; subst.
        split; [eapply ctl_cb_alive; eauto|]. split; [eapply alive_kind; eauto|eapply spare_cb_alive; eauto]. }
      exists [LAlive]. split.
      * eapply (log_cb_own w _ f v arm w1 its1 true (Some LAlive)); [exact R|exact Tw|exact LO|].
        intros g b y g' b' cs ag EP LI Hk. cbn beta in Hk. inv_bind Hk. inversion Hk; subst.
        split; [eapply mono_cb_alive; eauto|]. split; [eapply step_cb_alive; eauto|]. split; [eapply ctl_cb_alive; eauto|]. split; [eapply alive_kind; eauto|].
        cbn [levent]. destruct Ax as [Ai Ad]. destruct (li_only _ _ LI x Ai Ad) as (_ & _ & Q). rewrite Q by (rewrite EP; auto). split; [auto|discriminate].
      * unfold heard. cbn [filter concerns]. rewrite Nat.eqb_refl, QI. constructor; [exact Logic.I|constructor].
    + destruct (log_cb_else _ _ _ _ _ _ _ _ R LO NE) as (A & B & (e & L & G)).
      { intros g b y g' b' cs ag Hk. cbn beta in Hk. inv_bind Hk. inversion Hk; subst. split; [eapply ctl_cb_alive; eauto|eapply alive_kind; eauto]. }
      destruct (log_cb_others _ _ _ _ _ _ _ _ R LO SO) as (O1 & FS).
      { intros g b y g' b' cs ag Hk. cbn beta in Hk. inv_bind Hk. inversion Hk; subst. split; [eapply ctl_cb_alive; eauto|]. split; [eapply alive_kind; eauto|eapply spare_cb_alive; eauto]. }
      apply PLAIN; auto. cbn. apply Nat.eqb_neq. auto.
Qed.

Lemma fs_bytes : forall n v y r y', ask_bytes n v y = (r, y') -> y_fs y' = y_fs y.
Proof.
  induction n; intros v y r y' H; cbn [ask_bytes] in H. { inversion H; auto. }
  unfold ask in H. destruct (ask_bytes n v _) as [l y2] eqn:E. apply IHn in E. inversion H; subst. auto.
Qed.

Lemma act_evolve : forall f v arm w its w', wf_table (v_tbl v) -> act f v w its w' -> Inv w -> T v arm w -> clean w -> others w -> the_log w ->
  others w' /\ exists evs, evolves f v w evs w' (sent_by i its) /\ heard v i its evs.
Proof.
  intros f v arm w its w' WT A I Tw CL SO TL. destruct (act_T f v w its w' WT A I) as [_ TT]. specialize (TT arm Tw).
  assert (PLAIN : (forall l, at_log w l -> at_log w' l) -> sub_logs w w' -> y_fs (w_sys w') = y_fs (w_sys w) -> sent_by i its = [] -> filter (concerns i) its = [] ->
    others w' /\ exists evs, evolves f v w evs w' (sent_by i its) /\ heard v i its evs).
  { intros AT SB Q R S. split; [eapply others_sub; eauto|]. exists []. rewrite R. split; [eapply evolves_other; [exact TT|exact AT|apply fs_eq; exact Q]|]. unfold heard. rewrite S. constructor. }
  assert (SAME : sub_logs w w) by apply sub_refl. assert (EPS : forall w2, w_eps w2 = w_eps w -> sub_logs w w2) by (intros; apply sub_eps; auto).
  assert (SPUT : forall j e0 e y, lookup w j = Some e0 -> is_log e = false \/ ep_kind e = ep_kind e0 -> sub_logs w (put (set_sys w y) j e)).
  { intros j e0 e y L N. eapply sub_trans; [apply (sub_eps w (set_sys w y)); reflexivity|]. eapply sub_put; [rewrite lookup_sys; eauto|auto]. }
  assert (PUT : forall j e0 e y, lookup w j = Some e0 -> is_log e0 = false \/ ep_kind e = ep_kind e0 -> forall l, at_log w l -> at_log (put (set_sys w y) j e) l).
  { intros j e0 e y L N l Al. eapply at_put; [rewrite lookup_sys; eauto|exact N|apply at_sys; auto]. }
  assert (NLOG : forall j e, lookup w j = Some e -> ep_fd e = true -> is_log e = false).
  { intros j e L F. destruct (is_log e) eqn:G; auto. destruct (i_logs w I j e L G) as (_ & _ & X & _). congruence. }
  inversion A; subst.
  - (* read *)
    pose proof (NLOG _ _ H H0) as NL. destruct o as [bs from| |n]; cbn [os_read] in H3; try (inversion H3; subst; apply PLAIN; auto; fail). destruct (ep_kind e) eqn:K; try (inversion H3; subst; apply PLAIN; auto; fail).
    + inv_bind H3. inversion H3; subst. apply PLAIN; auto. { eapply PUT; eauto. } { eapply SPUT; eauto. } cbn. destruct tmo; [eapply fs_mod; eauto|inversion E; auto].
    + destruct bs; [|inversion H3; subst; apply PLAIN; auto]. destruct (_ =? 0)%nat. { inversion H3; subst; apply PLAIN; auto. }
      unfold tcp_lost, schedule_reconnect in H3. destruct (0 <? retry); [destruct (retry <=? 0); [|unfold add_timer in H3; cbn [y_pos set_pos] in H3; match type of H3 with context [v_tmr v ?q] => destruct (v_tmr v q) end]|];
        inversion H3; subst; (apply PLAIN; auto; [eapply PUT; eauto|eapply SPUT; eauto]).
  - apply PLAIN; auto; [intros l Al; eapply at_put; eauto|eapply sub_put; eauto].
  - (* a message *)
    destruct (recv_before f v w i0 e rr x st known m w1 WT I H H0 H1 H2 H3 _ _ H4) as (K & DD & e1 & p & L1 & F1 & KE & RX & RL & P1 & P2 & P3 & P4 & P5). subst m.
    assert (GO : exists e1', good v w w1 /\ (forall l, at_log w l -> at_log w1 l) /\ sub_logs w w1 /\ y_fs (w_sys w1) = y_fs (w_sys w) /\ e1' = e1).
    { exists e1. assert (A0 : good v w (put w i0 (set_rx e x st))) by (apply good_alike; eapply alike_put; eauto).
      assert (A1 : forall l, at_log w l -> at_log (put w i0 (set_rx e x st)) l) by (intros l Al; eapply at_put; eauto).
      assert (A2 : sub_logs w (put w i0 (set_rx e x st))) by (eapply sub_put; eauto). destruct known.
      - split. { eapply good_trans; [exact A0|]. eapply baud_good; [exact H3|]. eapply lookup_put_eq; eauto. }
        unfold keep_baud in H3. cbn [ep_kind set_rx] in H3. destruct (ep_kind e) as [b c [tt0|]|c pe q|r vl|l0] eqn:KK; try (inversion H3; subst; auto; fail).
        inv_bind H3. inversion H3; subst. split; [|split; [|split; auto; cbn; apply fs_del in E; auto]].
        2:{ eapply sub_trans; [exact A2|]. match goal with |- sub_logs ?q (put (set_sys ?q ?yy) _ _) => eapply sub_trans; [apply (sub_eps q (set_sys q yy)); reflexivity|] end.
            eapply sub_put; [rewrite lookup_sys; eapply lookup_put_eq; eauto|left; reflexivity]. }
        intros l Al. eapply at_put; [rewrite lookup_sys; eapply lookup_put_eq; eauto|left; unfold is_log; cbn [ep_kind set_rx]; rewrite KK; auto|]. apply at_sys. auto.
      - inversion H3; subst. auto. }
    destruct GO as (_ & G & AT & SB & FS & _). assert (T1 : T v arm w1) by (apply G; auto).
    assert (KK : forall k e', lookup w1 k = Some e' -> (exists ek, lookup w k = Some ek /\ class (ep_kind ek) (ep_kind e')) \/ is_log e' = false).
    { intros k e' L'. left. destruct (kept_lookup_rev _ _ _ _ K L') as (ek & Lk & KK). exists ek. split; auto. apply KK. }
    destruct (handle_evolve f v arm w1 i0 e1 p w' its H4) as (O1 & evs & EV & HE); auto.
    + eapply kept_inv; eauto.
    + rewrite RX. exact P5.
    + eapply clean_kinds; eauto.
    + eapply others_sub; eauto.
    + destruct TL as (ei & Li & LG). destruct (AT (match ep_kind ei with KLog l => l | _ => LFile (lg_new 0 [] 0 0 MAlways 0) BTele end)) as (ei' & Li' & Ki').
      { exists ei. split; auto. unfold is_log in LG. destruct (ep_kind ei); auto; discriminate. } exists ei'. split; auto. unfold is_log. rewrite Ki'. auto.
    + split; auto. exists evs. split; auto. eapply evolves_after; [|exact EV]. eapply evolves_other; [exact T1|exact AT|apply fs_eq; exact FS].
  - (* a TCP client connects *)
    unfold tcp_connection in *. destruct (ask v (w_sys w)) as [r y] eqn:AK. unfold ask in AK. inversion AK; subst; clear AK. destruct (_ <? 0); cbn [fst snd] in *. { apply PLAIN; auto. }
    destruct (ask_bytes RXMAX v _) as [junk y2] eqn:AB. apply fs_bytes in AB. unfold add_fd, ask in *. cbn [fst snd] in *. apply PLAIN; auto.
    2:{ intros q l NQ (el & Ll & Kl). exists el. split; auto. unfold lookup in *. cbn [w_eps set_order set_eps] in Ll. destruct (Nat.lt_ge_cases q (length (w_eps w))) as [X|X]; [rewrite nth_error_app1 in Ll; auto|].
        exfalso. rewrite nth_error_app2 in Ll by auto. destruct (q - length (w_eps w))%nat as [|qq]; [|destruct qq; discriminate]. cbn [nth_error] in Ll. inversion Ll; subst el. discriminate. }
    intros l (el & Ll & Kl). exists el. split; auto. unfold lookup in *. cbn [w_eps set_order set_eps]. rewrite nth_error_app1; auto. destruct (Nat.lt_ge_cases i (length (w_eps w))) as [X|X]; auto.
    exfalso. apply nth_error_None in X. rewrite X in Ll. discriminate.
  - apply PLAIN; auto.
    + eapply PUT; eauto. right. unfold mod_fd in H0. destruct (ask v (w_sys w)) as [q y0]. destruct (ep_poll e); [destruct (q <? 0)|]; inversion H0; subst; auto.
    + eapply SPUT; eauto. right. unfold mod_fd in H0. destruct (ask v (w_sys w)) as [q y0]. destruct (ep_poll e); [destruct (q <? 0)|]; inversion H0; subst; auto.
    + eapply fs_mod_fd; eauto.
  - eapply timer_evolve; eauto using inv_logs.
  - apply PLAIN; auto.
  - apply PLAIN; auto.
  - (* removal *)
    destruct (hang_T v _ _ _ H I) as (SY & GI & _). apply PLAIN; auto.
    + intros l (el & Ll & Kl). exists el. split; auto. unfold process_hangups in H. destruct (w_hang w); [|inversion H; subst; auto].
      inv_bind H. inversion H; subst; clear H. destruct (hangups_spec _ _ _ _ _ E (inv_sym _ I)) as (_ & _ & _ & D & LK). change (lookup w0 i = Some el). rewrite LK.
      assert (V : valid_at w i = true) by (unfold valid_at; rewrite Ll; unfold is_valid; rewrite Kl; auto). rewrite V. rewrite andb_false_r. auto.
    + intros q l NQ (el & Ll & Kl). exists el. split; auto. unfold process_hangups in H. destruct (w_hang w); [|inversion H; subst; auto].
      inv_bind H. inversion H; subst; clear H. destruct (hangups_spec _ _ _ _ _ E (inv_sym _ I)) as (_ & _ & _ & D & LK). change (lookup w0 q = Some el) in Ll. rewrite LK in Ll.
      destruct (_ && _); [discriminate|auto].
    + congruence.
    + clear - GI. induction its as [|x r IH]; auto. destruct (GI x (or_introl eq_refl)) as (j & ->). cbn. apply IH. intros; apply GI; right; auto.
    + clear - GI. induction its as [|x r IH]; auto. destruct (GI x (or_introl eq_refl)) as (j & ->). cbn. apply IH. intros; apply GI; right; auto.
  - apply PLAIN; auto.
Qed.
End One.
