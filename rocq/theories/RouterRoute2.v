(* More on routing one message: nesting, bytes handed out, the counter of unroutable messages. *)
From Verif Require Import Base Mav Frame FrameProofs FrameRefine Dedup Accept Names Sys LogFile ULog Loggers LogInv LogStep RouterCtl Router RouterRoute.

(* ---- messages sent by loggers ------------------------------------------------------------------------- *)

Definition logs_ok (w : world) : Prop := forall i e, lookup w i = Some e -> is_log e = true -> In 512 (ep_ids e).

Lemma logs_routed : forall w w', routed w w' -> logs_ok w -> logs_ok w'.
Proof.
  intros w w' R L i e' H G. pose proof (ro_ep _ _ R i) as X. rewrite H in X. destruct (lookup w i) as [e|] eqn:E; [|destruct X].
  cbn in X. rewrite (se_ids _ _ X). apply (L i e E). rewrite <- (same_log _ _ (se_kind _ _ X)). auto.
Qed.

Definition from_log (m : minfo) : Prop := m_ssys m = 2 /\ m_scomp m = 0.
Lemma log_rejects : forall s ids fl m, In 512 ids -> from_log m -> accept_msg s ids fl m = Rejected.
Proof.
  intros s ids fl m I [A B]. unfold accept_msg. assert (X : has_sys_comp_id ids (m_ssys m) (m_scomp m) = true); [|rewrite X; auto].
  rewrite A, B. unfold has_sys_comp_id, contains. apply existsb_exists. exists 512. split; auto.
Qed.

(* such a message reaches no logger, so nothing is sent in response, however deep the nesting may go *)
Lemma each_from_log : forall f v order w mem m u sub sub', logs_ok w -> from_log m ->
  route_each sub f v w order mem m u = route_each sub' f v w order mem m u /\
  (forall w' mem' ds its u', route_each sub f v w order mem m u = Ok (w', mem', ds, its, u') ->
     its = [] /\ mem' = mem /\
     (forall i e, lookup w i = Some e -> is_log e = true -> ~ In i (map dl_to ds) /\ lookup w' i = Some e)).
Proof.
  intros f v. induction order as [|i r IH]; intros w mem m u sub sub' L F.
  - cbn [route_each]. split; auto. intros. inversion H; subst. split; auto.
  - rewrite !route_each_cons. destruct (get w i) as [e| |] eqn:G; cbn [bind]; try (split; [auto|discriminate]).
    apply get_lookup in G. destruct (accept_msg _ _ _ _) eqn:A; try (apply IH; auto).
    assert (NL : is_log e = false).
    { destruct (is_log e) eqn:X; auto. rewrite log_rejects in A; auto. discriminate. eapply L; eauto. }
    destruct (deliver f v w i e mem m) as [[[[w1 mem1] d] cs]| |] eqn:D; cbn [bind]; try (split; [auto|discriminate]).
    destruct (deliver_spec _ _ _ _ _ _ _ _ _ _ _ D G) as (R & M & C & N & T & _ & O). destruct (N NL) as [-> ->].
    cbn [route_ctls bind]. pose proof (logs_routed _ _ R L) as L1. destruct (IH w1 mem m false sub sub' L1 F) as [Q1 Q2]. split.
    + rewrite Q1. reflexivity.
    + intros w' mem' ds its u' H. inv_bind H. inversion H; subst; clear H. destruct (Q2 _ _ _ _ _ E) as (-> & -> & Q3).
      split; auto. split; auto. intros j ej J LJ. assert (NE : j <> dl_to d) by (intros ->; congruence).
      rewrite <- (O j NE) in J. destruct (Q3 j ej J LJ) as [Q4 Q5]. split; auto. cbn [map]. intros [X|X]; auto.
Qed.

Lemma route_from_log : forall k f v w mem m, logs_ok w -> from_log m ->
  route (Datatypes.S k) f v w mem m = route 1 f v w mem m /\
  (forall w' mem' ds its, route (Datatypes.S k) f v w mem m = Ok (w', mem', ds, its) ->
     its = [] /\ mem' = mem /\
     (forall i e, lookup w i = Some e -> is_log e = true -> ~ In i (map dl_to ds) /\ lookup w' i = Some e)).
Proof.
  intros k f v w mem m L F. rewrite !route_S. destruct (each_from_log f v (w_order w) w mem m true (nested k f v) (nested 0 f v) L F) as [A B].
  split. { rewrite A; auto. }
  intros w' mem' ds its H. inv_bind H. inversion H; subst; clear H. destruct (B _ _ _ _ _ E) as (-> & -> & C). split; auto. split; auto.
  intros i e I G. destruct (C i e I G) as [C1 C2]. split; auto. destruct b; auto.
Qed.

(* and the endpoints it reaches are handed its bytes *)
Lemma each_from_log_bytes : forall f v sub order w mem m u w' mem' ds its u', logs_ok w -> from_log m ->
  route_each sub f v w order mem m u = Ok (w', mem', ds, its, u') -> Forall (fun d => slice mem 0 (m_len m) = Ok (dl_bytes d)) ds.
Proof.
  intros f v sub. induction order as [|i r IH]; intros w mem m u w' mem' ds its u' L F H.
  - cbn [route_each] in H. inversion H; subst. constructor.
  - rewrite route_each_cons in H. inv_bind H. apply get_lookup in E. rename a into e. destruct (accept_msg _ _ _ _) eqn:A; eauto.
    assert (NL : is_log e = false).
    { destruct (is_log e) eqn:X; auto. rewrite log_rejects in A; auto. discriminate. eapply L; eauto. }
    inv_bind H. destruct (deliver_spec _ _ _ _ _ _ _ _ _ _ _ E0 E) as (R & M & C & N & T & B & _). destruct (N NL) as [-> ->].
    inv_bind H. cbn [route_ctls] in E1. inversion E1; subst; clear E1. inv_bind H. inversion H; subst; clear H. constructor; auto.
    eapply IH; [|exact F|exact E1]. eapply logs_routed; eauto.
Qed.
Lemma route_from_log_bytes : forall n f v w mem m w' mem' ds its, logs_ok w -> from_log m ->
  route n f v w mem m = Ok (w', mem', ds, its) -> Forall (fun d => slice mem 0 (m_len m) = Ok (dl_bytes d)) ds.
Proof.
  intros [|n] f v w mem m w' mem' ds its L F H; [discriminate|]. rewrite route_S in H. inv_bind H. inversion H; subst. eapply each_from_log_bytes; eauto.
Qed.
Lemma ctl_bytes : forall n f v w c w' mem' ds its, logs_ok w -> ctl_ok c ->
  route n f v w (fst c) (snd c) = Ok (w', mem', ds, its) -> Forall (fun d => dl_bytes d = fst c) ds.
Proof.
  intros n f v w c w' mem' ds its L (C1 & C2 & _ & C4 & _) H. apply route_from_log_bytes in H; auto; [|split; auto].
  eapply Forall_impl; [|exact H]. intros d D. cbn beta in D. rewrite C4 in D. unfold slice in D. rewrite Nat.add_0_l, Nat.leb_refl in D. cbn [skipn] in D.
  rewrite firstn_all in D. congruence.
Qed.

Lemma ctl_from : forall c, ctl_ok c -> from_log (snd c).
Proof. intros c (A & B & _). split; auto. Qed.

Lemma ctls_ext : forall sub sub', (forall w c, logs_ok w -> ctl_ok c -> sub w c = sub' w c) -> sub_routed sub ->
  forall cs w i, logs_ok w -> Forall ctl_ok cs -> route_ctls sub w i cs = route_ctls sub' w i cs.
Proof.
  intros sub sub' E S. induction cs as [|c cs IH]; intros w i L F; cbn [route_ctls]; auto. inversion F; subst.
  rewrite <- E by auto. destruct (sub w c) as [[[w1 ds] its]| |] eqn:X; auto. cbn [bind]. apply S in X. rewrite IH; auto. eapply logs_routed; eauto.
Qed.
Lemma each_ext : forall sub sub' f v, (forall w c, logs_ok w -> ctl_ok c -> sub w c = sub' w c) -> sub_routed sub ->
  forall order w mem m u, logs_ok w -> route_each sub f v w order mem m u = route_each sub' f v w order mem m u.
Proof.
  intros sub sub' f v E S. induction order as [|i r IH]; intros w mem m u L; auto. rewrite !route_each_cons.
  destruct (get w i) as [e| |] eqn:G; cbn [bind]; auto. apply get_lookup in G. destruct (accept_msg _ _ _ _); auto.
  destruct (deliver f v w i e mem m) as [[[[w1 mem1] d] cs]| |] eqn:D; cbn [bind]; auto.
  destruct (deliver_spec _ _ _ _ _ _ _ _ _ _ _ D G) as (R & _ & C & _).
  assert (L1 : logs_ok w1) by (eapply logs_routed; eauto). rewrite (ctls_ext sub sub'); auto.
  destruct (route_ctls sub' w1 i cs) as [[w2 its]| |] eqn:X; cbn [bind]; auto.
  rewrite <- (ctls_ext sub sub' E S) in X by auto. rewrite IH; auto. eapply logs_routed; [eapply ctls_routed; eauto|auto].
Qed.

(* the nesting is never deeper than two *)
Lemma route_depth : forall k f v w mem m, logs_ok w ->
  route (Datatypes.S (Datatypes.S k)) f v w mem m = route NEST f v w mem m.
Proof.
  intros k f v w mem m L. unfold NEST. rewrite !route_S.
  assert (E : forall w c, logs_ok w -> ctl_ok c -> nested (Datatypes.S k) f v w c = nested 1 f v w c).
  { intros w1 c L1 C. unfold nested. rewrite (proj1 (route_from_log k f v w1 (fst c) (snd c) L1 (ctl_from _ C))). reflexivity. }
  rewrite (each_ext (nested (Datatypes.S k) f v) (nested 1 f v) f v E); auto. apply nested_routed.
Qed.

Lemma Forall2_impl : forall A B (P Q : A -> B -> Prop) l l', (forall a b, P a b -> Q a b) -> Forall2 P l l' -> Forall2 Q l l'.
Proof. intros A B P Q l l' H F. induction F; auto. Qed.

Definition ctl_item (w : world) (i : nat) (c : ctl) (x : item) : Prop :=
  exists ds, x = ICtl i (fst c) (snd c) ds /\ map dl_to ds = filter (accepts w (snd c)) (w_order w) /\ Forall (fun d => dl_bytes d = fst c) ds.

Lemma ctls_items : forall k f v cs w i w' its, logs_ok w -> Forall ctl_ok cs ->
  route_ctls (nested (Datatypes.S k) f v) w i cs = Ok (w', its) ->
  Forall2 (ctl_item w i) cs its /\
  (forall j e, lookup w j = Some e -> is_log e = true -> lookup w' j = Some e).
Proof.
  intros k f v. induction cs as [|c cs IH]; intros w i w' its L F H; cbn [route_ctls] in H.
  - inversion H; subst. split; auto.
  - inv_bind H. inv_bind H. inversion H; subst; clear H. inversion F; subst.
    pose proof (nested_routed _ _ _ _ _ _ _ _ E) as R. unfold nested in E. inv_bind E. inversion E; subst; clear E.
    destruct (proj2 (route_from_log k f v w (fst c) (snd c) L (ctl_from _ H1)) _ _ _ _ E1) as (-> & _ & Q).
    pose proof (ctl_bytes _ _ _ _ _ _ _ _ _ L H1 E1) as BY. apply route_spec in E1. destruct E1 as (_ & _ & T & _).
    assert (L1 : logs_ok w0) by (eapply logs_routed; eauto). cbn [app].
    destruct (IH _ _ _ _ L1 H2 E0) as (I1 & I3). split.
    + constructor. { exists l0. auto. }
      eapply Forall2_impl; [|exact I1]. intros c' x (ds' & C2 & C3 & C4). exists ds'. split; auto. split; auto.
      rewrite C3, (ro_order _ _ R). apply routed_accepts; auto.
    + intros j e J G. apply I3; auto. destruct (Q j e J G); auto.
Qed.

(* everything a routed message leads to *)
Lemma each_items : forall k f v order w mem m u w' mem' ds its u', logs_ok w ->
  route_each (nested (Datatypes.S k) f v) f v w order mem m u = Ok (w', mem', ds, its, u') ->
  Forall (fun x => exists i c, In i (map dl_to ds) /\ (forall e, lookup w i = Some e -> is_log e = true) /\ ctl_ok c /\ ctl_item w i c x) its.
Proof.
  intros k f v. induction order as [|i r IH]; intros w mem m u w' mem' ds its u' L H.
  - cbn [route_each] in H. inversion H; subst. auto.
  - rewrite route_each_cons in H. inv_bind H. apply get_lookup in E. rename a into e. destruct (accept_msg _ _ _ _); eauto.
    inv_bind H. inv_bind H. inv_bind H. inversion H; subst; clear H.
    destruct (deliver_spec _ _ _ _ _ _ _ _ _ _ _ E0 E) as (R & _ & C & N & T & _).
    assert (L0 : logs_ok w0) by (eapply logs_routed; eauto).
    pose proof (ctls_routed _ (nested_routed _ _ _) _ _ _ _ _ E1) as R1.
    destruct (ctls_items _ _ _ _ _ _ _ _ L0 C E1) as [I1 _]. assert (R2 : routed w w1) by (eapply routed_trans; eauto).
    apply Forall_app. split.
    + destruct (is_log e) eqn:G. 2:{ destruct (N eq_refl) as [-> _]. inversion I1; auto. }
      apply Forall_forall. intros x X. assert (Q : exists c, In c l /\ ctl_item w0 i c x).
      { clear - I1 X. induction I1; [destruct X|]. destruct X as [<-|X]; [exists x0; cbn; auto|]. destruct (IHI1 X) as (c & A & B). exists c; cbn; auto. }
      destruct Q as (c & Q1 & ds' & Q2 & Q3 & Q4). exists i, c. cbn [map]. split; [left; auto|]. split; [congruence|].
      rewrite Forall_forall in C. split; auto. exists ds'. split; auto. split; auto. rewrite Q3, (ro_order _ _ R). apply routed_accepts; auto.
    + assert (L1 : logs_ok w1) by (eapply logs_routed; eauto). eapply Forall_impl; [|eapply IH; eauto]. cbn [map].
      intros x (j & c & A & B & C' & ds' & D1 & D2 & D3). exists j, c. split; [right; auto|]. split.
      * intros ej EJ. pose proof (ro_ep _ _ R2 j) as X. rewrite EJ in X. destruct (lookup w1 j) as [e1|]; [|destruct X].
        rewrite <- (same_log _ _ (se_kind _ _ X)). apply B; auto.
      * split; auto. exists ds'. split; auto. split; auto. rewrite D2, (ro_order _ _ R2). apply routed_accepts; auto.
Qed.

Lemma route_items : forall k f v w mem m w' mem' ds its, logs_ok w ->
  route (Datatypes.S (Datatypes.S k)) f v w mem m = Ok (w', mem', ds, its) ->
  Forall (fun x => exists i c, In i (map dl_to ds) /\ (forall e, lookup w i = Some e -> is_log e = true) /\ ctl_ok c /\ ctl_item w i c x) its.
Proof. intros k f v w mem m w' mem' ds its L H. rewrite route_S in H. inv_bind H. inversion H; subst. eapply each_items; eauto. Qed.

(* ---- bytes -------------------------------------------------------------------------------------------------- *)

(* a ULog logger: the one kind of endpoint that changes the message *)
Definition ep_ulog (e : ep) : bool :=
  match ep_kind e with
  | KLog (LFile _ b) => is_ulog b
  | KLog (LAuto a) => match a_inner a with Some (_, b) => is_ulog b | None => false end
  | _ => false
  end.
Definition ulog_at (w : world) (i : nat) : Prop := exists e, lookup w i = Some e /\ ep_ulog e = true.

Lemma deliver_mem : forall f v w i e mem m w' mem' d cs, deliver f v w i e mem m = Ok (w', mem', d, cs) ->
  ep_ulog e = false -> mem' = mem.
Proof.
  intros f v w i e mem m w' mem' d cs H U. unfold deliver in H. inv_bind H. inv_bind H.
  assert (X : l0 = mem).
  { pose proof (write_same _ _ _ _ _ _ _ _ _ _ _ _ _ E0) as (_ & _ & _ & N & _). unfold is_log in N. unfold ep_ulog in U. unfold write_ep in E0.
    destruct (ep_kind e) as [bd cu tm|conf peer tm|retry vl|[g b|aa]] eqn:K; try (apply N; reflexivity).
    - inv_bind E0. apply mem_lwrite in E1. inversion E0; subst. apply E1; auto.
    - inv_bind E0. inversion E0; subst. clear E0. unfold auto_write in E1. destruct (a_inner aa) as [[g b]|].
      + inv_bind E1. apply mem_lwrite in E0. inversion E1; subst. apply E0; auto.
      + destruct (negb _). { inversion E1; subst; auto. } inv_bind E1.
        destruct (_ =? 12). { destruct (ask_bytes _ _ _). inversion E1; subst; auto. }
        destruct (_ =? 3); inversion E1; subst; auto. }
  destruct (if _ =? - EAGAIN then _ else _) as [[y2 e2] rq]. inversion H; subst; auto.
Qed.

(* up to the first ULog logger every endpoint is handed the original bytes *)
Lemma each_bytes : forall k f v order w mem m u w' mem' ds its u', logs_ok w -> NoDup order ->
  route_each (nested (Datatypes.S k) f v) f v w order mem m u = Ok (w', mem', ds, its, u') ->
  forall d pre post, In d ds -> order = pre ++ dl_to d :: post -> (forall j, In j pre -> ~ ulog_at w j) ->
  slice mem 0 (m_len m) = Ok (dl_bytes d).
Proof.
  intros k f v. induction order as [|i r IH]; intros w mem m u w' mem' ds its u' L ND H d pre post I O U.
  - destruct pre; discriminate.
  - rewrite route_each_cons in H. inv_bind H. apply get_lookup in E. rename a into e.
    pose proof (each_spec _ f v (nested_routed (Datatypes.S k) f v)) as ES. inversion ND as [|? ? NI ND']; subst.
    assert (TO : forall w0 mem0 u0 w1 mem1 ds1 its1 u1, route_each (nested (Datatypes.S k) f v) f v w0 r mem0 m u0 = Ok (w1, mem1, ds1, its1, u1) ->
             In d ds1 -> pre <> [] /\ exists pre', pre = i :: pre' /\ r = pre' ++ dl_to d :: post).
    { intros w0 mem0 u0 w1 mem1 ds1 its1 u1 X J. apply ES in X. destruct X as (_ & _ & T & _).
      assert (J' : In (dl_to d) r). { apply (in_map dl_to) in J. rewrite T in J. apply filter_In in J. apply J. }
      destruct pre as [|p pre]; cbn [app] in O; inversion O; subst; [contradiction|]. split; [discriminate|]. exists pre. auto. }
    destruct (accept_msg _ _ _ _).
    + inv_bind H. inv_bind H. inv_bind H. inversion H; subst; clear H.
      destruct (deliver_spec _ _ _ _ _ _ _ _ _ _ _ E0 E) as (R & _ & C & N & T & B & OT). destruct I as [<-|I]; [exact B|].
      destruct (TO _ _ _ _ _ _ _ _ E2 I) as (_ & pre' & -> & O').
      assert (L0 : logs_ok w0) by (eapply logs_routed; eauto).
      destruct (ctls_items _ _ _ _ _ _ _ _ L0 C E1) as [_ KL].
      pose proof (ctls_routed _ (nested_routed _ _ _) _ _ _ _ _ E1) as R1. assert (R2 : routed w w1) by (eapply routed_trans; eauto).
      assert (UE : ep_ulog e = false). { destruct (ep_ulog e) eqn:X; auto. exfalso. apply (U i); [left; auto|]. exists e. auto. }
      apply deliver_mem in E0; auto. subst l0. eapply IH; [|exact ND'|exact E2|exact I|exact O'|].
      * eapply logs_routed; eauto.
      * intros j J (ej & J1 & J2). apply (U j); [right; auto|]. assert (NE : j <> i). { intros ->. apply NI. rewrite O'. apply in_or_app; auto. }
        assert (LG : is_log ej = true). { unfold ep_ulog in J2. unfold is_log. destruct (ep_kind ej); auto; discriminate. }
        pose proof (ro_ep _ _ R2 j) as X. rewrite J1 in X. destruct (lookup w j) as [e0|] eqn:J0; [|destruct X].
        rewrite <- (OT j NE) in J0. rewrite (same_log _ _ (se_kind _ _ X)) in LG.
        specialize (KL j e0 J0 LG). exists ej. split; auto. rewrite <- (OT j NE). congruence.
    + destruct (TO _ _ _ _ _ _ _ _ H I) as (_ & pre' & -> & O'). eapply IH; [exact L|exact ND'|exact H|exact I|exact O'|]. intros j J. apply U. right; auto.
    + destruct (TO _ _ _ _ _ _ _ _ H I) as (_ & pre' & -> & O'). eapply IH; [exact L|exact ND'|exact H|exact I|exact O'|]. intros j J. apply U. right; auto.
Qed.

Lemma route_bytes : forall k f v w mem m w' mem' ds its, logs_ok w -> NoDup (w_order w) ->
  route (Datatypes.S (Datatypes.S k)) f v w mem m = Ok (w', mem', ds, its) ->
  forall d pre post, In d ds -> w_order w = pre ++ dl_to d :: post -> (forall j, In j pre -> ~ ulog_at w j) ->
  slice mem 0 (m_len m) = Ok (dl_bytes d).
Proof.
  intros k f v w mem m w' mem' ds its L ND H d pre post I O U. rewrite route_S in H. inv_bind H. inversion H; subst.
  eapply each_bytes; [exact L|exact ND|exact E|exact I|exact O|exact U].
Qed.

(* ---- the counter ---------------------------------------------------------------------------------------------- *)

(* no endpoint accepts or filters the message *)
Definition unroutable (w : world) (m : minfo) : bool := forallb (rejects w m) (w_order w).
Definition ctl_lost (w : world) (x : item) : bool := match x with ICtl _ _ m _ => unroutable w m | _ => false end.
Definition b2z (b : bool) : Z := if b then 1 else 0.
Definition lost_count (w : world) (its : list item) : Z := Z.of_nat (length (filter (ctl_lost w) its)).

Lemma routed_unroutable : forall w w' m, routed w w' -> unroutable w' m = unroutable w m.
Proof. intros. unfold unroutable. rewrite (ro_order _ _ H). apply routed_rejects; auto. Qed.
Lemma routed_lost : forall w w' its, routed w w' -> lost_count w' its = lost_count w its.
Proof.
  intros. unfold lost_count. f_equal. f_equal. apply filter_ext. intros x. destruct x; cbn; auto. apply routed_unroutable; auto.
Qed.
Lemma lost_app : forall w a b, lost_count w (a ++ b) = lost_count w a + lost_count w b.
Proof. intros. unfold lost_count. rewrite filter_app, app_length. lia. Qed.

Lemma deliver_unknown : forall f v w i e mem m w' mem' d cs, deliver f v w i e mem m = Ok (w', mem', d, cs) -> w_unknown w' = w_unknown w.
Proof.
  intros f v w i e mem m w' mem' d cs H. unfold deliver in H. inv_bind H. inv_bind H.
  destruct (if _ =? - EAGAIN then _ else _) as [[y2 e2] rq]. destruct (z =? - EPIPE); inversion H; subst; reflexivity.
Qed.

Lemma u32_add : forall a b c, u32 (u32 (a + b) + c) = u32 (a + (b + c)).
Proof. intros. unfold u32. rewrite Zplus_mod_idemp_l. f_equal. lia. Qed.
Lemma u32_idem : forall a, u32 (u32 a) = u32 a.
Proof. intros. unfold u32. apply Z.mod_mod. lia. Qed.

Lemma each_unknown0 : forall f v order sub w mem m u w' mem' ds its u', logs_ok w -> from_log m ->
  route_each sub f v w order mem m u = Ok (w', mem', ds, its, u') -> w_unknown w' = w_unknown w.
Proof.
  intros f v. induction order as [|i r IH]; intros sub w mem m u w' mem' ds its u' L F H.
  - cbn [route_each] in H. inversion H; subst; auto.
  - rewrite route_each_cons in H. inv_bind H. apply get_lookup in E. rename a into e. destruct (accept_msg _ _ _ _) eqn:A; eauto.
    inv_bind H. inv_bind H. inv_bind H. inversion H; subst; clear H.
    assert (NL : is_log e = false).
    { destruct (is_log e) eqn:X; auto. rewrite log_rejects in A; auto. discriminate. eapply L; eauto. }
    destruct (deliver_spec _ _ _ _ _ _ _ _ _ _ _ E0 E) as (R & _ & C & N & _). destruct (N NL) as [-> _].
    cbn [route_ctls] in E1. inversion E1; subst. rewrite (IH _ _ _ _ _ _ _ _ _ _ (logs_routed _ _ R L) F E2). eapply deliver_unknown; eauto.
Qed.
Lemma nested_unknown : forall k f v w c w' ds its, logs_ok w -> ctl_ok c -> nested (Datatypes.S k) f v w c = Ok (w', ds, its) ->
  its = [] /\ w_unknown w' = if unroutable w (snd c) then u32 (w_unknown w + 1) else w_unknown w.
Proof.
  intros k f v w c w' ds its L C H. unfold nested in H. inv_bind H. inversion H; subst; clear H.
  split. { eapply (proj2 (route_from_log k f v w (fst c) (snd c) L (ctl_from _ C))); eauto. }
  rewrite route_S in E. inv_bind E. destruct (each_spec _ _ _ (nested_routed k f v) _ _ _ _ _ _ _ _ _ _ E0) as (_ & _ & _ & U & _).
  apply each_unknown0 in E0; auto using ctl_from. inversion E; subst. cbn [andb]. unfold unroutable.
  destruct (forallb _ _); cbn; congruence.
Qed.
Lemma ctls_unknown : forall k f v cs w i w' its, logs_ok w -> Forall ctl_ok cs -> u32 (w_unknown w) = w_unknown w ->
  route_ctls (nested (Datatypes.S k) f v) w i cs = Ok (w', its) -> w_unknown w' = u32 (w_unknown w + lost_count w its).
Proof.
  intros k f v. induction cs as [|c cs IH]; intros w i w' its L F U H; cbn [route_ctls] in H.
  - inversion H; subst. unfold lost_count. cbn. rewrite Z.add_0_r. auto.
  - inv_bind H. inv_bind H. inversion H; subst; clear H. inversion F; subst.
    pose proof (nested_routed _ _ _ _ _ _ _ _ E) as R. destruct (nested_unknown _ _ _ _ _ _ _ _ L H1 E) as [-> N].
    assert (L1 : logs_ok w0) by (eapply logs_routed; eauto). cbn [app].
    assert (U0 : u32 (w_unknown w0) = w_unknown w0) by (rewrite N; destruct (unroutable _ _); auto using u32_idem).
    rewrite (IH _ _ _ _ L1 H2 U0 E0), N. rewrite (routed_lost _ _ _ R).
    match goal with |- context [lost_count w (ICtl i (fst c) (snd c) ?a :: ?b)] =>
      change (lost_count w (ICtl i (fst c) (snd c) a :: b)) with (lost_count w ([ICtl i (fst c) (snd c) a] ++ b)) end.
    rewrite lost_app.
    assert (X : forall a, lost_count w [ICtl i (fst c) (snd c) a] = b2z (unroutable w (snd c))).
    { intros a. unfold lost_count. cbn [filter ctl_lost]. destruct (unroutable w (snd c)); reflexivity. }
    rewrite X. destruct (unroutable w (snd c)); cbn [b2z]; rewrite ?Z.add_0_l; auto. apply u32_add.
Qed.
Lemma each_unknown : forall k f v order w mem m u w' mem' ds its u', logs_ok w -> u32 (w_unknown w) = w_unknown w ->
  route_each (nested (Datatypes.S k) f v) f v w order mem m u = Ok (w', mem', ds, its, u') ->
  w_unknown w' = u32 (w_unknown w + lost_count w its).
Proof.
  intros k f v. induction order as [|i r IH]; intros w mem m u w' mem' ds its u' L U H.
  - cbn [route_each] in H. inversion H; subst. unfold lost_count. cbn. rewrite Z.add_0_r. auto.
  - rewrite route_each_cons in H. inv_bind H. apply get_lookup in E. rename a into e. destruct (accept_msg _ _ _ _) eqn:A; eauto.
    inv_bind H. inv_bind H. inv_bind H. inversion H; subst; clear H.
    destruct (deliver_spec _ _ _ _ _ _ _ _ _ _ _ E0 E) as (R & _ & C & _). pose proof (deliver_unknown _ _ _ _ _ _ _ _ _ _ _ E0) as D.
    assert (L0 : logs_ok w0) by (eapply logs_routed; eauto). rewrite <- D in U.
    pose proof (ctls_routed _ (nested_routed _ _ _) _ _ _ _ _ E1) as R1.
    pose proof (ctls_unknown _ _ _ _ _ _ _ _ L0 C U E1) as K. assert (L1 : logs_ok w1) by (eapply logs_routed; eauto).
    assert (U1 : u32 (w_unknown w1) = w_unknown w1) by (rewrite K; apply u32_idem).
    rewrite (IH _ _ _ _ _ _ _ _ _ L1 U1 E2), K, D, (routed_lost _ _ _ R), (routed_lost _ _ _ (routed_trans _ _ _ R R1)), lost_app. apply u32_add.
Qed.
Lemma route_unknown : forall k f v w mem m w' mem' ds its, logs_ok w -> u32 (w_unknown w) = w_unknown w ->
  route (Datatypes.S (Datatypes.S k)) f v w mem m = Ok (w', mem', ds, its) ->
  w_unknown w' = u32 (w_unknown w + b2z (unroutable w m) + lost_count w its).
Proof.
  intros k f v w mem m w' mem' ds its L U H. rewrite route_S in H. inv_bind H.
  destruct (each_spec _ _ _ (nested_routed _ f v) _ _ _ _ _ _ _ _ _ _ E) as (_ & _ & _ & B & _). cbn [andb] in B.
  apply each_unknown in E; auto. inversion H; subst; clear H. unfold unroutable. destruct (forallb _ _); cbn [b2z].
  - cbn [w_unknown set_unknown]. rewrite E, u32_add. f_equal. lia.
  - rewrite E. f_equal. lia.
Qed.
