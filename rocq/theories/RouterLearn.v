(* Lemmas on learning an address in a group. *)
From Verif Require Import Base Mav SpecFrame Frame FrameProofs FrameRefine FrameLink Dedup SpecAccept Accept AcceptProofs Names Sys LogFile ULog Loggers LogInv LogStep RouterCtl Router RouterRoute RouterRoute2 RouterSetup RouterActs RouterInv.

Definition with_id (e : ep) (id : Z) : ep := set_ids e (ep_ids e ++ [id]).

Definition taught_ep (id : Z) (e e' : ep) : Prop := e' = e \/ (e' = with_id e id /\ ~ In id (ep_ids e)).
Definition taught_opt (id : Z) (a b : option ep) : Prop :=
  match a, b with Some e, Some e' => taught_ep id e e' | None, None => True | _, _ => False end.
Record taught (id : Z) (w w' : world) : Prop := mkTaught {
  ta_w : w' = set_eps w (w_eps w');
  ta_len : length (w_eps w') = length (w_eps w);
  ta_ep : forall k, taught_opt id (lookup w k) (lookup w' k) }.
Definition mark (id : Z) (w : world) (k : nat) : Prop := exists e, lookup w k = Some e /\ In id (ep_ids e).

Lemma taught_refl : forall id w, taught id w w.
Proof. intros. split; auto. { destruct w; auto. } intros k. destruct (lookup w k); cbn; auto. left; auto. Qed.
Lemma taught_ep_trans : forall id a b c, taught_ep id a b -> taught_ep id b c -> taught_ep id a c.
Proof.
  intros id a b c [->|[-> N]] [->|[-> M]]; auto; try (right; auto; fail); try (left; auto; fail).
  exfalso. apply M. cbn. apply in_or_app. right; left; auto.
Qed.
Lemma taught_trans : forall id a b c, taught id a b -> taught id b c -> taught id a c.
Proof.
  intros id a b c [A1 A2 A3] [B1 B2 B3]. split; [rewrite B1, A1; reflexivity|congruence|].
  intros k. specialize (A3 k). specialize (B3 k). destruct (lookup a k), (lookup b k), (lookup c k); cbn in *; try tauto. eapply taught_ep_trans; eauto.
Qed.
Lemma taught_lookup : forall id w w' k e, taught id w w' -> lookup w k = Some e -> exists e', lookup w' k = Some e' /\ taught_ep id e e'.
Proof. intros id w w' k e T L. pose proof (ta_ep _ _ _ T k) as X. rewrite L in X. destruct (lookup w' k); cbn in X; [eauto|tauto]. Qed.
Lemma taught_lookup_rev : forall id w w' k e, taught id w w' -> lookup w' k = Some e -> exists e', lookup w k = Some e' /\ taught_ep id e' e.
Proof. intros id w w' k e T L. pose proof (ta_ep _ _ _ T k) as X. rewrite L in X. destruct (lookup w k); cbn in X; [eauto|tauto]. Qed.
Lemma taught_ep_fields : forall id e e', taught_ep id e e' ->
  ep_group e' = ep_group e /\ ep_members e' = ep_members e /\ ep_filters e' = ep_filters e /\ ep_kind e' = ep_kind e /\ ep_rx e' = ep_rx e /\
  ep_fd e' = ep_fd e /\ ep_poll e' = ep_poll e /\ (In id (ep_ids e) -> In id (ep_ids e')).
Proof. intros id e e' [->|[-> N]]; repeat split; auto. intros H. cbn. apply in_or_app; auto. Qed.
Lemma taught_mark : forall id w w' k, taught id w w' -> mark id w k -> mark id w' k.
Proof.
  intros id w w' k T (e & L & I). destruct (taught_lookup _ _ _ _ _ T L) as (e' & L' & X). exists e'. split; auto. apply (taught_ep_fields _ _ _ X). auto.
Qed.

(* the members of an endpoint are in its group *)
Definition mem_rel (w : world) : Prop := forall i e j, lookup w i = Some e -> In j (ep_members e) -> exists e', lookup w j = Some e' /\ grouped e e'.
Lemma taught_grouped : forall id a a' b b', taught_ep id a a' -> taught_ep id b b' -> grouped a' b' <-> grouped a b.
Proof.
  intros id a a' b b' A B. apply taught_ep_fields in A, B. unfold grouped. destruct A as (-> & _), B as (-> & _). tauto.
Qed.
Lemma taught_rel : forall id w w', taught id w w' -> mem_rel w -> mem_rel w'.
Proof.
  intros id w w' T M i e j L J. destruct (taught_lookup_rev _ _ _ _ _ T L) as (e0 & L0 & X).
  pose proof (taught_ep_fields _ _ _ X) as (_ & MM & _). rewrite MM in J. destruct (M i e0 j L0 J) as (e1 & L1 & G).
  destruct (taught_lookup _ _ _ _ _ T L1) as (e1' & L1' & Y). exists e1'. split; auto. apply (taught_grouped id e0 e e1 e1' X Y). auto.
Qed.

Fixpoint learn_each (k : nat) (id : Z) (w : world) (l : list nat) : res world :=
  match l with
  | [] => Ok w
  | j :: r => let* w := learn k w j id in learn_each k id w r
  end.
Lemma learn_S : forall k w i id, learn (Datatypes.S k) w i id =
  let* e := get w i in
  if contains (ep_ids e) id then Ok w
  else learn_each k id (put w i (with_id e id)) (ep_members e).
Proof.
  intros. cbn [learn]. destruct (get w i) as [e| |]; auto. cbn [bind]. destruct (contains _ _); auto. unfold with_id.
  generalize (put w i (set_ids e (ep_ids e ++ [id]))). induction (ep_members e) as [|j r IH]; intros w1; cbn [learn_each]; auto.
  destruct (learn k w1 j id); cbn [bind]; auto; apply IH.
Qed.

Definition learnt (id : Z) (w : world) (i : nat) (w' : world) : Prop :=
  taught id w w' /\ mark id w' i /\
  (forall k e, lookup w k = Some e -> lookup w' k <> Some e -> k = i \/ exists ei, lookup w i = Some ei /\ grouped ei e) /\
  (~ mark id w i -> forall e j, lookup w i = Some e -> In j (ep_members e) -> mark id w' j).

Lemma taught_put : forall id w i e, lookup w i = Some e -> ~ In id (ep_ids e) -> taught id w (put w i (with_id e id)).
Proof.
  intros id w i e L N. split. { reflexivity. } { cbn. apply set_nth_length. }
  intros k. destruct (Nat.eq_dec i k) as [<-|NE].
  - rewrite (lookup_put_eq w i _ e L), L. right. auto.
  - rewrite lookup_put_neq by auto. destruct (lookup w k); cbn; auto. left; auto.
Qed.

Lemma learn_spec : forall id n w i w', learn n w i id = Ok w' -> mem_rel w -> learnt id w i w'.
Proof.
  intros id. induction n; intros w i w' H M; [discriminate|]. rewrite learn_S in H. inv_bind H. apply get_lookup in E. rename a into e.
  destruct (contains (ep_ids e) id) eqn:C.
  - inversion H; subst. apply contains_In in C. assert (K : mark id w' i) by (exists e; auto).
    split; [apply taught_refl|]. split; auto. split; [intros; contradiction|]. intros X. contradiction.
  - apply contains_notIn in C. pose proof (taught_put id w i e E C) as T1. set (w1 := put w i (with_id e id)) in *.
    assert (L1 : lookup w1 i = Some (with_id e id)) by (apply (lookup_put_eq w i _ e E)).
    assert (EACH : forall l u u', learn_each n id u l = Ok u' -> mem_rel u ->
              taught id u u' /\ (forall j, In j l -> mark id u' j) /\
              (forall k ek, lookup u k = Some ek -> lookup u' k <> Some ek -> exists j, In j l /\ (k = j \/ exists ej, lookup u j = Some ej /\ grouped ej ek))).
    { induction l as [|j r IH]; intros u u' HE MU; cbn [learn_each] in HE.
      - inversion HE; subst. split; [apply taught_refl|]. split; [intros ? []|]. intros; contradiction.
      - inv_bind HE. destruct (IHn _ _ _ E0 MU) as (TA & MA & CA & _). destruct (IH _ _ HE (taught_rel _ _ _ TA MU)) as (TB & MB & CB).
        split; [eapply taught_trans; eauto|]. split.
        { intros q [<-|Q]; auto. eapply taught_mark; eauto. }
        intros k ek LK NK. destruct (taught_lookup _ _ _ _ _ TA LK) as (ek' & LK' & X). destruct X as [->|X].
        + destruct (CB k ek LK' NK) as (q & Q & D). exists q. split; [right; auto|]. destruct D as [->|(eq & LQ & G)]; auto. right.
          destruct (taught_lookup_rev _ _ _ _ _ TA LQ) as (eq0 & LQ0 & XQ). exists eq0. split; auto.
          apply (taught_grouped id eq0 eq ek ek XQ); auto. left; auto.
        + exists j. split; [left; auto|]. apply (CA k ek LK). intros Z0. destruct X as [X N]. assert (Q : ek' = ek) by congruence.
          apply N. assert (HI : In id (ep_ids ek')) by (rewrite X; cbn; apply in_or_app; right; left; auto). rewrite Q in HI. exact HI. }
    destruct (EACH _ _ _ H (taught_rel _ _ _ T1 M)) as (T2 & MK & CH).
    split; [eapply taught_trans; eauto|]. split.
    { eapply taught_mark; eauto. exists (with_id e id). split; auto. cbn. apply in_or_app; right; left; auto. }
    split.
    + intros k ek LK NK. destruct (Nat.eq_dec k i) as [->|NE]; auto. right. exists e. split; auto.
      assert (LK1 : lookup w1 k = Some ek) by (unfold w1; rewrite lookup_put_neq; auto).
      destruct (CH k ek LK1 NK) as (j & J & D). destruct (M i e j E J) as (ej & LJ & G). destruct D as [->|(ej1 & LJ1 & G1)].
      * rewrite LK in LJ. inversion LJ; subst. exact G.
      * destruct (taught_lookup_rev _ _ _ _ _ T1 LJ1) as (ej0 & LJ0 & XJ). rewrite LJ in LJ0. inversion LJ0; subst ej0.
        apply taught_ep_fields in XJ. unfold grouped in *. destruct XJ as (-> & _) in G1. intuition congruence.
    + intros _ e2 j LE J. rewrite E in LE. inversion LE; subst e2. auto.
Qed.

(* in a state that satisfies the invariant *)
Lemma inv_rel : forall w, Inv w -> mem_rel w.
Proof. intros w I i e j L J. apply (i_mem w I i e j L J). Qed.

Lemma grouped_sym : forall a b, grouped a b -> grouped b a.
Proof. unfold grouped. intuition congruence. Qed.
Lemma grouped_trans : forall a b c, grouped a b -> grouped b c -> grouped a c.
Proof. unfold grouped. intuition congruence. Qed.

Lemma mark_dec : forall id w k e, lookup w k = Some e -> {mark id w k} + {~ mark id w k}.
Proof.
  intros. destruct (in_dec Z.eq_dec id (ep_ids e)) as [I|N]. { left. exists e; auto. } right. intros (x & L & X). congruence.
Qed.

(* exactly the endpoint and its group learn the address *)
Lemma learn_exact : forall id n w i w' ei, learn n w i id = Ok w' -> Inv w -> lookup w i = Some ei ->
  taught id w w' /\
  forall k e, lookup w k = Some e -> exists e', lookup w' k = Some e' /\
    ((k = i \/ grouped ei e) -> In id (ep_ids e')) /\
    (~ (k = i \/ grouped ei e) -> e' = e) /\
    (In id (ep_ids ei) -> e' = e).
Proof.
  intros id n w i w' ei H I LI. destruct (learn_spec _ _ _ _ _ H (inv_rel _ I)) as (T & MI & CH & MM). split; auto.
  assert (SAME : In id (ep_ids ei) -> w' = w).
  { intros K. destruct n; [discriminate|]. rewrite learn_S in H. rewrite (lookup_get _ _ _ LI) in H. cbn [bind] in H.
    rewrite (proj2 (contains_In _ _) K) in H. inversion H; auto. }
  intros k e L. destruct (taught_lookup _ _ _ _ _ T L) as (e' & L' & X). exists e'. split; auto. split; [|split].
  - intros G. assert (MK : mark id w' k).
    { destruct (Nat.eq_dec k i) as [->|NE]; auto. destruct G as [?|G]; [contradiction|].
      destruct (mark_dec id w i ei LI) as [K|K].
      - destruct K as (e1 & L1 & K). rewrite LI in L1. inversion L1; subst e1. rewrite (SAME K). exists e. split; auto. rewrite (i_same w I i ei k e LI L G). auto.
      - apply (MM K ei k LI). eapply (i_clique w I); eauto. }
    destruct MK as (q & LQ & Q). congruence.
  - intros N. destruct X as [->|[X NI]]; auto. exfalso.
    assert (D : lookup w' k <> Some e).
    { rewrite L'. intros Z0. assert (Q : e' = e) by congruence. apply NI. rewrite <- Q, X. cbn. apply in_or_app; right; left; auto. }
    destruct (CH k e L D) as [->|(ei2 & LI2 & G)]; [tauto|]. apply N. right. congruence.
  - intros K. rewrite (SAME K) in L'. congruence.
Qed.

Lemma NoDup_snoc : forall (l : list Z) x, NoDup l -> ~ In x l -> NoDup (l ++ [x]).
Proof.
  induction l; intros x N NI; cbn. { repeat constructor; auto. }
  inversion N; subst. constructor. { intros K. apply in_app_or in K. destruct K as [K|[->|[]]]; auto. apply NI. left; auto. }
  apply IHl; auto. intros K. apply NI. right; auto.
Qed.

Lemma learn_inv_world : forall id n w i w' ei, learn n w i id = Ok w' -> Inv w -> lookup w i = Some ei -> is_log ei = false ->
  0 <= id < 65536 -> Inv w'.
Proof.
  intros id n w i w' ei H I LI NL R. destruct (learn_exact _ _ _ _ _ _ H I LI) as [T EX].
  assert (W : w' = set_eps w (w_eps w')) by apply T. split.
  - rewrite W. apply I.
  - intros k K. rewrite W in K. cbn in K. apply (i_alive w I) in K. pose proof (ta_ep _ _ _ T k) as X. destruct (lookup w k), (lookup w' k); cbn in X; congruence || tauto.
  - intros k e L G. destruct (taught_lookup_rev _ _ _ _ _ T L) as (e0 & L0 & X). pose proof (taught_ep_fields _ _ _ X) as (F1 & F2 & F3 & F4 & F5 & F6 & F7 & _).
    assert (G0 : is_log e0 = true) by (unfold is_log in *; rewrite <- F4; auto).
    destruct (i_logs w I k e0 L0 G0) as (A & B & C & D). destruct (EX k e0 L0) as (e1 & L1 & _ & U & _). rewrite L in L1. inversion L1; subst e1.
    assert (E0 : e = e0). { apply U. intros [->|GR]; [congruence|]. destruct GR as [GA GB]. congruence. }
    subst. auto.
  - intros k e j L J. destruct (taught_lookup_rev _ _ _ _ _ T L) as (e0 & L0 & X). pose proof (taught_ep_fields _ _ _ X) as (F1 & F2 & _).
    rewrite F2 in J. destruct (i_mem w I k e0 j L0 J) as (N & ej & LJ & G). split; auto.
    destruct (taught_lookup _ _ _ _ _ T LJ) as (ej' & LJ' & Y). exists ej'. split; auto. apply (taught_grouped id e0 e ej ej' X Y); auto.
  - intros k e j e' L L' N G. destruct (taught_lookup_rev _ _ _ _ _ T L) as (e0 & L0 & X). destruct (taught_lookup_rev _ _ _ _ _ T L') as (e0' & L0' & Y).
    pose proof (taught_ep_fields _ _ _ X) as (F1 & F2 & _). rewrite F2. eapply (i_clique w I); eauto. apply (taught_grouped id e0 e e0' e' X Y); auto.
  - intros k e j e' L L' G. destruct (taught_lookup_rev _ _ _ _ _ T L) as (e0 & L0 & X). destruct (taught_lookup_rev _ _ _ _ _ T L') as (e0' & L0' & Y).
    assert (G0 : grouped e0 e0') by (apply (taught_grouped id e0 e e0' e' X Y); auto).
    pose proof (i_same w I k e0 j e0' L0 L0' G0) as S.
    destruct (EX k e0 L0) as (e1 & L1 & P1 & P2 & _). rewrite L in L1. inversion L1; subst e1.
    destruct (EX j e0' L0') as (e2 & L2 & Q1 & Q2 & _). rewrite L' in L2. inversion L2; subst e2.
    assert (IFF : (k = i \/ grouped ei e0) -> (j = i \/ grouped ei e0')).
    { intros [->|GG]. { right. rewrite LI in L0. inversion L0; subst. auto. } right. eapply grouped_trans; eauto. }
    assert (IFF2 : (j = i \/ grouped ei e0') -> (k = i \/ grouped ei e0)).
    { intros [->|GG]. { right. rewrite LI in L0'. inversion L0'; subst. apply grouped_sym; auto. } right. eapply grouped_trans; eauto using grouped_sym. }
    destruct X as [->|[-> NX]], Y as [->|[-> NY]]; auto.
    + exfalso. assert (D : j = i \/ grouped ei e0').
      { destruct (Nat.eq_dec j i); auto. destruct (list_eq_dec Z.eq_dec (ep_group e0') (ep_group ei)) as [A|A].
        - right. split; auto. destruct G0. congruence.
        - exfalso. assert (Q : with_id e0' id = e0') by (apply Q2; unfold grouped; tauto).
          apply NY. rewrite <- Q. cbn. apply in_or_app; right; left; auto. }
      apply IFF2, P1 in D. apply NY. rewrite S. auto.
    + exfalso. assert (D : k = i \/ grouped ei e0).
      { destruct (Nat.eq_dec k i); auto. destruct (list_eq_dec Z.eq_dec (ep_group e0) (ep_group ei)) as [A|A].
        - right. split; auto. destruct G0. congruence.
        - exfalso. assert (Q : with_id e0 id = e0) by (apply P2; unfold grouped; tauto).
          apply NX. rewrite <- Q. cbn. apply in_or_app; right; left; auto. }
      apply IFF, Q1 in D. apply NX. rewrite <- S. auto.
    + cbn. rewrite S. auto.
  - intros k e L. destruct (taught_lookup_rev _ _ _ _ _ T L) as (e0 & L0 & X). destruct (i_ids w I k e0 L0) as [A B].
    destruct X as [->|[-> NX]]; auto. cbn. split. { apply NoDup_snoc; auto. } apply Forall_app. split; auto.
  - intros k e L. destruct (taught_lookup_rev _ _ _ _ _ T L) as (e0 & L0 & X). apply taught_ep_fields in X. destruct X as (_ & _ & _ & _ & -> & _). eapply (i_rx w I); eauto.
  - rewrite W. apply I.
Qed.
