From Verif Require Import Base Timers.

(* the heap [h] holds, starting at [p], the list [l] of (address, marked for removal) *)
Fixpoint chain (h : theap) (p : option nat) (l : list (nat * bool)) : Prop :=
  match l with
  | [] => p = None
  | (a, b) :: r => p = Some a /\ exists n, h a = Some (mkTnode n b) /\ chain h n r
  end.

Lemma h_set_eq : forall h a v, h_set h a v a = v.
Proof. intros. unfold h_set. rewrite Nat.eqb_refl. reflexivity. Qed.
Lemma h_set_ne : forall h a v b, b <> a -> h_set h a v b = h b.
Proof. intros. unfold h_set. destruct (Nat.eqb_spec b a); congruence. Qed.

Lemma chain_ext : forall l h h' p, (forall a, In a (map fst l) -> h' a = h a) -> chain h p l -> chain h' p l.
Proof.
  induction l as [|[a b] l IH]; intros h h' p E H; cbn in *; auto.
  destruct H as (-> & n & Ha & Hr). split; auto. exists n. split. { rewrite E; auto. }
  apply IH with h; auto.
Qed.

Lemma chain_fun : forall l l' h p, chain h p l -> chain h p l' -> l = l'.
Proof.
  induction l as [|[a b] l IH]; intros [|[a' b'] l'] h p; cbn; intros H H'.
  - auto.
  - destruct H' as (X & _). congruence.
  - destruct H as (X & _). congruence.
  - destruct H as (-> & n & Ha & Hr), H' as (E & n' & Ha' & Hr'). inversion E; subst a'.
    rewrite Ha in Ha'. inversion Ha'; subst. f_equal. eauto.
Qed.

Definition kept (l : list (nat * bool)) : list (nat * bool) := filter (fun t => negb (snd t)) l.
Definition removed (l : list (nat * bool)) : list nat := map fst (filter snd l).

Lemma removed_incl : forall l a, In a (removed l) -> In a (map fst l).
Proof. intros l a H. unfold removed in H. apply in_map_iff in H. destruct H as (t & <- & H). apply filter_In in H. apply in_map. tauto. Qed.
Lemma kept_incl : forall l a, In a (map fst (kept l)) -> In a (map fst l).
Proof. intros l a H. apply in_map_iff in H. destruct H as (t & <- & H). apply filter_In in H. apply in_map. tauto. Qed.

Lemma kept_removed_disjoint : forall l a, NoDup (map fst l) -> In a (removed l) -> ~ In a (map fst (kept l)).
Proof.
  induction l as [|[x b] l IH]; intros a ND; cbn in *; auto. inversion ND; subst.
  destruct b; cbn.
  - intros [->|H] K; [apply kept_incl in K; auto|]. eapply IH; eauto.
  - intros H [->|K]; [apply removed_incl in H; auto|]. eapply IH; eauto.
Qed.

Lemma del_front_spec : forall l h p fr fuel, (length l < fuel)%nat -> NoDup (map fst l) -> chain h p l ->
  exists h' p' pre suf,
    del_front fuel h p fr = Ok (h', p', fr ++ map fst pre) /\ l = pre ++ suf /\
    Forall (fun t => snd t = true) pre /\
    match suf with [] => True | t :: _ => snd t = false end /\
    chain h' p' suf /\
    (forall a, In a (map fst pre) -> h' a = None) /\ (forall a, ~ In a (map fst pre) -> h' a = h a).
Proof.
  induction l as [|[a b] l IH]; intros h p fr fuel L ND C; destruct fuel as [|fuel]; cbn in L; try lia.
  - cbn in C. subst p. exists h, None, [], []. cbn. rewrite app_nil_r.
    repeat split; auto. intros ? [].
  - cbn in C. destruct C as (-> & n & Ha & Hr). cbn [del_front]. rewrite Ha. cbn [tn_remove tn_next].
    inversion ND; subst. destruct b.
    + destruct (IH (h_set h a None) n (fr ++ [a]) fuel) as (h' & p' & pre & suf & E & EL & F & SF & CH & FR & UN); auto; try lia.
      { apply chain_ext with h; auto. intros x Hx. apply h_set_ne. intros ->. auto. }
      exists h', p', ((a, true) :: pre), suf. rewrite E, <- app_assoc. cbn.
      split; auto. split; [congruence|]. split; [constructor; auto|]. split; auto. split; auto. split.
      * intros x [<-|Hx]; auto. rewrite UN. { apply h_set_eq. }
        intros X. apply H1. rewrite EL, map_app. apply in_or_app; auto.
      * intros x Hx. rewrite UN by tauto. apply h_set_ne. intuition.
    + exists h, (Some a), [], ((a, false) :: l). rewrite app_nil_r. cbn.
      repeat split; auto. { exists n; auto. } intros ? [].
Qed.

Lemma del_rest_spec : forall l h prev q fr fuel, (length l < fuel)%nat ->
  NoDup (prev :: map fst l) -> h prev = Some (mkTnode q false) -> chain h q l ->
  exists h',
    del_rest fuel h prev q fr = Ok (h', fr ++ removed l) /\
    chain h' (Some prev) ((prev, false) :: kept l) /\
    (forall a, In a (removed l) -> h' a = None) /\
    (forall a, ~ In a (prev :: map fst l) -> h' a = h a).
Proof.
  induction l as [|[c b] l IH]; intros h prev q fr fuel L ND HP C; destruct fuel as [|fuel]; cbn in L; try lia.
  - cbn in C. subst q. exists h. cbn. rewrite app_nil_r. repeat split; eauto. intros ? [].
  - cbn in C. destruct C as (-> & n & Hc & Hr). cbn [del_rest]. rewrite Hc. cbn [tn_remove tn_next].
    inversion ND as [|? ? N1 N2]; subst. inversion N2 as [|? ? N3 N4]; subst. cbn in N1.
    destruct b.
    + rewrite HP. cbn [tn_remove].
      set (h1 := h_set (h_set h prev (Some (mkTnode n false))) c None).
      destruct (IH h1 prev n (fr ++ [c]) fuel) as (h' & E & CH & FR & UN); try lia.
      * constructor; auto.
      * unfold h1. rewrite h_set_ne by intuition. apply h_set_eq.
      * apply chain_ext with h; auto. intros x Hx. unfold h1. rewrite h_set_ne, h_set_ne; auto; intros ->; auto.
      * exists h'. rewrite E, <- app_assoc. cbn. split; auto. split; auto. split.
        -- intros x [<-|Hx]; [|apply FR; auto]. rewrite UN. { unfold h1. apply h_set_eq. }
           cbn. intros [X|X]; intuition.
        -- intros x Hx. rewrite UN by (cbn in *; tauto). unfold h1. rewrite h_set_ne, h_set_ne; intuition.
    + destruct (IH h c n fr fuel) as (h' & E & CH & FR & UN); try lia; auto.
      exists h'. rewrite E. cbn. split; auto. split; [|split].
      * split; auto. exists (Some c). split. { rewrite UN; [exact HP|]. cbn. intuition. }
        cbn in CH. destruct CH as (_ & n' & X & Y). split; eauto.
      * intros x Hx. apply FR. auto.
      * intros x Hx. apply UN. cbn in *. tauto.
Qed.

Lemma kept_all_removed : forall pre, Forall (fun t => snd t = true) pre -> kept pre = [] /\ removed pre = map fst pre.
Proof.
  induction pre as [|[a b] pre IH]; intros F; cbn; auto. inversion F; subst. cbn in H1. subst b. cbn.
  destruct IH as [E1 E2]; auto. unfold kept, removed in *. cbn. rewrite E1, E2. auto.
Qed.

Lemma kept_app : forall a b, kept (a ++ b) = kept a ++ kept b.
Proof. intros. apply filter_app. Qed.
Lemma removed_app : forall a b, removed (a ++ b) = removed a ++ removed b.
Proof. intros. unfold removed. rewrite filter_app, map_app. auto. Qed.

Lemma del_timeouts_spec : forall l h p fuel, (length l < fuel)%nat -> NoDup (map fst l) -> chain h p l ->
  exists h' p',
    del_timeouts_h fuel h p = Ok (h', p', removed l) /\
    chain h' p' (kept l) /\
    (forall a, In a (removed l) -> h' a = None) /\
    (forall a, ~ In a (map fst l) -> h' a = h a).
Proof.
  intros l h p fuel L ND C. unfold del_timeouts_h.
  destruct (del_front_spec l h p [] fuel L ND C) as (h1 & p1 & pre & suf & E & -> & F & SF & CH & FR & UN).
  rewrite E. cbn [bind]. rewrite app_nil_l.
  destruct (kept_all_removed _ F) as [K1 K2].
  rewrite kept_app, removed_app, K1, K2. rewrite map_app in ND |- *. rewrite app_nil_l.
  destruct suf as [|[a b] suf].
  - cbn in CH. subst p1. exists h1, None. cbn. rewrite app_nil_r. repeat split; auto.

  - cbn in SF. subst b. cbn in CH. destruct CH as (-> & n & Ha & Hr). rewrite Ha. cbn [tn_next].
    cbn in ND. assert (ND2 := ND). apply NoDup_remove in ND2. destruct ND2 as [_ NA].
    destruct (del_rest_spec suf h1 a n (map fst pre) fuel) as (h' & E' & CH' & FR' & UN').
    + rewrite app_length in L. cbn in L. lia.
    + clear - ND. induction pre as [|t pre IH]; cbn in *; auto. inversion ND; auto.
    + auto.
    + auto.
    + rewrite E'. cbn [bind]. exists h', (Some a). split; auto. split; auto.
      split.
      * intros x Hx. apply in_app_or in Hx. destruct Hx as [Hx|Hx]; [|apply FR'; auto].
        rewrite UN'; auto. intros X.
        clear - ND Hx X. induction pre as [|t pre IH]; cbn in *; [destruct Hx|].
        inversion ND; subst. destruct Hx as [Hx|Hx]; auto. subst x. apply H1. apply in_or_app. right. auto.
      * intros x Hx. rewrite UN'. { apply UN. intros X. apply Hx. apply in_or_app; auto. }
        intros X. apply Hx. apply in_or_app. right. auto.
Qed.

Lemma add_timeout_chain : forall l h p a, chain h p l -> h a = None ->
  chain (fst (add_timeout_h h p a)) (snd (add_timeout_h h p a)) ((a, false) :: l).
Proof.
  intros l h p a C E. cbn. split; auto. exists p. split. { apply h_set_eq. }
  apply chain_ext with h; auto. intros x Hx. apply h_set_ne. intros ->.
  clear - C E Hx. revert p C. induction l as [|[y b] l IH]; intros p C; cbn in *; [destruct Hx|].
  destruct C as (-> & n & Ha & Hr). destruct Hx as [->|Hx]; [congruence|eauto].
Qed.

Definition mark (a : nat) (l : list (nat * bool)) : list (nat * bool) :=
  map (fun t => (fst t, snd t || Nat.eqb (fst t) a)) l.

Lemma mark_fst : forall a l, map fst (mark a l) = map fst l.
Proof. intros. unfold mark. rewrite map_map. apply map_ext. auto. Qed.

Lemma mark_notin : forall a l, ~ In a (map fst l) -> mark a l = l.
Proof.
  induction l as [|[x b] l IH]; intros H; cbn in *; auto. f_equal.
  - f_equal. destruct (Nat.eqb_spec x a); [exfalso; auto|]. apply orb_false_r.
  - apply IH. auto.
Qed.

Lemma del_timeout_chain : forall l h p a, NoDup (map fst l) -> chain h p l -> In a (map fst l) ->
  exists h', del_timeout_h h a = Ok h' /\ chain h' p (mark a l).
Proof.
  induction l as [|[x b] l IH]; intros h p a ND C I; cbn in I; [destruct I|].
  cbn in C. destruct C as (-> & n & Hx & Hr). inversion ND; subst.
  destruct (Nat.eq_dec x a) as [->|NE].
  - unfold del_timeout_h. rewrite Hx. eexists. split; [reflexivity|]. cbn. split; auto.
    exists n. rewrite h_set_eq, Nat.eqb_refl, orb_true_r. split; auto.
    fold (mark a l). rewrite mark_notin by auto. apply chain_ext with h; auto. intros y Hy. apply h_set_ne. intros ->; auto.
  - destruct I as [I|I]; [congruence|].
    destruct (IH h n a) as (h' & E & C'); auto.
    exists h'. split; auto. cbn. split; auto. exists n.
    destruct (Nat.eqb_spec x a); [congruence|]. rewrite orb_false_r. split; auto.
    unfold del_timeout_h in E. destruct (h a); [|discriminate]. inversion E. subst h'. rewrite h_set_ne; auto.
Qed.
