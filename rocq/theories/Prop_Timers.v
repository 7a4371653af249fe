(* C37 and C39: the timer list. *)
From Verif Require Import Base Timers TimersProofs.

(* ---- C37: timer removal is exact ---------------------------------------------------------- *)

(* Specification: the timers as a list, newest first, each with its "remove me" mark. *)
Inductive timer_op : Type := TAdd (a : nat) | TDel (a : nat) | TSweep.

Definition spec_op (l : list (nat * bool)) (o : timer_op) : list (nat * bool) :=
  match o with
  | TAdd a => (a, false) :: l
  | TDel a => map (fun t => if Nat.eqb (fst t) a then (a, true) else t) l
  | TSweep => filter (fun t => negb (snd t)) l
  end.

(* memory is handed out only when free; a timer is only deleted while it is in the list *)
Definition spec_pre (l : list (nat * bool)) (o : timer_op) : Prop :=
  match o with
  | TAdd a => ~ In a (map fst l)
  | TDel a => In a (map fst l)
  | TSweep => True
  end.

Fixpoint spec_run (l : list (nat * bool)) (os : list timer_op) : option (list (nat * bool)) -> Prop :=
  match os with
  | [] => fun r => r = Some l
  | o :: os => fun r => spec_pre l o /\ spec_run (spec_op l o) os r
  end.

(* Sweeping frees exactly the marked timers, in list order, keeps the others in order, touches no other
   memory and never dereferences a freed node (the result is not UB). *)
Theorem C37_sweep_removes_exactly_marked : forall l h p fuel,
  (length l < fuel)%nat -> NoDup (map fst l) -> chain h p l ->
  exists h' p',
    del_timeouts_h fuel h p = Ok (h', p', map fst (filter snd l)) /\
    chain h' p' (filter (fun t => negb (snd t)) l) /\
    (forall a, In a (map fst (filter snd l)) -> h' a = None) /\
    (forall a, ~ In a (map fst l) -> h' a = h a).
Proof. exact del_timeouts_spec. Qed.

Lemma mark_spec : forall a l, mark a l = map (fun t => if Nat.eqb (fst t) a then (a, true) else t) l.
Proof.
  intros. apply map_ext. intros [x b]. cbn. destruct (Nat.eqb_spec x a).
  - subst. rewrite orb_true_r. reflexivity.
  - rewrite orb_false_r. reflexivity.
Qed.

(* no other timer is allocated *)
Definition only (h : theap) (l : list (nat * bool)) : Prop := forall a, ~ In a (map fst l) -> h a = None.

(* the same operations on the heap *)
Fixpoint heap_run (fuel : nat) (st : theap * option nat) (os : list timer_op) : res (theap * option nat) :=
  match os with
  | [] => Ok st
  | o :: os =>
    let* st' :=
      (let (h, p) := st in
       match o with
       | TAdd a => match h a with None => Ok (add_timeout_h h p a) | Some _ => UB end
       | TDel a => let* h' := del_timeout_h h a in Ok (h', p)
       | TSweep => let* (h', p', _) := del_timeouts_h fuel h p in Ok (h', p')
       end) in
    heap_run fuel st' os
  end.

Lemma filter_len : forall A (f : A -> bool) l, (length (filter f l) <= length l)%nat.
Proof. induction l; cbn; auto. destruct (f a); cbn; lia. Qed.

Lemma filter_fst_nodup : forall (f : nat * bool -> bool) l, NoDup (map fst l) -> NoDup (map fst (filter f l)).
Proof.
  induction l as [|[a b] l IH]; intros ND; cbn; auto. inversion ND; subst.
  destruct (f (a, b)); auto. cbn. constructor; auto. intros X. apply H1.
  apply in_map_iff in X. destruct X as (t & <- & X). apply filter_In in X. apply in_map. tauto.
Qed.

(* Every history of additions, deletions and sweeps behaves like the list specification. *)
Theorem C37_timer_list_refines_list : forall os l h p fuel l',
  NoDup (map fst l) -> chain h p l -> only h l -> (length l + length os < fuel)%nat ->
  spec_run l os (Some l') ->
  exists h' p', heap_run fuel (h, p) os = Ok (h', p') /\ chain h' p' l' /\ only h' l'.
Proof.
  induction os as [|o os IH]; intros l h p fuel l' ND C O L R; cbn in R.
  - inversion R; subst. exists h, p. cbn. auto.
  - destruct R as [P R]. cbn in L. cbn [heap_run]. destruct o as [a|a|]; cbn [spec_pre spec_op] in *.
    + rewrite (O a P). cbn [bind].
      destruct (add_timeout_h h p a) as [h1 p1] eqn:EA.
      pose proof (add_timeout_chain l h p a C (O a P)) as CH. rewrite EA in CH. cbn [fst snd] in CH.
      apply (IH ((a, false) :: l)); auto.
      * cbn. constructor; auto.
      * intros x Hx. cbn in Hx. cbn in EA. inversion EA; subst. rewrite h_set_ne by intuition. apply O. intuition.
      * cbn. lia.
    + destruct (del_timeout_chain l h p a ND C P) as (h1 & E & C1). rewrite E. cbn [bind].
      rewrite mark_spec in C1.
      assert (ME : map fst (map (fun t => if Nat.eqb (fst t) a then (a, true) else t) l) = map fst l).
      { rewrite map_map. apply map_ext. intros [x b]. cbn. destruct (Nat.eqb_spec x a); subst; auto. }
      apply (IH (map (fun t => if Nat.eqb (fst t) a then (a, true) else t) l)); auto.
      * rewrite ME. auto.
      * intros x Hx. rewrite ME in Hx. unfold del_timeout_h in E. destruct (h a); [|discriminate].
        inversion E; subst. rewrite h_set_ne. { apply O; auto. } intros ->; auto.
      * rewrite map_length. lia.
    + destruct (del_timeouts_spec l h p fuel) as (h1 & p1 & E & C1 & F1 & U1); auto; try lia.
      rewrite E. cbn [bind].
      apply (IH (kept l)); auto.
      * apply filter_fst_nodup; auto.
      * intros x Hx. destruct (in_dec Nat.eq_dec x (map fst l)) as [I|I].
        -- apply F1. unfold removed. apply in_map_iff in I. destruct I as ([y b] & <- & I). cbn in *.
           destruct b.
           ++ change y with (fst (y, true)). apply in_map. apply filter_In. auto.
           ++ exfalso. apply Hx. change y with (fst (y, false)). apply in_map. apply filter_In. auto.
        -- rewrite U1; auto.
      * unfold kept. pose proof (filter_len _ (fun t : nat * bool => negb (snd t)) l). lia.
Qed.

(* non-vacuity: five timers, the first, second, fourth removed *)
Example C37_example :
  match heap_run 100 (fun _ => None, None)
          [TAdd 1; TAdd 2; TAdd 3; TAdd 4; TAdd 5; TDel 5; TDel 4; TDel 2; TSweep; TAdd 4; TDel 3; TSweep] with
  | Ok (h, p) => p = Some 4%nat /\ h 4%nat = Some (mkTnode (Some 1%nat) false) /\
                 h 1%nat = Some (mkTnode None false) /\ h 3%nat = None
  | _ => False
  end.
Proof. vm_compute. repeat split. Qed.

(* ---- C39: timer interval encoding ------------------------------------------------------------ *)

Theorem C39_interval_exact : forall msec s ns, 0 <= msec < 4294967296 ->
  mod_timeout_spec msec = (s, ns) ->
  0 <= s /\ 0 <= ns < 1000000000 /\ s * 1000000000 + ns = msec * 1000000 /\
  ((s = 0 /\ ns = 0) <-> msec = 0).
Proof.
  intros msec s ns R E. unfold mod_timeout_spec in E. inversion E; subst; clear E.
  unfold u64. rewrite Z.mod_small by (Z.div_mod_to_equations; lia).
  Z.div_mod_to_equations; lia.
Qed.

Example C39_example : mod_timeout_spec 5250 = (5, 250000000).
Proof. reflexivity. Qed.

Print Assumptions C37_sweep_removes_exactly_marked.
Print Assumptions C37_timer_list_refines_list.
Print Assumptions C39_interval_exact.
