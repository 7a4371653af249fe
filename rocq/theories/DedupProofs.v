From Verif Require Import Base Dedup.
From Coq Require Import Permutation Sorting.Sorted.

Definition consistent (q : list (Z * Z)) (s : list Z) : Prop :=
  NoDup (map snd q) /\ Permutation (map snd q) s.

Lemma set_mem_In : forall h s, set_mem h s = true <-> In h s.
Proof.
  intros. unfold set_mem. rewrite existsb_exists. split.
  - intros (x & H & E). apply Z.eqb_eq in E. subst. auto.
  - intros H. exists h. split; auto. apply Z.eqb_refl.
Qed.

Lemma set_mem_notIn : forall h s, set_mem h s = false <-> ~ In h s.
Proof. intros. rewrite <- set_mem_In. destruct (set_mem h s); split; intros; congruence. Qed.

Lemma set_erase_perm : forall h s l, Permutation (h :: l) s -> NoDup s ->
  exists s', set_erase h s = Ok s' /\ Permutation l s'.
Proof.
  induction s; intros l HP HN.
  - apply Permutation_sym, Permutation_nil_cons in HP. contradiction.
  - cbn [set_erase]. destruct (Z.eqb_spec h a).
    + subst. exists s. split; auto. eapply Permutation_cons_inv; eauto.
    + inversion HN; subst.
      assert (HI : In h s).
      { assert (In h (a :: s)) by (eapply Permutation_in; eauto; left; auto). destruct H; congruence. }
      destruct (in_split _ _ HI) as (s1 & s2 & ->).
      destruct (IHs (s1 ++ s2)) as (s' & E & P'); auto.
      { apply Permutation_middle. }
      rewrite E. cbn [bind]. exists (a :: s'). split; auto.
      rewrite <- P'. apply Permutation_cons_inv with h. rewrite HP.
      rewrite (perm_swap a h). apply perm_skip. apply Permutation_sym, Permutation_middle.
Qed.

(* the suffix of the queue kept by expire *)
Fixpoint keep (ts period : Z) (q : list (Z * Z)) : list (Z * Z) :=
  match q with
  | [] => []
  | (t, h) :: q' => if u32 (t + period) <? ts then keep ts period q' else q
  end.

Lemma expire_ok : forall ts p q s, consistent q s ->
  exists s', expire ts p q s = Ok (keep ts p q, s') /\ consistent (keep ts p q) s'.
Proof.
  induction q as [|[t h] q]; intros s [HN HP].
  - exists s. split; auto. split; auto.
  - cbn [expire keep]. destruct (u32 (t + p) <? ts) eqn:E.
    + cbn [map snd] in *. inversion HN; subst.
      destruct (set_erase_perm h s (map snd q) HP) as (s' & E' & P').
      { eapply Permutation_NoDup; eauto. }
      rewrite E'. cbn [bind]. apply IHq. split; auto.
    + exists s. split; auto. split; auto.
Qed.

Definition dd_ok (d : dedup) : Prop := consistent (dd_queue d) (dd_set d).

Lemma dd_ok_new : forall p, dd_ok (dedup_new p).
Proof. intros. split; [constructor|apply perm_nil]. Qed.

Lemma dedup_check_ok : forall hash d now msg, dd_ok d -> dd_period d <> 0 ->
  exists d' , dedup_check hash d now msg
    = Ok (d', negb (existsb (Z.eqb (hash msg)) (map snd (keep (u32 now) (dd_period d) (dd_queue d))))) /\
    dd_ok d' /\ dd_period d' = dd_period d /\
    dd_queue d' = keep (u32 now) (dd_period d) (dd_queue d) ++
      (if existsb (Z.eqb (hash msg)) (map snd (keep (u32 now) (dd_period d) (dd_queue d))) then []
       else [(u32 now, hash msg)]).
Proof.
  intros hash d now msg OK NZ. unfold dedup_check. destruct (Z.eqb_spec (dd_period d) 0); [contradiction|].
  destruct (expire_ok (u32 now) (dd_period d) _ _ OK) as (s' & E & C). rewrite E. cbn [bind].
  set (k := keep (u32 now) (dd_period d) (dd_queue d)) in *.
  assert (M : set_mem (hash msg) s' = existsb (Z.eqb (hash msg)) (map snd k)).
  { change (set_mem (hash msg) s' = set_mem (hash msg) (map snd k)). destruct C as [_ P].
    destruct (set_mem (hash msg) (map snd k)) eqn:F.
    - apply set_mem_In. apply set_mem_In in F. eapply Permutation_in; eauto.
    - apply set_mem_notIn. apply set_mem_notIn in F. intros X. apply F.
      eapply Permutation_in; [apply Permutation_sym; eauto|auto]. }
  rewrite M. destruct (existsb (Z.eqb (hash msg)) (map snd k)) eqn:F; cbn [negb].
  - eexists. split; [reflexivity|]. cbn [dd_queue dd_set dd_period]. rewrite app_nil_r. auto.
  - eexists. split; [reflexivity|]. cbn [dd_queue dd_set dd_period]. split; [|auto].
    destruct C as [N P]. split; cbn [dd_queue dd_set]; rewrite map_app; cbn [map snd].
    + rewrite <- Permutation_cons_append. constructor; auto.
      change (set_mem (hash msg) (map snd k) = false) in F. apply set_mem_notIn in F. auto.
    + rewrite <- Permutation_cons_append. apply perm_skip. auto.
Qed.

Lemma dedup_check_off : forall hash d now msg, dd_period d = 0 -> dedup_check hash d now msg = Ok (d, true).
Proof. intros. unfold dedup_check. rewrite H. reflexivity. Qed.

Lemma dedup_steps_ok : forall hash evs d, dd_ok d -> exists d', dedup_steps hash d evs = Ok d' /\ dd_ok d'.
Proof.
  induction evs as [|[now msg|p] evs]; intros d OK; cbn [dedup_steps].
  - eauto.
  - destruct (Z.eq_dec (dd_period d) 0).
    + rewrite dedup_check_off by auto. cbn [bind]. auto.
    + destruct (dedup_check_ok hash d now msg OK n) as (d' & E & OK' & _). rewrite E. cbn [bind]. auto.
  - apply IHevs. auto.
Qed.

(* ---- exactness ------------------------------------------------------------ *)

(* What has been let through so far, newest last. *)
Definition tracks (hash : list Z -> Z) (period lastnow : Z) (q : list (Z * Z)) (hist : list (Z * list Z)) : Prop :=
  Sorted (fun a b => fst a <= fst b) q /\
  (forall t h, In (t, h) q -> exists m, In (t, m) hist /\ hash m = h) /\
  (forall t m, In (t, m) hist -> lastnow <= t + period -> In (t, hash m) q) /\
  (forall t m, In (t, m) hist -> 0 <= t <= lastnow).

Lemma keep_sub : forall ts p q x, In x (keep ts p q) -> In x q.
Proof.
  induction q as [|[t h] q]; cbn [keep]; intros x H; auto.
  destruct (u32 (t + p) <? ts); auto. right. auto.
Qed.

Lemma keep_sorted : forall R ts p q, Sorted R q -> Sorted R (keep ts p q).
Proof.
  induction q as [|[t h] q]; cbn [keep]; intros H; auto.
  destruct (u32 (t + p) <? ts); auto. apply IHq. inversion H; auto.
Qed.

Lemma keep_in : forall ts p q x, In x q -> ts <= u32 (fst x + p) -> In x (keep ts p q).
Proof.
  induction q as [|[t h] q]; cbn [keep]; intros x H L; auto.
  destruct (u32 (t + p) <? ts) eqn:E; auto. destruct H; auto. subst. cbn [fst] in L. lia.
Qed.

Lemma keep_only : forall ts p q x, Sorted (fun a b => fst a <= fst b) q ->
  (forall y, In y q -> 0 <= fst y + p < 4294967296) ->
  In x (keep ts p q) -> ts <= fst x + p.
Proof.
  induction q as [|[t h] q]; cbn [keep]; intros x HS HR HI; [contradiction|].
  destruct (u32 (t + p) <? ts) eqn:E.
  - apply IHq; auto. { inversion HS; auto. } intros; apply HR; right; auto.
  - rewrite u32_small in E by (apply (HR (t, h)); left; auto).
    destruct HI as [<- | HI]; [cbn [fst]; lia|].
    apply Sorted_StronglySorted in HS; [|intros a b c; lia].
    inversion HS; subst. rewrite Forall_forall in H2. apply H2 in HI. cbn [fst] in HI. lia.
Qed.

Lemma Sorted_snoc : forall (q : list (Z * Z)) x, Sorted (fun a b => fst a <= fst b) q ->
  (forall y, In y q -> fst y <= fst x) -> Sorted (fun a b => fst a <= fst b) (q ++ [x]).
Proof.
  induction q; intros x HS HL; cbn [app].
  - repeat constructor.
  - inversion HS; subst. constructor.
    + apply IHq; auto. intros; apply HL; right; auto.
    + destruct q; cbn [app]; constructor. { apply HL; left; auto. } inversion H2; auto.
Qed.

Lemma check_tracks : forall hash d now msg lastnow hist,
  dd_ok d -> 0 < dd_period d -> 0 <= lastnow <= now -> now + dd_period d < 4294967296 ->
  tracks hash (dd_period d) lastnow (dd_queue d) hist ->
  exists d' ok, dedup_check hash d now msg = Ok (d', ok) /\ dd_ok d' /\ dd_period d' = dd_period d /\
    (ok = false <-> exists t m, In (t, m) hist /\ hash m = hash msg /\ now <= t + dd_period d) /\
    tracks hash (dd_period d) now (dd_queue d') (if ok then hist ++ [(now, msg)] else hist).
Proof.
  intros hash d now msg lastnow hist OK PP LN NB (TS & TQ & TH & TR).
  destruct (dedup_check_ok hash d now msg OK) as (d' & E & OK' & EP & EQ); [lia|].
  rewrite (u32_small now) in * by lia.
  set (k := keep now (dd_period d) (dd_queue d)) in *.
  assert (KR : forall y, In y (dd_queue d) -> 0 <= fst y + dd_period d < 4294967296).
  { intros [t h] HI. destruct (TQ _ _ HI) as (m & Hm & _). apply TR in Hm. cbn [fst]. lia. }
  assert (MEM : existsb (Z.eqb (hash msg)) (map snd k) = true <-> exists t m, In (t, m) hist /\ hash m = hash msg /\ now <= t + dd_period d).
  { change (set_mem (hash msg) (map snd k) = true <-> exists t m, In (t, m) hist /\ hash m = hash msg /\ now <= t + dd_period d).
    rewrite set_mem_In. split.
    - intros H. apply in_map_iff in H. destruct H as ((t & h) & Eh & HI). cbn [snd] in Eh. subst h.
      pose proof (keep_only _ _ _ _ TS KR HI). apply keep_sub in HI. apply TQ in HI. destruct HI as (m & Hm & Em).
      exists t, m. auto.
    - intros (t & m & HI & Eh & L). apply in_map_iff. exists (t, hash msg). split; auto.
      pose proof (TR _ _ HI). apply keep_in; [rewrite <- Eh; apply TH; auto; lia|]. cbn [fst]. rewrite u32_small; lia. }
  exists d', (negb (existsb (Z.eqb (hash msg)) (map snd k))). split; [exact E|]. split; [exact OK'|]. split; [exact EP|].
  split. { rewrite <- MEM. destruct (existsb _ _); cbn [negb]; split; intros; congruence. }
  rewrite EQ. destruct (existsb (Z.eqb (hash msg)) (map snd k)) eqn:F; cbn [negb].
  - rewrite app_nil_r. repeat split.
    + apply keep_sorted; auto.
    + intros t h HI. apply keep_sub in HI. auto.
    + intros t m HI L. pose proof (TR _ _ HI). apply keep_in; [apply TH; auto; lia|]. cbn [fst]. rewrite u32_small; lia.
    + apply TR in H. lia.
    + apply TR in H. lia.
  - repeat split.
    + apply Sorted_snoc; [apply keep_sorted; auto|]. intros [t h] HI. apply keep_sub in HI. cbn [fst].
      apply TQ in HI. destruct HI as (m & Hm & _). apply TR in Hm. lia.
    + intros t h HI. apply in_app_iff in HI. destruct HI as [HI | [HI | []]].
      * apply keep_sub in HI. apply TQ in HI. destruct HI as (m & Hm & Em). exists m. split; auto. apply in_app_iff; auto.
      * injection HI; intros; subst. exists msg. split; auto. apply in_app_iff. right. left. auto.
    + intros t m HI L. apply in_app_iff in HI. apply in_app_iff. destruct HI as [HI | [HI | []]].
      * left. pose proof (TR _ _ HI). apply keep_in; [apply TH; auto; lia|]. cbn [fst]. rewrite u32_small; lia.
      * injection HI; intros; subst. right; left; auto.
    + apply in_app_iff in H. destruct H as [H | [H | []]]; [apply TR in H; lia|]. injection H; intros; subst; lia.
    + apply in_app_iff in H. destruct H as [H | [H | []]]; [apply TR in H; lia|]. injection H; intros; subst; lia.
Qed.

Lemma tracks_new : forall hash p now, tracks hash p now [] [].
Proof. intros. repeat split; try (constructor); try (intros; contradiction); exfalso; inversion H. Qed.

Lemma dedup_run_app : forall hash e1 e2 d,
  dedup_run hash d (e1 ++ e2) =
  (let* (d1, o1) := dedup_run hash d e1 in
   let* (d2, o2) := dedup_run hash d1 e2 in Ok (d2, o1 ++ o2)).
Proof.
  induction e1 as [|[now msg] e1]; intros; cbn [dedup_run app].
  - cbn [bind]. destruct (dedup_run hash d e2) as [[? ?]| |]; reflexivity.
  - destruct (dedup_check hash d now msg) as [[d1 ok]| |]; cbn [bind]; auto. rewrite IHe1.
    destruct (dedup_run hash d1 e1) as [[d2 o2]| |]; cbn [bind]; auto.
    destruct (dedup_run hash d2 e2) as [[d3 o3]| |]; reflexivity.
Qed.

Definition let_through (evs : list (Z * list Z)) (oks : list bool) : list (Z * list Z) :=
  map fst (filter snd (combine evs oks)).

Lemma combine_snoc : forall A B (l : list A) (m : list B) x y, length l = length m ->
  combine (l ++ [x]) (m ++ [y]) = combine l m ++ [(x, y)].
Proof. induction l; destruct m; cbn; intros; try discriminate; auto. rewrite IHl; auto. Qed.

Lemma let_through_snoc : forall evs oks e ok, length evs = length oks ->
  let_through (evs ++ [e]) (oks ++ [ok]) = let_through evs oks ++ (if ok then [e] else []).
Proof.
  intros. unfold let_through. rewrite combine_snoc by auto. rewrite filter_app, map_app. cbn [filter snd].
  destruct ok; reflexivity.
Qed.

Lemma In_combine : forall A B (l : list A) (m : list B) x y, In (x, y) (combine l m) <->
  exists j, nth_error l j = Some x /\ nth_error m j = Some y.
Proof.
  induction l; intros.
  - cbn [combine]. split; [intros []|]. intros (j & H & _). destruct j; discriminate.
  - destruct m; cbn [combine].
    + split; [intros []|]. intros (j & _ & H). destruct j; discriminate.
    + split.
      * intros [E | H]; [injection E; intros; subst; exists O; auto|].
        apply IHl in H. destruct H as (j & H1 & H2). exists (S j). auto.
      * intros ([|j] & H1 & H2); cbn in H1, H2.
        -- left. congruence.
        -- right. apply IHl. exists j. auto.
Qed.

Lemma In_let_through : forall evs oks e, In e (let_through evs oks) <->
  exists j, nth_error evs j = Some e /\ nth_error oks j = Some true.
Proof.
  intros. unfold let_through. rewrite in_map_iff. split.
  - intros ((x & y) & E & H). cbn [fst] in E. subst x. apply filter_In in H. destruct H as [H Hy]. cbn [snd] in Hy.
    subst y. apply In_combine in H. auto.
  - intros H. exists (e, true). split; auto. apply filter_In. split; auto. apply In_combine. auto.
Qed.

Fixpoint nondecreasing (a : Z) (l : list Z) : Prop :=
  match l with [] => True | b :: t => a <= b /\ nondecreasing b t end.

Lemma last_cons : forall (l : list Z) a d, last (a :: l) d = last l a.
Proof.
  induction l; intros; auto. change (last (a :: l) d = last (a :: l) a0). rewrite !IHl. reflexivity.
Qed.

Lemma nondecreasing_app : forall l a b, nondecreasing a (l ++ [b]) <-> nondecreasing a l /\ last l a <= b.
Proof.
  induction l; intros; cbn [app nondecreasing].
  - cbn [last]. tauto.
  - rewrite IHl, last_cons. tauto.
Qed.

Lemma last_bound : forall l a, nondecreasing a l -> a <= last l a.
Proof.
  induction l; intros; [cbn [last]; lia|]. destruct H. rewrite last_cons. apply IHl in H0. lia.
Qed.

Lemma dedup_exact : forall hash period evs,
  0 < period < 4294967296 ->
  nondecreasing 0 (map fst evs) -> last (map fst evs) 0 + period < 4294967296 ->
  exists d oks, dedup_run hash (dedup_new period) evs = Ok (d, oks) /\ length oks = length evs /\
    dd_ok d /\ dd_period d = period /\
    tracks hash period (last (map fst evs) 0) (dd_queue d) (let_through evs oks) /\
    forall i t m, nth_error evs i = Some (t, m) ->
      (nth_error oks i = Some false <->
       exists j t' m', (j < i)%nat /\ nth_error evs j = Some (t', m') /\ hash m' = hash m /\ nth_error oks j = Some true /\ t <= t' + period).
Proof.
  intros hash period evs PP. induction evs as [|[now msg] evs IH] using rev_ind; intros ND LB.
  - exists (dedup_new period), []. cbn [dedup_run]. split; auto. split; auto. split; [apply dd_ok_new|].
    split; [cbn; apply u32_small; lia|]. split; [apply tracks_new|]. intros i t m H. destruct i; discriminate.
  - rewrite map_app in *. cbn [map fst] in *. apply nondecreasing_app in ND. destruct ND as [ND LE].
    rewrite last_last in *.
    pose proof (last_bound _ _ ND) as L0.
    destruct IH as (d & oks & R & LEN & OK & DP & TR & SP); auto.
    { lia. }
    destruct (check_tracks hash d now msg (last (map fst evs) 0) (let_through evs oks)) as (d' & ok & E & OK' & DP' & IFF & TR'); auto; try lia.
    { rewrite DP. exact TR. }
    rewrite DP in *. rewrite dedup_run_app, R. cbn [bind dedup_run]. rewrite E. cbn [bind].
    exists d', (oks ++ [ok]). split; auto. split; [rewrite !app_length; cbn; lia|]. split; auto. split; auto.
    split. { rewrite let_through_snoc by auto. destruct ok; [exact TR'|rewrite app_nil_r; exact TR']. }
    intros i t m Hi. destruct (lt_dec i (length evs)) as [Li|Li].
    + rewrite nth_error_app1 in Hi by auto. rewrite nth_error_app1 by lia. rewrite (SP i t m Hi).
      split; intros (j & t' & m' & Lj & H1 & H2 & H3 & H4); exists j, t', m'; (split; [exact Lj|]);
        rewrite ?nth_error_app1 in * by lia; auto.
    + assert (i = length evs).
      { assert (i < length (evs ++ [(now, msg)]))%nat by (apply nth_error_Some; congruence). rewrite app_length in H. cbn in H. lia. }
      subst i. rewrite nth_error_app2, Nat.sub_diag in Hi by lia. cbn in Hi. injection Hi; intros; subst t m.
      rewrite nth_error_app2 by lia. replace (length evs - length oks)%nat with O by lia. cbn [nth_error].
      split.
      * intros X. injection X; intros; subst ok. destruct (proj1 IFF eq_refl) as (t & m & HI & Eh & HL).
        apply In_let_through in HI. destruct HI as (j & H1 & H2). exists j, t, m.
        assert (j < length evs)%nat by (apply nth_error_Some; congruence).
        rewrite !nth_error_app1 by lia. auto.
      * intros (j & t' & m' & Lj & H1 & H2 & H3 & H4). f_equal. apply IFF. exists t', m'. split; auto.
        rewrite nth_error_app1 in H1 by lia. rewrite nth_error_app1 in H3 by lia. apply In_let_through. eauto.
Qed.
