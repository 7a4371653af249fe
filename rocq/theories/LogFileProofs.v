From Verif Require Import Base Mav Frame Names NamesProofs Sys LogFile.
From Coq Require Import Sorting.Permutation Sorting.Sorted.

(* every system call from now on succeeds *)
Definition calls_ok (v : env) (y : sys) : Prop := forall n, (y_pos y <= n)%nat -> 0 <= v_orc v n.

Lemma beqs_eq : forall a b, beqs a b = true <-> a = b.
Proof.
  induction a as [|x a IH]; intros [|z b]; cbn; split; intros H; try discriminate; auto.
  - apply andb_true_iff in H. destruct H as [H1 H2]. apply Z.eqb_eq in H1. apply IH in H2. congruence.
  - inversion H; subst. rewrite Z.eqb_refl. apply IH. auto.
Qed.
Lemma beqs_refl : forall a, beqs a a = true.
Proof. intros. apply beqs_eq. auto. Qed.
Lemma beqs_neq : forall a b, beqs a b = false <-> a <> b.
Proof. intros. rewrite <- beqs_eq. destruct (beqs a b); split; congruence. Qed.

Lemma fs_mem_In : forall l n, fs_mem l n = true <-> In n (map d_name l).
Proof.
  intros. unfold fs_mem. rewrite existsb_exists, in_map_iff. split; intros (e & A & B).
  - apply beqs_eq in B. eauto.
  - exists e. split; auto. apply beqs_eq. auto.
Qed.

(* ---- what a system-state change may affect ------------------------------------------------- *)

(* only the directory and the call counter changed *)
Definition fs_step (y y' : sys) : Prop :=
  y_timers y' = y_timers y /\ y_next y' = y_next y /\ y_seq y' = y_seq y /\ (y_pos y <= y_pos y')%nat.

Lemma fs_step_refl : forall y, fs_step y y.
Proof. intros. unfold fs_step. auto. Qed.
Lemma fs_step_trans : forall a b c, fs_step a b -> fs_step b c -> fs_step a c.
Proof. unfold fs_step. intros a b c (A1 & A2 & A3 & A4) (B1 & B2 & B3 & B4). repeat split; try congruence. lia. Qed.

Lemma calls_ok_step : forall v y y', calls_ok v y -> (y_pos y <= y_pos y')%nat -> calls_ok v y'.
Proof. unfold calls_ok. intros. apply H. lia. Qed.

(* ---- mark_unfinished_logs ------------------------------------------------------------------- *)

Lemma mark_entries_spec : forall v l y l' y', mark_entries v y l = (l', y') ->
  fs_step y y' /\ y_fs y' = y_fs y /\
  Forall2 (fun e e' => e' = e \/ (e' = d_readonly e /\ d_kind e = FReg /\ exists i, scan_index (d_name e) = Some i)) l l' /\
  (calls_ok v y -> Forall (fun e' => d_kind e' = FReg -> scan_index (d_name e') <> None -> d_w e' = false) l').
Proof.
  induction l as [|e l IH]; intros y l' y' H; cbn [mark_entries] in H.
  - inversion H; subst. split. { apply fs_step_refl. } repeat split; auto.
  - destruct (scan_index (d_name e)) as [i|] eqn:SI.
    2:{ destruct (mark_entries v y l) as [r' y1] eqn:E. inversion H; subst.
        destruct (IH _ _ _ E) as (A & B & C & D). repeat split; try apply A; auto.
        intros K. constructor; auto. intros _ X. congruence. }
    unfold ask in H. set (y0 := set_pos y (Datatypes.S (y_pos y))) in *.
    assert (S0 : fs_step y y0) by (unfold fs_step; cbn; auto).
    destruct (d_kind e) eqn:DK.
    2,3: (destruct (mark_entries v y0 l) as [r' y1] eqn:E; inversion H; subst;
        destruct (IH _ _ _ E) as (A & B & C & D); split; [eapply fs_step_trans; eauto|];
        split; [exact B|]; split; [constructor; auto|];
        intros K; constructor; [congruence|]; apply D; eapply calls_ok_step; eauto; apply S0).
    destruct ((0 <=? v_orc v (y_pos y)) && d_w e) eqn:C0.
    + set (y1 := set_pos y0 (Datatypes.S (y_pos y0))) in *.
      assert (S1 : fs_step y0 y1) by (unfold fs_step; cbn; auto).
      destruct (mark_entries v y1 l) as [r' y2] eqn:E. inversion H; subst.
      destruct (IH _ _ _ E) as (A & B & C & D). split. { eapply fs_step_trans; eauto. eapply fs_step_trans; eauto. }
      split; [exact B|]. split.
      * constructor; auto. match goal with |- context [if ?c then d_readonly e else e] => destruct c end; auto. right. split; auto. split; auto. exists i; auto.
      * intros K. constructor.
        -- assert (X : 0 <= v_orc v (y_pos y0)) by (apply K; cbn; lia).
           apply Z.leb_le in X. cbn [y_pos y0 set_pos] in X. rewrite X. cbn. auto.
        -- apply D. eapply calls_ok_step; eauto. cbn. lia.
    + destruct (mark_entries v y0 l) as [r' y1] eqn:E. inversion H; subst.
      destruct (IH _ _ _ E) as (A & B & C & D). split; [eapply fs_step_trans; eauto|].
      split; [exact B|]. split; [constructor; auto|].
      intros K. constructor.
      * intros _ _. assert (X : 0 <= v_orc v (y_pos y)) by (apply K; lia).
        apply Z.leb_le in X. rewrite X in C0. cbn in C0. auto.
      * apply D. eapply calls_ok_step; eauto. apply S0.
Qed.

(* ---- collecting closed logs ------------------------------------------------------------------- *)

(* a file _delete_old_logs may delete *)
Definition closed_log (e : dirent) : Prop :=
  scan_log (d_name e) <> None /\ d_kind e <> FDir /\ d_w e = false.

Definition logrec (e : dirent) (k : Z) (x : list Z * Z) : Prop :=
  scan_log (d_name e) = Some k /\ x = (d_name e, Z.of_nat (length (d_data e))).

(* every element of the map comes from a closed log of the directory *)
Definition from_dir (l : list dirent) (m : list (Z * (list Z * Z))) : Prop :=
  Forall (fun p => exists e, In e l /\ closed_log e /\ logrec e (fst p) (snd p)) m.

Definition keys_sorted (m : list (Z * (list Z * Z))) : Prop := StronglySorted Z.lt (map fst m).

Lemma map_put_from : forall l m k x, from_dir l m ->
  (exists e, In e l /\ closed_log e /\ logrec e k x) -> from_dir l (map_put m k x).
Proof.
  induction m as [|[k' x'] m IH]; intros k x F E; cbn [map_put].
  - constructor; auto.
  - inversion F; subst. destruct (k <? k'); [|destruct (k =? k')]; constructor; auto. apply IH; auto.
Qed.

Lemma map_put_keys : forall m k x z, In z (map fst (map_put m k x)) <-> z = k \/ In z (map fst m).
Proof.
  induction m as [|[k' x'] m IH]; intros k x z; cbn [map_put].
  - cbn. intuition.
  - destruct (k <? k'); [cbn; intuition|]. destruct (Z.eqb_spec k k'); [subst; cbn; intuition|].
    cbn. rewrite IH. intuition.
Qed.

Lemma map_put_sorted : forall m k x, keys_sorted m -> keys_sorted (map_put m k x).
Proof.
  unfold keys_sorted. induction m as [|[k' x'] m IH]; intros k x S; cbn [map_put].
  - cbn. repeat constructor.
  - inversion S; subst. destruct (Z.ltb_spec k k').
    + cbn. constructor; auto. constructor; auto. eapply Forall_impl; [|exact H2]. intros; lia.
    + destruct (Z.eqb_spec k k').
      * subst. cbn. constructor; auto.
      * cbn. constructor. { apply IH; auto. }
        apply Forall_forall. intros z Hz. apply map_put_keys in Hz. rewrite Forall_forall in H2.
        destruct Hz as [->|Hz]; [lia|auto].
Qed.

Lemma map_put_fresh : forall m k x, ~ In k (map fst m) -> Permutation (map_put m k x) ((k, x) :: m).
Proof.
  induction m as [|[k' x'] m IH]; intros k x NI; cbn [map_put]; auto.
  cbn in NI. destruct (k <? k'); auto. destruct (Z.eqb_spec k k'); [exfalso; auto|].
  rewrite IH by auto. apply perm_swap.
Qed.

Lemma collect_spec : forall v full l y m m' y', collect v y l m = (m', y') -> incl l full ->
  from_dir full m -> keys_sorted m ->
  fs_step y y' /\ y_fs y' = y_fs y /\ from_dir full m' /\ keys_sorted m'.
Proof.
  induction l as [|e l IH]; intros y m m' y' H I F S; cbn [collect] in H.
  - inversion H; subst. split; auto. apply fs_step_refl.
  - destruct (scan_log (d_name e)) as [idx|] eqn:SL.
    2:{ apply IH with (m := m) in H; auto. eapply incl_cons_inv; eauto. }
    unfold ask in H. set (y0 := set_pos y (Datatypes.S (y_pos y))) in *.
    assert (S0 : fs_step y y0) by (unfold fs_step; cbn; auto).
    destruct (_ && _) eqn:C0.
    + apply IH in H; auto.
      * destruct H as (A & B). split; [eapply fs_step_trans; eauto|]. exact B.
      * eapply incl_cons_inv; eauto.
      * apply map_put_from; auto. exists e. split; [apply I; left; auto|]. split; [|split; auto].
        apply andb_true_iff in C0. destruct C0 as [C0 W]. apply andb_true_iff in C0. destruct C0 as [_ K].
        split; [congruence|]. split; [destruct (d_kind e); congruence|]. destruct (d_w e); auto; discriminate.
      * apply map_put_sorted; auto.
    + apply IH in H; auto.
      * destruct H as (A & B). split; [eapply fs_step_trans; eauto|]. exact B.
      * eapply incl_cons_inv; eauto.
Qed.

(* the closed logs of a directory with their index *)
Definition closedb (e : dirent) : bool :=
  match scan_log (d_name e) with Some _ => true | None => false end &&
  match d_kind e with FDir => false | _ => true end && negb (d_w e).
Lemma closedb_spec : forall e, closedb e = true <-> closed_log e.
Proof.
  intros e. unfold closedb, closed_log. destruct (scan_log (d_name e)), (d_kind e), (d_w e); cbn;
    split; intros H; try discriminate; repeat split; try congruence; destruct H as (A & B & C); congruence.
Qed.

Definition idx_of (e : dirent) : Z := match scan_log (d_name e) with Some i => i | None => -1 end.
Definition rec_of (e : dirent) : Z * (list Z * Z) := (idx_of e, (d_name e, Z.of_nat (length (d_data e)))).

(* with every fstatat succeeding and no two closed logs of the same index, the map holds exactly the
   closed logs *)
Lemma collect_all : forall v l y m m' y', collect v y l m = (m', y') -> calls_ok v y ->
  NoDup (map fst m ++ map idx_of (filter closedb l)) ->
  Permutation m' (m ++ map rec_of (filter closedb l)).
Proof.
  induction l as [|e l IH]; intros y m m' y' H K ND; cbn [collect] in H.
  - inversion H; subst. cbn. rewrite app_nil_r. auto.
  - assert (CB : closedb e = match scan_log (d_name e) with Some _ => true | None => false end &&
                 match d_kind e with FDir => false | _ => true end && negb (d_w e)) by reflexivity.
    cbn [filter] in *. rewrite CB in *.
    destruct (scan_log (d_name e)) as [idx|] eqn:SL.
    2:{ cbn [andb]. eapply IH; eauto. }
    unfold ask in H. set (y0 := set_pos y (Datatypes.S (y_pos y))) in *.
    assert (K0 : calls_ok v y0) by (eapply calls_ok_step; eauto; cbn; lia).
    assert (X : 0 <=? v_orc v (y_pos y) = true) by (apply Z.leb_le; apply K; lia).
    rewrite X in H. cbn [andb] in *.
    destruct (match d_kind e with FDir => false | _ => true end && negb (d_w e)) eqn:C0.
    + cbn [map] in *. assert (IE : idx_of e = idx) by (unfold idx_of; rewrite SL; reflexivity).
      change (rec_of e) with (idx_of e, (d_name e, Z.of_nat (length (d_data e)))). rewrite IE in *.
      assert (NI : ~ In idx (map fst m)).
      { apply NoDup_remove_2 in ND. intros Q. apply ND. apply in_or_app; auto. }
      rewrite (IH _ _ _ _ H K0).
      * rewrite (map_put_fresh m _ _ NI). cbn. apply Permutation_middle.
      * rewrite (Permutation_map fst (map_put_fresh m _ _ NI)). cbn [map fst].
        apply (Permutation_NoDup (l := map fst m ++ idx :: map idx_of (filter closedb l))); auto.
        symmetry. apply Permutation_middle.
    + eapply IH; eauto.
Qed.

(* ---- deleting ------------------------------------------------------------------------------------- *)

(* entries of [l] whose name is not in [ns] *)
Definition without (ns : list (list Z)) (l : list dirent) : list dirent :=
  filter (fun e => negb (existsb (beqs (d_name e)) ns)) l.

Lemma without_nil : forall l, without [] l = l.
Proof. induction l; cbn; auto. f_equal. auto. Qed.

Lemma beqs_sym : forall a b, beqs a b = beqs b a.
Proof. intros. destruct (beqs a b) eqn:E. - apply beqs_eq in E. subst. symmetry. apply beqs_refl. - symmetry. apply beqs_neq. apply beqs_neq in E. auto. Qed.

Lemma without_cons : forall n ns l, without (n :: ns) l = without ns (filter (fun e => negb (beqs (d_name e) n)) l).
Proof.
  induction l as [|e l IH]; cbn; auto. destruct (beqs (d_name e) n) eqn:E; cbn.
  - exact IH.
  - destruct (existsb (beqs (d_name e)) ns); cbn; [exact IH|f_equal; exact IH].
Qed.

(* whatever fails, what is deleted are names from the map *)
Lemma delete_loop_safe : forall v m y btd ftd l, y_fs y = Some l ->
  exists ns, fs_step y (delete_loop v y m btd ftd) /\
    y_fs (delete_loop v y m btd ftd) = Some (without ns l) /\ incl ns (map (fun p => fst (snd p)) m).
Proof.
  induction m as [|[k [name size]] m IH]; intros y btd ftd l F; cbn [delete_loop].
  - exists []. rewrite without_nil. split; [apply fs_step_refl|]. split; auto. apply incl_refl.
  - destruct ((btd <=? 0) && (ftd <=? 0)).
    { exists []. rewrite without_nil. split; [apply fs_step_refl|]. split; auto. intros x []. }
    unfold ask. set (y0 := set_pos y (Datatypes.S (y_pos y))).
    assert (S0 : fs_step y y0) by (unfold fs_step; cbn; auto).
    assert (F0 : y_fs y0 = Some l) by auto.
    destruct (0 <=? v_orc v (y_pos y)).
    + rewrite F0. cbn [entries].
      set (y1 := set_fs y0 _).
      assert (S1 : fs_step y0 y1) by (unfold fs_step; cbn; auto).
      destruct (IH y1 (s64 (btd - size)) (ftd - 1) (filter (fun e => negb (beqs (d_name e) name)) l)) as (ns & A & B & C); auto.
      exists (name :: ns). split. { eapply fs_step_trans; [exact S0|]. eapply fs_step_trans; [exact S1|exact A]. }
      split. { rewrite without_cons. exact B. }
      cbn. intros x [->|Hx]; [left; auto|right; auto].
    + destruct (IH y0 btd ftd l F0) as (ns & A & B & C).
      exists ns. split; [eapply fs_step_trans; eauto|]. split; auto. cbn. intros x Hx. right. auto.
Qed.

Fixpoint total (m : list (Z * (list Z * Z))) : Z :=
  match m with [] => 0 | (_, (_, s)) :: r => s + total r end.

Definition sizes_ok (m : list (Z * (list Z * Z))) : Prop := Forall (fun p => 0 <= snd (snd p)) m.
Lemma total_nonneg : forall m, sizes_ok m -> 0 <= total m.
Proof. induction m as [|[k [n s]] m IH]; intros F; cbn; [lia|]. inversion F; subst. cbn in *. specialize (IH H2). lia. Qed.

Lemma s64_small : forall z, -9223372036854775808 <= z < 9223372036854775808 -> s64 z = z.
Proof. intros. unfold s64. rewrite Z.mod_small; lia. Qed.

(* when every call succeeds: a prefix of the map, the shortest that satisfies both limits *)
Lemma delete_loop_exact : forall v m y btd ftd l, y_fs y = Some l -> calls_ok v y -> sizes_ok m ->
  -4611686018427387904 <= btd - total m -> btd < 9223372036854775808 ->
  exists k, (k <= length m)%nat /\
    y_fs (delete_loop v y m btd ftd) = Some (without (map (fun p => fst (snd p)) (firstn k m)) l) /\
    (forall j, (j < k)%nat -> 0 < btd - total (firstn j m) \/ 0 < ftd - Z.of_nat j) /\
    (k = length m \/ (btd - total (firstn k m) <= 0 /\ ftd - Z.of_nat k <= 0)).
Proof.
  induction m as [|[k0 [name size]] m IH]; intros y btd ftd l F K SZ LO HI; cbn [delete_loop].
  - exists O. cbn [firstn map length]. rewrite without_nil. split; auto. split; auto. split; [intros j Hj; lia|left; auto].
  - inversion SZ; subst. cbn [fst snd] in H1. cbn [total] in LO. pose proof (total_nonneg _ H2) as TN.
    destruct ((btd <=? 0) && (ftd <=? 0)) eqn:C0.
    { apply andb_true_iff in C0. exists O. cbn [firstn map]. rewrite without_nil. split; [lia|]. split; auto.
      split; [intros j Hj; lia|]. right. cbn [total]. lia. }
    unfold ask. set (y0 := set_pos y (Datatypes.S (y_pos y))).
    assert (X : 0 <=? v_orc v (y_pos y) = true) by (apply Z.leb_le; apply K; lia).
    rewrite X. assert (F0 : y_fs y0 = Some l) by auto. rewrite F0. cbn [entries].
    set (y1 := set_fs y0 _).
    rewrite s64_small by lia.
    destruct (IH y1 (btd - size) (ftd - 1) (filter (fun e => negb (beqs (d_name e) name)) l)) as (k & A & B & C & D); auto; try lia.
    { eapply calls_ok_step; eauto. cbn. lia. }
    exists (Datatypes.S k). cbn [firstn map length fst snd total]. split; [lia|]. split.
    { rewrite without_cons. exact B. }
    split.
    + intros [|j] Hj.
      * cbn [firstn total]. apply andb_false_iff in C0. lia.
      * cbn [firstn total]. specialize (C j). lia.
    + destruct D as [D|D]; [left; lia|right; lia].
Qed.

(* ---- prefix ----------------------------------------------------------------------------------------- *)

Lemma get_prefix_ge : forall l p, p <= get_prefix l p.
Proof.
  induction l as [|e l IH]; intros p; cbn [get_prefix]; [lia|].
  destruct (scan_index (d_name e)) as [u|]; auto. destruct ((p <=? u) && (u <? 4294967295)) eqn:C; auto.
  specialize (IH (u + 1)). lia.
Qed.

Lemma get_prefix_above : forall l p e u, In e l -> scan_index (d_name e) = Some u -> u < 4294967295 ->
  u < get_prefix l p.
Proof.
  induction l as [|e0 l IH]; intros p e u I S B; [destruct I|]. cbn [get_prefix].
  destruct I as [->|I].
  - rewrite S. destruct (Z.leb_spec p u).
    + destruct (Z.ltb_spec u 4294967295); [|lia]. cbn [andb]. pose proof (get_prefix_ge l (u + 1)). lia.
    + cbn [andb]. pose proof (get_prefix_ge l p). lia.
  - destruct (scan_index (d_name e0)) as [w|]; [destruct (_ && _)|]; eapply IH; eauto.
Qed.

Lemma get_prefix_range : forall l p, 0 <= p < 4294967296 -> 0 <= get_prefix l p < 4294967296.
Proof.
  induction l as [|e l IH]; intros p H; cbn [get_prefix]; auto.
  destruct (scan_index (d_name e)) as [u|] eqn:E; auto. apply scan_index_range in E.
  destruct ((p <=? u) && (u <? 4294967295)) eqn:C; auto. apply IH. lia.
Qed.

Lemma create_loop_spec : forall n v y l i j t ext r y', 
  create_loop n v y l i j t ext = (r, y') -> y_fs y = Some l ->
  fs_step y y' /\
  match r with
  | None => y_fs y' = Some l
  | Some name => exists k, j <= k < j + Z.of_nat n /\ name = log_name (u32 (i + k)) t ext /\ ~ In name (map d_name l) /\
                 (forall q, j <= q < k -> In (log_name (u32 (i + q)) t ext) (map d_name l)) /\
                 y_fs y' = Some (l ++ [mkDirent name FReg true []])
  end.
Proof.
  induction n as [|n IH]; intros v y l i j t ext r y' H F; cbn [create_loop] in H.
  - inversion H; subst. split; auto. apply fs_step_refl.
  - unfold ask in H. set (y0 := set_pos y (Datatypes.S (y_pos y))) in *.
    assert (S0 : fs_step y y0) by (unfold fs_step; cbn; auto).
    destruct (v_orc v (y_pos y) <? 0).
    { inversion H; subst. split; auto. }
    destruct (fs_mem l (log_name (u32 (i + j)) t ext)) eqn:M.
    + destruct (IH _ _ _ _ _ _ _ _ _ H) as (A & B); auto. split; [eapply fs_step_trans; eauto|].
      destruct r as [name|]; auto. destruct B as (k & B1 & B2 & B3 & B4 & B5). exists k. repeat split; auto; try lia.
      intros q Hq. destruct (Z.eq_dec q j) as [->|]; [apply fs_mem_In; auto|]. apply B4. lia.
    + inversion H; subst. split. { unfold fs_step; cbn; auto. }
      exists j. repeat split; auto; try lia. intros X. apply fs_mem_In in X. congruence.
Qed.

Lemma ask_stamp_ok : forall v y t y', ask_stamp v y = (t, y') -> stamp_ok t /\ fs_step y y' /\ y_fs y' = y_fs y.
Proof.
  intros v y t y' H. unfold ask_stamp, ask in H.
  pose proof (f_equal fst H) as H1. pose proof (f_equal snd H) as H2. cbn [fst snd] in H1, H2. clear H. subst t y'.
  split; [|split; [unfold fs_step; cbn; repeat split; auto; lia|auto]].
  unfold stamp_ok. cbn [s_year s_mon s_day s_hour s_min s_sec].
  Z.div_mod_to_equations; lia.
Qed.

Lemma open_dir_spec : forall v y d y', open_dir v y = (d, y') -> fs_step y y' /\
  match d with
  | Some l => y_fs y' = Some l /\ l = entries (y_fs y)
  | None => y_fs y' = y_fs y
  end.
Proof.
  intros v y d y' H. unfold open_dir, ask in H. cbn [y_fs set_pos] in H.
  destruct (y_fs y) as [l|] eqn:F; destruct (0 <=? v_orc v (y_pos y)); inversion H; subst; cbn;
    (split; [unfold fs_step; cbn; auto|]); auto.
Qed.

Lemma get_file_spec : forall v y g r y', get_file v y g = (r, y') ->
  fs_step y y' /\
  match r with
  | None => y_fs y' = y_fs y \/ (y_fs y = None /\ y_fs y' = Some [])
  | Some name => exists k t, 0 <= k < 11 /\ stamp_ok t /\ let l := entries (y_fs y) in
       name = log_name (u32 (get_prefix l 0 + k)) t (l_ext g) /\ ~ In name (map d_name l) /\
       (forall q, 0 <= q < k -> In (log_name (u32 (get_prefix l 0 + q)) t (l_ext g)) (map d_name l)) /\
       y_fs y' = Some (l ++ [mkDirent name FReg true []])
  end.
Proof.
  intros v y g r y' H. unfold get_file in H.
  destruct (ask_stamp v y) as [t y1] eqn:E1. destruct (ask_stamp_ok _ _ _ _ E1) as (T & S1 & F1).
  destruct (open_dir v y1) as [d y2] eqn:E2. destruct (open_dir_spec _ _ _ _ E2) as (S2 & D).
  destruct d as [l|].
  - destruct D as [D1 D2]. destruct (create_loop_spec _ _ _ _ _ _ _ _ _ _ H D1) as (S3 & R).
    split. { eapply fs_step_trans; [exact S1|]. eapply fs_step_trans; eauto. }
    rewrite F1 in D2. destruct r as [name|].
    + destruct R as (k & K & N & NI & Q & F). exists k, t. rewrite <- D2. change (Z.of_nat 11) with 11 in K. split; [lia|]. split; [exact T|]. cbv zeta. auto.
    + rewrite R. rewrite D2. destruct (y_fs y); cbn; auto.
  - inversion H; subst. split. { eapply fs_step_trans; eauto. } left. congruence.
Qed.

(* ---- delete_old_logs --------------------------------------------------------------------------------- *)

Lemma from_dir_names : forall l m n, from_dir l m -> In n (map (fun p => fst (snd p)) m) ->
  exists e, In e l /\ closed_log e /\ d_name e = n.
Proof.
  intros l m n F I. apply in_map_iff in I. destruct I as ([k [nm sz]] & E & I). cbn in E. subst.
  unfold from_dir in F. rewrite Forall_forall in F. apply F in I. destruct I as (e & I & C & (_ & X)).
  cbn in X. inversion X; subst. eauto.
Qed.

Lemma delete_old_safe : forall v y g,
  fs_step y (delete_old_logs v y g) /\
  exists ns, match y_fs y with
             | None => y_fs (delete_old_logs v y g) = None
             | Some l => y_fs (delete_old_logs v y g) = Some (without ns l)
             end /\
    Forall (fun n => exists e, In e (entries (y_fs y)) /\ closed_log e /\ d_name e = n) ns.
Proof.
  intros v y g. unfold delete_old_logs, ask.
  set (y0 := set_pos y (Datatypes.S (y_pos y))). set (y1 := set_pos y0 (Datatypes.S (y_pos y0))).
  assert (S0 : fs_step y y0) by (unfold fs_step; cbn; auto).
  assert (S1 : fs_step y y1) by (unfold fs_step; cbn; repeat split; lia).
  assert (T : forall yy, fs_step y yy -> y_fs yy = y_fs y -> fs_step y yy /\ exists ns : list (list Z),
    match y_fs y with None => y_fs yy = None | Some l => y_fs yy = Some (without ns l) end /\
    Forall (fun n => exists e, In e (entries (y_fs y)) /\ closed_log e /\ d_name e = n) ns).
  { intros yy A B. split; auto. exists []. rewrite B. split; auto. destruct (y_fs y); auto. rewrite without_nil; auto. }
  destruct (v_orc v (y_pos y) =? -2). { apply T; auto. }
  match goal with |- context [if ?c then y0 else _] => destruct c end. { apply T; auto. }
  change (y_fs y1) with (y_fs y). destruct (y_fs y) as [l|] eqn:F.
  2:{ split; auto. exists []. split; auto. }
  destruct (v_orc v (y_pos y0) <? 0). { apply T; auto. }
  destruct (collect v y1 l []) as [m y2] eqn:CL.
  destruct (collect_spec v l l y1 [] m y2 CL) as (S2 & F2 & FD & KS).
  { apply incl_refl. } { constructor. } { constructor. }
  change (y_fs y1) with (y_fs y) in F2.
  match goal with |- context [delete_loop v y2 m ?a ?b] => destruct (delete_loop_safe v m y2 a b l) as (ns & A & B & C) end; [congruence|].
  split. { eapply fs_step_trans; [exact S1|]. eapply fs_step_trans; eauto. }
  exists ns. split; auto. apply Forall_forall. intros n Hn. apply C in Hn. cbn [entries].
  eapply from_dir_names; eauto.
Qed.
