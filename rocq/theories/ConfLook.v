(* What can be looked up after files have been read. *)
From Verif Require Import Base Names Num Conf SpecConf ConfProofs ConfRun.
Local Open Scope nat_scope.

(* the value the program finds for a key in a section *)
Definition value_of (cs : confs) (sec key : list Z) : option (list Z) :=
  match find_section sec cs with
  | Some s => match find_config key (se_confs s) with Some c => Some (ce_val c) | None => None end
  | None => None
  end.

Lemma find_config_cons : forall key c r,
  find_config key (c :: r) = if cmatch key c then Some c else find_config key r.
Proof. reflexivity. Qed.
Lemma set_config_cons : forall key v c r,
  set_config key v (c :: r) = if cmatch key c then mkCe (ce_key c) v :: r else c :: set_config key v r.
Proof. reflexivity. Qed.

Lemma cmatch_sym : forall k key c, nkey k = nkey key -> cmatch k c = cmatch key c.
Proof. intros. apply Bool.eq_iff_eq_true. rewrite !cmatch_key, H. tauto. Qed.

Definition nkey_dec (a b : list Z) : {nkey a = nkey b} + {nkey a <> nkey b}.
Proof. decide equality; [apply list_eq_dec, Z.eq_dec|apply Nat.eq_dec]. Defined.

Lemma find_set : forall key k v l, find_config k l <> None ->
  option_map ce_val (find_config key (set_config k v l)) =
  if nkey_dec k key then Some v else option_map ce_val (find_config key l).
Proof.
  intros key k v l. induction l as [|c l IH]; intros N; [exfalso; apply N; reflexivity|].
  rewrite set_config_cons. rewrite find_config_cons in N. destruct (nkey_dec k key) as [K|K].
  - rewrite (cmatch_sym k key c K) in *. destruct (cmatch key c) eqn:M.
    + rewrite find_config_cons. replace (cmatch key (mkCe (ce_key c) v)) with (cmatch key c) by reflexivity. rewrite M. reflexivity.
    + rewrite !find_config_cons, M. apply IH; auto.
  - destruct (cmatch k c) eqn:M.
    + rewrite !find_config_cons. replace (cmatch key (mkCe (ce_key c) v)) with (cmatch key c) by reflexivity.
      destruct (cmatch key c) eqn:M2; auto. apply cmatch_key in M, M2. congruence.
    + rewrite !find_config_cons. destruct (cmatch key c) eqn:M2; auto.
Qed.
Lemma find_put : forall key k v l,
  option_map ce_val (find_config key (put_config k v l)) =
  if nkey_dec k key then Some v else option_map ce_val (find_config key l).
Proof.
  intros key k v l. unfold put_config. destruct (find_config k l) eqn:F; [apply find_set; congruence|].
  rewrite find_config_cons. destruct (nkey_dec k key) as [K|K].
  - replace (cmatch key (mkCe k v)) with true by (symmetry; apply cmatch_key; cbn; auto). reflexivity.
  - destruct (cmatch key (mkCe k v)) eqn:M; [|reflexivity]. exfalso. apply cmatch_key in M. apply K. symmetry. exact M.
Qed.

Lemma value_alt : forall cs sec key, value_of cs sec key =
  match find_section sec cs with Some s => option_map ce_val (find_config key (se_confs s)) | None => None end.
Proof. intros. unfold value_of. destruct (find_section sec cs) as [s|]; reflexivity. Qed.

(* text without NUL *)
Definition plain (s : list Z) : Prop := ~ In 0%Z s.
Definition plain_item (i : item) : Prop :=
  match i with Sec n => plain n | Set_ n k v => plain n /\ plain k /\ plain v end.
Definition plain_confs (cs : confs) : Prop := Forall (fun s => plain (se_name s)) cs.

Lemma find_put_plain : forall key k v l, plain key -> plain k ->
  option_map ce_val (find_config key (put_config k v l)) =
  if same_dec k key then Some v else option_map ce_val (find_config key l).
Proof.
  intros. rewrite find_put. pose proof (nkey_same k key H0 H).
  destruct (nkey_dec k key), (same_dec k key); auto; tauto.
Qed.

(* every setting belongs to a section that exists when it is applied *)
Fixpoint homed (its : list item) (cs : confs) : Prop :=
  match its with
  | [] => True
  | Sec n :: r => homed r (snd (enter n cs))
  | Set_ s k v :: r => exists x, find_section s cs = Some x /\ homed r (upd_section (se_id x) (put_config k v) cs)
  end.

Lemma says_homed : forall ls name its cs, says name ls = Some its ->
  (forall nm, name = Some nm -> find_section nm cs <> None) -> homed its cs.
Proof.
  induction ls as [|l ls IH]; intros name its cs H C; cbn [says] in H.
  - inversion H; subst. exact Logic.I.
  - destruct (classify l) as [|nm|k v|].
    + eapply IH; eauto.
    + destruct (says (Some nm) ls) as [r|] eqn:E; inversion H; subst. cbn [homed].
      eapply IH; [exact E|]. intros nm' X; inversion X; subst. destruct (enter_find nm' cs) as (s & F & _). congruence.
    + destruct name as [nm|]; [|discriminate]. destruct (says (Some nm) ls) as [r|] eqn:E; inversion H; subst. cbn [homed].
      destruct (find_section nm cs) as [x|] eqn:F; [|exfalso; eapply C; eauto].
      exists x. split; auto. eapply IH; [exact E|]. intros nm' X; inversion X; subst. rewrite upd_find, F. congruence.
    + discriminate.
Qed.

Lemma enter_value : forall n cs sec key, value_of (snd (enter n cs)) sec key = value_of cs sec key.
Proof.
  intros. unfold enter. destruct (find_section n cs) eqn:F; cbn [snd]; auto.
  unfold value_of. cbn [find_section se_name]. destruct (memcaseeq sec n) eqn:M; auto.
  cbn [se_confs find_config]. apply memcaseeq_key in M. rewrite (find_section_key _ _ cs M), F. reflexivity.
Qed.

Lemma enter_plain : forall n cs, plain n -> plain_confs cs -> plain_confs (snd (enter n cs)).
Proof. intros. unfold enter. destruct (find_section n cs); cbn [snd]; auto. constructor; auto. Qed.
Lemma upd_plain : forall id f cs, plain_confs cs -> plain_confs (upd_section id f cs).
Proof.
  intros. unfold plain_confs, upd_section. rewrite Forall_map. eapply Forall_impl; [|exact H]. intros s P. destruct (se_id s =? id); auto.
Qed.

Lemma upd_value : forall s x k v cs sec key, CI cs -> plain_confs cs -> plain s -> plain k -> plain sec -> plain key ->
  find_section s cs = Some x ->
  value_of (upd_section (se_id x) (put_config k v) cs) sec key =
  if same_dec s sec then if same_dec k key then Some v else value_of cs sec key else value_of cs sec key.
Proof.
  intros s x k v cs sec key C PC PS PK PE PY F.
  rewrite !value_alt, upd_find. destruct (find_section_in _ _ _ F) as [IX KX].
  assert (PX : plain (se_name x)). { unfold plain_confs in PC. rewrite Forall_forall in PC. auto. }
  destruct (same_dec s sec) as [S|S].
  - apply nkey_same in S; auto. rewrite (find_section_key s sec cs S) in F. rewrite F, Nat.eqb_refl. cbn [se_confs].
    apply find_put_plain; auto.
  - destruct (find_section sec cs) as [y|] eqn:G; auto.
    destruct (Nat.eqb_spec (se_id y) (se_id x)) as [E|E]; auto.
    destruct (find_section_in _ _ _ G) as [IY KY].
    assert (y = x) by (eapply ids_inj; eauto). subst y. exfalso. apply S. apply nkey_same; auto. congruence.
Qed.

Lemma apply_value : forall its cs sec key, CI cs -> plain_confs cs -> Forall plain_item its -> homed its cs ->
  plain sec -> plain key ->
  (forall n, In (Sec n) its -> length n <= 100) ->
  value_of (apply its cs) sec key = match in_force sec key its with Some v => Some v | None => value_of cs sec key end.
Proof.
  induction its as [|i its IH]; intros cs sec key C PC PI H PS PK L; cbn [apply in_force]; auto.
  inversion PI as [|? ? P1 P2]; subst. destruct i as [n|s k v]; cbn [plain_item] in P1; cbn [homed] in H.
  - rewrite IH; auto.
    + rewrite enter_value. destruct (in_force sec key its); auto.
    + apply enter_CI; auto. apply L. left; auto.
    + apply enter_plain; auto.
    + intros m I. apply L. right; auto.
  - destruct H as (x & F & H). rewrite F. destruct P1 as (Pn & Pk & Pv).
    rewrite IH; auto using upd_CI, upd_plain.
    + destruct (in_force sec key its); auto. rewrite (upd_value s); auto. destruct (same_dec s sec); auto. destruct (same_dec k key); auto.
    + intros m I. apply L. right; auto.
Qed.

(* ---- the names of the sections ---- *)

Definition names_of (cs : confs) : list (list Z) := map se_name (rev cs).

Lemma existsb_same : forall cs n, plain_confs cs -> plain n ->
  existsb (fun s => if same_dec s n then true else false) (names_of cs) =
  match find_section n cs with Some _ => true | None => false end.
Proof.
  intros cs n PC PN. destruct (find_section n cs) as [x|] eqn:F.
  - destruct (find_section_in _ _ _ F) as [I K]. apply existsb_exists. exists (se_name x). split.
    + unfold names_of. apply in_map. apply in_rev in I. exact I.
    + unfold plain_confs in PC. rewrite Forall_forall in PC. apply nkey_same in K; auto; [|apply PC; auto].
      destruct (same_dec (se_name x) n); auto. exfalso. apply n0. unfold same in *. congruence.
  - destruct existsb eqn:E; auto. apply existsb_exists in E. destruct E as (m & I & S).
    destruct (same_dec m n) as [S'|]; [|discriminate]. unfold names_of in I. apply in_map_iff in I. destruct I as (s & <- & I).
    apply in_rev in I. exfalso. eapply find_section_none; eauto. apply nkey_same; auto.
    + unfold plain_confs in PC. rewrite Forall_forall in PC. apply PC; auto.
    + unfold same in *. congruence.
Qed.

Lemma upd_names : forall id f cs, names_of (upd_section id f cs) = names_of cs.
Proof.
  intros. unfold names_of, upd_section. rewrite !map_rev, map_map. f_equal. apply map_ext. intros s. destruct (se_id s =? id); auto.
Qed.

Lemma apply_names : forall its cs, plain_confs cs -> Forall plain_item its -> homed its cs ->
  names_of (apply its cs) = names_of cs ++ named (names_of cs) its.
Proof.
  induction its as [|i its IH]; intros cs PC PI H; cbn [apply named].
  - rewrite app_nil_r. reflexivity.
  - inversion PI as [|? ? P1 P2]; subst. destruct i as [n|s k v]; cbn [plain_item] in P1; cbn [homed] in H.
    + rewrite existsb_same by auto. unfold enter in *. destruct (find_section n cs) eqn:F; cbn [snd] in *.
      * apply IH; auto.
      * rewrite IH; auto; [|constructor; auto]. unfold names_of. cbn [rev map]. rewrite map_app. cbn [map se_name]. rewrite <- app_assoc. reflexivity.
    + destruct H as (x & F & H). rewrite F, IH; auto using upd_plain. rewrite upd_names. reflexivity.
Qed.

(* ---- items of plain texts ---- *)

Lemma strip_front_incl : forall l x, In x (strip_front l) -> In x l.
Proof. induction l as [|c l IH]; intros x H; cbn [strip_front] in H; auto. destruct (white c); auto. right; auto. Qed.
Lemma strip_incl : forall l x, In x (strip l) -> In x l.
Proof.
  intros l x H. unfold strip in H. apply in_rev in H. apply strip_front_incl in H. apply in_rev in H. apply strip_front_incl; auto.
Qed.
Lemma cut_incl : forall c l a b x, cut c l = Some (a, b) -> (In x a \/ In x b) -> In x l.
Proof. intros c l a b x H I. apply cut_some in H. destruct H as [-> _]. apply in_or_app. destruct I; [left|right; right]; auto. Qed.

Lemma classify_plain : forall l, plain l -> match classify l with
  | Nothing | Wrong => True
  | Header n => plain n /\ length n <= 100
  | Setting k v => plain k /\ plain v /\ k <> [] /\ v <> []
  end.
Proof.
  intros l P. unfold classify. destruct (2147483647 <? Z.of_nat (length l))%Z; auto.
  assert (PS : plain (strip l)) by (intros I; apply P; apply strip_incl; auto).
  pose proof (strip_head l) as SH. pose proof (strip_last l) as SL.
  destruct (strip l) as [|c r] eqn:E; auto. destruct ((c =? 59) || (c =? 35))%Z; auto.
  destruct (c =? 91)%Z.
  - destruct (cut 93 r) as [[n [|? ?]]|] eqn:CU; auto. destruct (good_name n) eqn:G; auto.
    split; [|apply good_name_short; auto]. intros I. apply PS. right. eapply cut_incl; eauto.
  - destruct (cut 61 (c :: r)) as [[[|a1 a] [|b1 b]]|] eqn:CU; auto.
    repeat split.
    + intros I. apply PS. eapply cut_incl; eauto. left. apply strip_incl; auto.
    + intros I. apply PS. eapply cut_incl; eauto. right. apply strip_incl; auto.
    + apply cut_some in CU. destruct CU as [CU _]. inversion CU; subst. apply strip_nonempty_head; auto.
    + apply cut_some in CU. destruct CU as [CU _].
      destruct (exists_last (l := b1 :: b)) as (i & z & EB); [discriminate|].
      rewrite EB. rewrite CU, EB in SL. rewrite rev_app_distr in SL. cbn [rev] in SL. rewrite rev_app_distr in SL. cbn in SL.
      apply strip_nonempty_in with z; [apply in_or_app; right; left; auto|auto].
Qed.

Lemma lines_plain : forall k text, length text <= k -> plain text -> Forall plain (lines_of text).
Proof.
  induction k as [|k IH]; intros text L P; rewrite lines_cut.
  - destruct text; [|cbn in L; lia]. constructor.
  - destruct (cut 10 text) as [[l r]|] eqn:E; [|constructor]. pose proof E as E'. apply cut_some in E. destruct E as [-> _].
    constructor.
    + intros I. apply P. apply in_or_app; auto.
    + apply IH; [rewrite app_length in L; cbn in L; lia|]. intros I. apply P. apply in_or_app; right; right; auto.
Qed.

Lemma says_plain : forall ls name its, says name ls = Some its -> Forall plain ls -> (forall n, name = Some n -> plain n) ->
  Forall plain_item its /\ (forall n, In (Sec n) its -> length n <= 100) /\ (forall n k v, In (Set_ n k v) its -> k <> [] /\ v <> []).
Proof.
  induction ls as [|l ls IH]; intros name its H F N; cbn [says] in H.
  - inversion H; subst. repeat split; auto; intros; cbn in *; tauto.
  - inversion F as [|? ? F1 F2]; subst. pose proof (classify_plain l F1) as CP. destruct (classify l) as [|nm|k v|].
    + eapply IH; eauto.
    + destruct (says (Some nm) ls) as [r|] eqn:E; inversion H; subst.
      destruct (IH _ _ E F2) as (A & B & D). { intros ? X; inversion X; subst; tauto. }
      split; [constructor; [cbn; tauto|auto]|]. split.
      * intros m [X|X]; [inversion X; subst; tauto|auto].
      * intros m k v [X|X]; [discriminate|eauto].
    + destruct name as [nm|]; [|discriminate]. destruct (says (Some nm) ls) as [r|] eqn:E; inversion H; subst.
      destruct (IH _ _ E F2 N) as (A & B & D).
      split; [constructor; [cbn; repeat split; [apply N; auto|tauto|tauto]|auto]|]. split.
      * intros m [X|X]; [discriminate|auto].
      * intros m k' v' [X|X]; [inversion X; subst; tauto|eauto].
    + discriminate.
Qed.
