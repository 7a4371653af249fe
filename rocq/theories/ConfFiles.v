(* Several files, printed configurations, section enumeration, the configuration directory. *)
From Coq Require Import Sorting.Sorted Sorting.Permutation.
From Verif Require Import Base Names Num Conf SpecConf ConfProofs ConfRun ConfLook Opts Main.
Local Open Scope nat_scope.

Lemma apply_app : forall a b cs, apply (a ++ b) cs = apply b (apply a cs).
Proof. induction a as [|[n|s k v] a IH]; intros b cs; cbn [apply app]; auto. Qed.
Lemma homed_app : forall a b cs, homed a cs -> homed b (apply a cs) -> homed (a ++ b) cs.
Proof.
  induction a as [|[n|s k v] a IH]; intros b cs H1 H2; cbn [apply app homed] in *; auto.
  destruct H1 as (x & F & H1). exists x. rewrite F in H2. auto.
Qed.

Lemma parse_file_ok : forall text cs cs' r, CI cs -> parse_file text cs = Ok (r, cs') -> (0 <= r)%Z ->
  exists its, meaning text = Some its /\ cs' = apply its cs /\ CI cs' /\ r = 0%Z.
Proof.
  intros text cs cs' r C P R. pose proof (parse_file_spec text cs C) as S. destruct (meaning text) as [its|].
  - destruct S as [S C']. rewrite S in P. inversion P; subst. exists its. auto.
  - destruct S as (e & c & S & N). rewrite S in P. inversion P; subst. lia.
Qed.

Definition tells (f : node) (its : list item) : Prop := exists t, f = NData t /\ t <> [] /\ meaning t = Some its.

Lemma parse_ok : forall f cs cs' r, CI cs -> parse f cs = Ok (r, cs') -> (0 <= r)%Z ->
  exists its, tells f its /\ cs' = apply its cs /\ CI cs' /\ r = 0%Z.
Proof.
  intros f cs cs' r C P R. destruct f as [e|[|b data]]; cbn [parse] in P.
  - inversion P; subst. lia.
  - inversion P; subst. unfold EINVAL in R. lia.
  - destruct (parse_file_ok _ _ _ _ C P R) as (its & M & A & C' & Z). exists its. repeat split; auto; try apply C'.
    exists (b :: data). repeat split; auto. discriminate.
Qed.

Lemma parse_each_ok : forall fsys files cs cs' r, CI cs -> parse_each fsys files cs = Ok (r, cs') -> (0 <= r)%Z ->
  exists itss, Forall2 (fun f its => tells (fsys f) its) files itss /\ cs' = apply (concat itss) cs /\ CI cs' /\ r = 0%Z.
Proof.
  induction files as [|f files IH]; intros cs cs' r C P R; cbn [parse_each] in P.
  - inversion P; subst. exists []. split; [constructor|]. auto.
  - apply bind_Ok_inv in P. destruct P as ([r1 cs1] & P1 & P2). destruct (Z.ltb_spec r1 0).
    + inversion P2; subst. lia.
    + destruct (parse_ok _ _ _ _ C P1 H) as (its & T & -> & C1 & _).
      destruct (IH _ _ _ C1 P2 R) as (itss & F & -> & C' & ->).
      exists (its :: itss). cbn [concat]. rewrite apply_app. split; [constructor; auto|]. auto.
Qed.

(* the reader never gets stuck *)
Lemma parse_total : forall f cs, CI cs -> exists r cs', parse f cs = Ok (r, cs') /\ ((0 <= r)%Z -> CI cs').
Proof.
  intros [e|[|b data]] cs C; cbn [parse].
  - exists (- Zpos e)%Z, cs. split; auto.
  - exists (- EINVAL)%Z, cs. split; auto.
  - pose proof (parse_file_spec (b :: data) cs C) as S. destruct (meaning (b :: data)).
    + destruct S as [S C']. eauto.
    + destruct S as (e & c & S & N). exists e, c. split; auto. intros. lia.
Qed.
Lemma parse_each_total : forall fsys files cs, CI cs -> exists r cs', parse_each fsys files cs = Ok (r, cs') /\ ((0 <= r)%Z -> CI cs').
Proof.
  induction files as [|f files IH]; intros cs C; cbn [parse_each].
  - exists 0%Z, cs. split; auto.
  - destruct (parse_total (fsys f) cs C) as (r & cs1 & -> & C1). cbn [bind]. destruct (Z.ltb_spec r 0).
    + exists r, cs1. split; [reflexivity|]. lia.
    + apply IH. auto.
Qed.

(* ---- items of a file ---- *)

Lemma meaning_homed : forall t its cs, meaning t = Some its -> homed its cs.
Proof. intros. eapply says_homed; [exact H|]. intros; discriminate. Qed.
Lemma meaning_plain : forall t its, meaning t = Some its -> plain t ->
  Forall plain_item its /\ (forall n, In (Sec n) its -> length n <= 100).
Proof.
  intros t its M P. destruct (says_plain (lines_of t) None its) as (A & B & _); auto.
  - apply (lines_plain (length t)); auto.
  - intros; discriminate.
Qed.

Definition plain_node (f : node) : Prop := match f with NData t => plain t | NErr _ => True end.

Lemma tells_all : forall fs itss, Forall2 tells fs itss -> Forall plain_node fs -> forall cs,
  Forall plain_item (concat itss) /\ (forall n, In (Sec n) (concat itss) -> length n <= 100) /\ homed (concat itss) cs.
Proof.
  induction 1 as [|f its fs itss (t & -> & _ & M) F IH]; intros PF cs; cbn [concat].
  - split; [constructor|]. split; [intros ? []|exact Logic.I].
  - inversion PF; subst. destruct (meaning_plain _ _ M H1) as [A B]. destruct (IH H2 (apply its cs)) as (A' & B' & H').
    split; [apply Forall_app; auto|]. split.
    + intros n I. apply in_app_or in I. destruct I; auto.
    + apply homed_app; auto. eapply meaning_homed; eauto.
Qed.

(* ---- classify without the restriction to plain texts ---- *)

Lemma classify_nonempty : forall l k v, classify l = Setting k v -> k <> [] /\ v <> [].
Proof.
  intros l k v. unfold classify. destruct (2147483647 <? Z.of_nat (length l))%Z; [discriminate|].
  pose proof (strip_head l) as SH. pose proof (strip_last l) as SL.
  destruct (strip l) as [|c r] eqn:E; [discriminate|]. destruct ((c =? 59) || (c =? 35))%Z; [discriminate|].
  destruct (c =? 91)%Z.
  - destruct (cut 93 r) as [[n [|? ?]]|]; try discriminate. destruct (good_name n); discriminate.
  - destruct (cut 61 (c :: r)) as [[[|a1 a] [|b1 b]]|] eqn:CU; try discriminate. intros X. inversion X; subst; clear X.
    apply cut_some in CU. destruct CU as [CU _]. split.
    + inversion CU; subst. apply strip_nonempty_head; auto.
    + destruct (exists_last (l := b1 :: b)) as (i & z & EB); [discriminate|].
      rewrite EB. rewrite CU, EB in SL. rewrite rev_app_distr in SL. cbn [rev] in SL. rewrite rev_app_distr in SL. cbn in SL.
      apply strip_nonempty_in with z; [apply in_or_app; right; left; auto|auto].
Qed.
Lemma says_nonempty : forall ls name its n k v, says name ls = Some its -> In (Set_ n k v) its -> k <> [] /\ v <> [].
Proof.
  induction ls as [|l ls IH]; intros name its n k v H I; cbn [says] in H.
  - inversion H; subst. destruct I.
  - destruct (classify l) as [|nm|k' v'|] eqn:CL.
    + eapply IH; eauto.
    + destruct (says (Some nm) ls) eqn:E; inversion H; subst. destruct I as [X|I]; [discriminate|]. eapply IH; eauto.
    + destruct name as [nm|]; [|discriminate]. destruct (says (Some nm) ls) eqn:E; inversion H; subst.
      destruct I as [X|I]; [|eapply IH; eauto]. inversion X; subst. eapply classify_nonempty; eauto.
    + discriminate.
Qed.

Definition full (cs : confs) : Prop := forall s c, In s cs -> In c (se_confs s) -> ce_key c <> [] /\ ce_val c <> [].
Lemma set_config_full : forall k v l, v <> [] -> (forall c, In c l -> ce_key c <> [] /\ ce_val c <> []) ->
  forall c, In c (set_config k v l) -> ce_key c <> [] /\ ce_val c <> [].
Proof.
  induction l as [|x l IH]; intros V F c I; [destruct I|]. rewrite set_config_cons in I. destruct (cmatch k x).
  - destruct I as [<-|I]; [cbn; split; [apply F; left; auto|auto]|apply F; right; auto].
  - destruct I as [<-|I]; [apply F; left; auto|]. apply IH; auto. intros; apply F; right; auto.
Qed.
Lemma apply_full : forall its cs, full cs -> (forall n k v, In (Set_ n k v) its -> k <> [] /\ v <> []) -> full (apply its cs).
Proof.
  induction its as [|i its IH]; intros cs F H; cbn [apply]; auto.
  destruct i as [n|s k v].
  - apply IH; [|intros; eapply H; right; eauto]. unfold enter. destruct (find_section n cs); cbn [snd]; auto.
    intros s c [<-|I] J; [destruct J|]. eapply F; eauto.
  - apply IH; [|intros; eapply H; right; eauto]. destruct (H s k v (or_introl eq_refl)) as [K V].
    destruct (find_section s cs) as [x|]; auto.
    intros s' c I J. unfold upd_section in I. apply in_map_iff in I. destruct I as (s0 & <- & I).
    destruct (se_id s0 =? se_id x); [|eapply F; eauto]. cbn [se_confs] in J. unfold put_config in J.
    destruct (find_config k (se_confs s0)); [eapply set_config_full; eauto|]. destruct J as [<-|J]; auto. eapply F; eauto.
Qed.

(* ---- a printed configuration ---- *)

Lemma lines_line : forall l r, ~ In 10%Z l -> lines_of (l ++ 10%Z :: r) = l :: lines_of r.
Proof. intros. rewrite lines_cut, cut_app by auto. reflexivity. Qed.

Definition tight (l : list Z) : Prop :=
  match l with [] => False | c :: _ => white c = false end /\ match rev l with [] => False | c :: _ => white c = false end.

Lemma strip_front_id : forall l, match l with [] => True | c :: _ => white c = false end -> strip_front l = l.
Proof. intros [|c l] H; auto. cbn. rewrite H. reflexivity. Qed.
Lemma strip_tight : forall l, tight l -> strip l = l.
Proof.
  intros l [A B]. unfold strip. rewrite (strip_front_id l) by (destruct l; auto).
  rewrite strip_front_id by (destruct (rev l); auto). apply rev_involutive.
Qed.
Lemma tight_app : forall a b m, tight a -> tight b -> tight (a ++ m ++ b).
Proof.
  intros a b m [A1 A2] [B1 B2]. split.
  - destruct a; [destruct A1|]. exact A1.
  - rewrite !rev_app_distr. destruct (rev b); [destruct B2|]. exact B2.
Qed.

Lemma classify_setting : forall k v, tight k -> tight v -> ~ In 61%Z k ->
  (match k with c :: _ => c <> 91 /\ c <> 59 /\ c <> 35 | [] => True end)%Z ->
  (Z.of_nat (length k + length v) < 2147483647)%Z ->
  classify (k ++ 61%Z :: v) = Setting k v.
Proof.
  intros k v TK TV N1 N2 L. unfold classify.
  rewrite app_length. cbn [length]. destruct (Z.ltb_spec 2147483647 (Z.of_nat (length k + S (length v)))); [lia|].
  replace (k ++ 61%Z :: v) with (k ++ [61%Z] ++ v) by reflexivity. rewrite (strip_tight _ (tight_app k v [61%Z] TK TV)).
  destruct k as [|c k]; [destruct TK as [[] _]|]. cbn [app].
  destruct (Z.eqb_spec c 59); [lia|]. destruct (Z.eqb_spec c 35); [lia|]. cbn [orb]. destruct (Z.eqb_spec c 91); [lia|].
  change (c :: k ++ 61%Z :: v) with ((c :: k) ++ 61%Z :: v). rewrite cut_app by auto.
  destruct v as [|y v]; [destruct TV as [[] _]|]. rewrite !strip_tight by auto. reflexivity.
Qed.

Lemma classify_header : forall n, good_name n = true -> ~ In 93%Z n -> classify (91%Z :: n ++ [93%Z]) = Header n.
Proof.
  intros n G N. unfold classify. cbn [length]. rewrite app_length. cbn [length]. pose proof (good_name_short n G).
  destruct (Z.ltb_spec 2147483647 (Z.of_nat (S (length n + 1)))); [lia|].
  assert (T : tight (91%Z :: n ++ [93%Z])).
  { split; [reflexivity|]. cbn [rev]. rewrite rev_app_distr. reflexivity. }
  rewrite (strip_tight _ T). cbn [Z.eqb Pos.eqb orb]. change (n ++ [93%Z]) with (n ++ 93%Z :: []). rewrite cut_app by auto. rewrite G. reflexivity.
Qed.

(* ---- enumeration ---- *)

(* all sections that successive calls of get_sections deliver *)
Fixpoint visit (fuel : nat) (prefix : list Z) (it : list sect) : res (list sect) :=
  match fuel with
  | O => Fuel
  | S fuel =>
    let* nx := get_sections prefix it in
    match nx with
    | None => Ok []
    | Some (s, r) => let* l := visit fuel prefix r in Ok (s :: l)
    end
  end.

Definition pick (prefix : list Z) (s : sect) : bool := fnstar prefix (cstr (se_name s)).
Lemma get_sections_spec : forall prefix it, Forall (fun s => length (se_name s) < 100) it ->
  exists skip r, it = skip ++ r /\ Forall (fun s => pick prefix s = false) skip /\
  get_sections prefix it = Ok (match r with [] => None | s :: r => Some (s, r) end) /\
  match r with [] => True | s :: _ => pick prefix s = true end.
Proof.
  induction it as [|s it IH]; intros F.
  - exists [], []. repeat split. constructor.
  - inversion F; subst. cbn [get_sections]. unfold MAX_SECTION_NAME. destruct (Nat.ltb_spec (length (se_name s)) 100); [|lia].
    destruct (fnstar prefix (cstr (se_name s))) eqn:E.
    + exists [], (s :: it). repeat split; auto.
    + destruct (IH H2) as (skip & r & -> & FS & G & P). exists (s :: skip), r. repeat split; auto.
Qed.
Lemma visit_spec : forall prefix n it, length it <= n -> Forall (fun s => length (se_name s) < 100) it ->
  visit (S n) prefix it = Ok (filter (pick prefix) it).
Proof.
  intros prefix n it. remember (length it) as k. assert (length it <= k) by lia. clear Heqk. revert n it H.
  assert (FF : forall l, Forall (fun s => pick prefix s = false) l -> filter (pick prefix) l = []).
  { induction 1; cbn; auto. rewrite H. auto. }
  induction k as [k IH] using lt_wf_ind. intros n it LK KN F. cbn [visit].
  destruct (get_sections_spec prefix it F) as (skip & r & -> & FS & -> & P). cbn [bind].
  destruct r as [|s r].
  - rewrite app_nil_r, FF by auto. reflexivity.
  - rewrite filter_app, FF by auto. cbn [app filter]. rewrite P. apply Forall_app in F. destruct F as [_ F]. inversion F; subst.
    rewrite app_length in LK. cbn [length] in LK. destruct n as [|n]; [lia|].
    rewrite (IH (length r)); [reflexivity|lia|lia|lia|auto].
Qed.

(* ---- the directory ---- *)

Definition path_of (dir : list Z) (e : dirent) : list Z := dir ++ [47%Z] ++ de_name e.
Lemma collect_spec : forall dir ents files,
  Forall (fun e => (Z.of_nat (length (path_of dir e)) < 4096)%Z) ents ->
  length files + length (filter de_reg ents) <= 128 ->
  collect dir ents files = Ok (Some (files ++ map (path_of dir) (filter de_reg ents))).
Proof.
  induction ents as [|e ents IH]; intros files F L; cbn [collect filter map].
  - rewrite app_nil_r. reflexivity.
  - inversion F; subst. unfold PATH_MAX. destruct (Z.leb_spec 4096 (Z.of_nat (length (path_of dir e)))); [lia|].
    fold (path_of dir e). destruct (Z.leb_spec 4096 (Z.of_nat (length (path_of dir e)))); [lia|].
    cbn [filter] in L. destruct (de_reg e); cbn [negb length] in *.
    + unfold MAX_FILES. destruct (Nat.ltb_spec (length files) 128); [|lia].
      rewrite app_length. cbn [length]. destruct (Nat.ltb_spec 128 (length files + 1)); [lia|].
      rewrite IH; auto; [|rewrite app_length; cbn [length]; lia]. cbn [map]. rewrite <- app_assoc. reflexivity.
    + apply IH; auto.
Qed.

Lemma str_le_total : forall a b, str_le a b = true \/ str_le b a = true.
Proof.
  induction a as [|x a IH]; intros [|y b]; cbn [str_le]; auto.
  destruct (Z.ltb_spec x y), (Z.ltb_spec y x); auto; lia.
Qed.
Lemma str_le_trans : forall a b c, str_le a b = true -> str_le b c = true -> str_le a c = true.
Proof.
  induction a as [|x a IH]; intros [|y b] [|z c] H1 H2; cbn [str_le] in *; auto; try discriminate.
  destruct (Z.ltb_spec x y), (Z.ltb_spec y x), (Z.ltb_spec y z), (Z.ltb_spec z y), (Z.ltb_spec x z), (Z.ltb_spec z x); try discriminate; auto; try lia.
  eapply IH; eauto.
Qed.
Lemma str_le_anti : forall a b, str_le a b = true -> str_le b a = true -> a = b.
Proof.
  induction a as [|x a IH]; intros [|y b] H1 H2; cbn [str_le] in *; auto; try discriminate.
  destruct (Z.ltb_spec x y), (Z.ltb_spec y x); try discriminate; try lia. f_equal; [lia|]. auto.
Qed.
Lemma ins_perm : forall x l, Permutation (ins_str x l) (x :: l).
Proof.
  induction l as [|y l IH]; cbn [ins_str]; [apply Permutation_refl|]. destruct (str_le x y); [apply Permutation_refl|].
  eapply perm_trans; [apply perm_skip, IH|apply perm_swap].
Qed.
Lemma sort_perm : forall l, Permutation (sort_str l) l.
Proof.
  induction l as [|x l IH]; cbn [sort_str]; [constructor|]. eapply perm_trans; [apply ins_perm|]. apply perm_skip; auto.
Qed.
Definition sorted (l : list (list Z)) : Prop := StronglySorted (fun a b => str_le a b = true) l.
Lemma ins_sorted : forall x l, sorted l -> sorted (ins_str x l).
Proof.
  induction l as [|y l IH]; intros S; cbn [ins_str].
  - constructor; [constructor|constructor].
  - inversion S; subst. destruct (str_le x y) eqn:E.
    + constructor; auto. constructor; auto. eapply Forall_impl; [|exact H2]. intros z Z. eapply str_le_trans; eauto.
    + constructor; [apply IH; auto|]. rewrite Forall_forall. intros z I. apply (Permutation_in _ (ins_perm x l)) in I.
      destruct I as [<-|I]; [destruct (str_le_total x y); congruence|]. rewrite Forall_forall in H2. auto.
Qed.
Lemma sort_sorted : forall l, sorted (sort_str l).
Proof. induction l; cbn [sort_str]; [constructor|]. apply ins_sorted; auto. Qed.
Lemma sorted_unique : forall l m, sorted l -> sorted m -> Permutation l m -> l = m.
Proof.
  induction l as [|x l IH]; intros m S1 S2 P.
  - apply Permutation_nil in P. auto.
  - destruct m as [|y m]; [apply Permutation_sym, Permutation_nil in P; discriminate|].
    inversion S1; inversion S2; subst. rewrite Forall_forall in *.
    assert (x = y).
    { assert (In x (y :: m)) by (eapply Permutation_in; [exact P|left; auto]).
      assert (In y (x :: l)) by (eapply Permutation_in; [apply Permutation_sym; exact P|left; auto]).
      destruct H as [<-|X]; auto. destruct H0 as [<-|Y]; auto. apply str_le_anti; auto. }
    subst y. f_equal. apply IH; auto. eapply Permutation_cons_inv; eauto.
Qed.
