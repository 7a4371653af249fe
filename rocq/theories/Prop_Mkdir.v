(* C76: creating the log directory. *)
From Verif Require Import Base Num Mkdir MkdirProofs.

(* ---- specification ---- *)

(* the directories on the way along [names], from the outermost *)
Fixpoint chain (base : list (list Z)) (names : list (list Z)) : list (list (list Z)) :=
  match names with
  | [] => []
  | n :: r => (base ++ [n]) :: chain (base ++ [n]) r
  end.
Definition absent (t : tree) (p : list (list Z)) : bool := match t p with Absent => true | _ => false end.
(* in a tree everything is in a directory *)
Definition tree_ok (t : tree) : Prop := t [] = Dir /\ forall p x, t (p ++ [x]) <> Absent -> t p = Dir.

(* ---- pieces ---- *)

Lemma rest_in : forall ps p, rest ps -> In p ps -> exists r, p = 47 :: r.
Proof.
  intros ps p R. induction R as [|i|q ps N R IH]; intros I.
  - destruct I.
  - destruct I as [<-|[]]. eexists; reflexivity.
  - destruct I as [<-|I]; auto. destruct N as (i & n & -> & _). eexists; reflexivity.
Qed.
Lemma rest_named : forall a x q l, rest (a ++ x :: q :: l) -> named x.
Proof. induction a as [|y a IH]; intros x q l R; cbn [app] in R; inversion R; subst; auto; [destruct a; discriminate|eauto]. Qed.
Lemma rest_prefix : forall l p suf, rest (l ++ p :: suf) -> rest (l ++ [p]).
Proof.
  induction l as [|y l IH]; intros p suf R; cbn [app] in *; inversion R; subst.
  - constructor.
  - constructor; [auto|constructor].
  - destruct l; discriminate.
  - constructor; [auto|]. eapply IH; eauto.
Qed.
Lemma named_last : forall p, named p \/ first_piece p -> exists a c, p = a ++ [c] /\ c <> 47.
Proof.
  intros p H. assert (X : exists i n, p = repeat 47 i ++ n /\ n <> [] /\ Forall okc n). { destruct H as [(i & n & H)|(i & n & H)]; [exists (S i)|exists i]; exists n; auto. }
  destruct X as (i & n & -> & N & F). destruct n as [|c n _] using rev_ind; [congruence|]. exists (repeat 47 i ++ n), c. rewrite app_assoc. split; auto.
  apply Forall_app in F. destruct F as [_ F]. inversion F as [|? ? [A _]]; auto.
Qed.
Lemma valid_slash : forall q pre p suf, valid (q :: pre ++ p :: suf) -> exists r, p = 47 :: r.
Proof. intros q pre p suf [_ R]. eapply rest_in; [exact R|]. apply in_or_app. right; left; auto. Qed.
Lemma valid_piece : forall pre p suf, valid (pre ++ p :: suf) -> exists i n, p = repeat 47 i ++ n /\ Forall okc n /\
  (pre = [] \/ (exists a c, concat pre = a ++ [c] /\ c <> 47) /\ (0 < i)%nat).
Proof.
  intros pre p suf V. destruct pre as [|q pre].
  - destruct V as [(i & n & E & _ & F) _]. exists i, n. auto.
  - destruct V as [FP R]. assert (X : exists i n, p = repeat 47 i ++ n /\ Forall okc n /\ (0 < i)%nat).
    { clear FP. induction pre as [|y pre IH]; cbn [app] in R; inversion R; subst; auto.
      - exists (S i), []. rewrite app_nil_r. split; auto. split; [constructor|lia].
      - match goal with H : named _ |- _ => destruct H as (i & n & -> & _ & F) end. exists (S i), n. split; auto. split; [auto|lia].
      - destruct pre; discriminate. }
    destruct X as (i & n & E & F & L). exists i, n. split; auto. split; auto. right. split; auto.
    assert (LP : exists x, (named x \/ first_piece x) /\ exists b, concat (q :: pre) = b ++ x).
    { destruct pre as [|x pre _] using rev_ind.
      - exists q. split; auto. exists []. cbn. apply app_nil_r.
      - exists x. rewrite <- app_assoc in R. cbn [app] in R. split; [left; eapply rest_named; exact R|]. exists (concat (q :: pre)). cbn [concat]. rewrite concat_app. cbn. rewrite app_nil_r, app_assoc. auto. }
    destruct LP as (x & NX & b & ->). destruct (named_last x NX) as (a & c & -> & N). exists (b ++ a), c. rewrite app_assoc. auto.
Qed.
Lemma okc_plain : forall i n, Forall okc n -> ~ In 0 (repeat 47 i ++ n).
Proof. intros i n F I. apply in_app_or in I. destruct I as [I|I]; [apply repeat_spec in I; discriminate|]. rewrite Forall_forall in F. apply F in I. destruct I; congruence. Qed.
Lemma valid_plain : forall ps, valid ps -> forall p, In p ps -> ~ In 0 p.
Proof.
  intros ps V p I. apply in_split in I. destruct I as (a & b & ->). destruct (valid_piece _ _ _ V) as (i & n & -> & F & _). apply okc_plain; auto.
Qed.
Lemma plain_concat : forall ps, (forall p, In p ps -> ~ In 0 p) -> ~ In 0 (concat ps).
Proof. intros ps H I. apply in_concat in I. destruct I as (p & A & B). exact (H p A B). Qed.

(* going back from the end of a piece *)
Lemma back_over : forall pre p suf', valid (pre ++ p :: suf') -> forall suf,
  (let* e := back_char (buf (pre ++ [p]) suf) (length (concat (pre ++ [p]))) in back_slash (buf (pre ++ [p]) suf) e) = Ok (length (concat pre)).
Proof.
  intros pre p suf' V suf. destruct (valid_piece _ _ _ V) as (i & n & -> & F & H). unfold buf. rewrite concat_app. cbn [concat]. rewrite app_nil_r.
  destruct (buf_end suf) as (r & ->). rewrite <- (app_assoc (concat pre)). apply back_piece; auto. destruct H as [->|H]; [left; auto|right; auto].
Qed.

Section Scan.
  Variables (t : tree) (cwd : list (list Z)) (all : list (list Z)).
  Let base : list (list Z) := if absolute (concat all) then [] else cwd.
  Hypothesis V : valid all.

  Lemma all_nonempty : forall pre p suf, pre ++ p :: suf = all -> p <> [].
  Proof.
    intros pre p suf E. rewrite <- E in V. destruct pre as [|q pre].
    - destruct V as [(i & n & -> & N & _) _]. destruct i; [auto|discriminate].
    - destruct (valid_slash _ _ _ _ V) as (r & ->). discriminate.
  Qed.
  Lemma abs_prefix : forall pre p suf, pre ++ p :: suf = all -> absolute (concat (pre ++ [p])) = absolute (concat all) /\ concat (pre ++ [p]) <> [].
  Proof.
    intros pre p suf E. pose proof (all_nonempty pre p suf E) as N. rewrite <- E, !concat_app. cbn [concat]. rewrite app_nil_r. 
    destruct (concat pre); [|split; [reflexivity|discriminate]]. cbn [app]. destruct p; [congruence|]. split; [reflexivity|discriminate].
  Qed.
  Definition at_ (pre : list (list Z)) : list (list Z) := base ++ comps (concat pre).
  Lemma resolve_at : forall pre p suf, pre ++ p :: suf = all -> resolve cwd (concat (pre ++ [p])) = at_ (pre ++ [p]).
  Proof. intros pre p suf E. unfold resolve, at_, base. destruct (abs_prefix _ _ _ E) as [-> _]. reflexivity. Qed.
  Lemma stat_at : forall pre p suf, pre ++ p :: suf = all -> stat_ t cwd (concat (pre ++ [p])) =
    match t (at_ (pre ++ [p])) with Absent => None | Dir => Some Dir | File => if ends_slash (concat (pre ++ [p])) then None else Some File end.
  Proof. intros pre p suf E. unfold stat_. destruct (abs_prefix _ _ _ E) as [_ N]. rewrite (resolve_at _ _ _ E). destruct (concat (pre ++ [p])); [congruence|]. reflexivity. Qed.
  Lemma at_snoc : forall q pre p suf, q :: pre ++ p :: suf = all -> at_ ((q :: pre) ++ [p]) = at_ (q :: pre) ++ comps p.
  Proof. intros q pre p suf E. rewrite <- E in V. destruct (valid_slash _ _ _ _ V) as (r & ->). unfold at_. rewrite concat_app. cbn [concat]. rewrite !app_nil_r. rewrite comps_app, <- app_assoc. reflexivity. Qed.
  Lemma plain_pre : forall pre l, pre ++ l = all -> ~ In 0 (concat pre).
  Proof. intros pre l E. apply plain_concat. intros p I. apply (valid_plain all V). rewrite <- E. apply in_or_app; auto. Qed.

  (* the outcome of the first loop *)
  Inductive outcome : Type :=
  | o_file : outcome
  | o_state (pre : list (list Z)) (p : list Z) (suf : list (list Z)) : outcome.
  Definition result (o : outcome) : Z + list Z * nat :=
    match o with
    | o_file => inl (- ENOTDIR)
    | o_state pre p suf => inr (buf (pre ++ [p]) suf, length (concat pre))
    end.
  Definition right_outcome (o : outcome) : Prop :=
    match o with
    | o_file => exists pre p suf, pre ++ p :: suf = all /\ t (at_ (pre ++ [p])) = File
    | o_state pre p suf => pre ++ p :: suf = all /\ (pre <> [] -> t (at_ pre) = Dir) /\ stat_ t cwd (concat (pre ++ [p])) = None
    end.

  Lemma scan_spec : forall pre p suf fuel, (length pre < fuel)%nat -> pre ++ p :: suf = all ->
    match suf with [] => stat_ t cwd (concat (pre ++ [p])) = None | q :: _ => stat_ t cwd (concat ((pre ++ [p]) ++ [q])) = None end ->
    exists o, scan_back fuel t cwd (length (concat all)) (buf (pre ++ [p]) suf) (length (concat pre)) = Ok (result o) /\ right_outcome o.
  Proof.
    intros pre. induction pre as [|q pre IH] using rev_ind; intros p suf fuel L E ST; (destruct fuel as [|fuel]; [lia|]); cbn [scan_back].
    all: rewrite cstring_buf by (eapply plain_pre with (l := suf); rewrite <- app_assoc; exact E); cbn [bind].
    all: pose proof (stat_at _ _ _ E) as SA; unfold is_dir.
    all: destruct (stat_ t cwd (concat _)) as [[| |]|] eqn:SQ; [exfalso; destruct (t (at_ _)) in SA; try discriminate; destruct (ends_slash _) in SA; discriminate| | |].
    - (* a directory *)
      change (0 <? 1) with true. cbv iota. rewrite (strlen_buf [] p suf). 2: { apply (valid_plain all V). rewrite <- E. left; auto. }
      cbn [bind length concat Nat.add]. destruct suf as [|s suf]; [rewrite ST in SQ; discriminate|].
      assert (T : t (at_ [p]) = Dir). { clear - SA. cbn [app] in SA. destruct (t (at_ [p])); try discriminate; auto. destruct (ends_slash _) in SA; discriminate. }
      assert (LT : length p <> length (concat all)).
      { rewrite <- E. cbn [app concat]. pose proof (all_nonempty [p] s suf ltac:(rewrite <- E; reflexivity)) as NE. rewrite !app_length. destruct s; [congruence|cbn; lia]. }
      apply Nat.eqb_neq in LT. rewrite LT. cbn [app] in *. assert (LP : length p = length (concat [p])) by (cbn; rewrite app_nil_r; auto). rewrite LP.
      assert (SL : exists r, s = 47 :: r). { apply (valid_slash p [] s suf). cbn [app]. rewrite E. exact V. }
      rewrite put_slash by exact SL. cbn [bind].
      exists (o_state [p] s suf). split; [reflexivity|]. split; auto.
    - change (0 <? 0) with false. change (0 =? 0) with true. cbv iota. exists o_file. split; [reflexivity|]. exists [], p, suf. split; auto. cbn [app] in *. destruct (t (at_ [p])); try discriminate; auto.
    - change (0 <? -1) with false. change (-1 =? 0) with false. cbv iota. cbn [length concat Nat.eqb]. exists (o_state [] p suf). split; [reflexivity|]. split; auto. split; [congruence|auto].
    - change (0 <? 1) with true. cbv iota. rewrite strlen_buf by (apply (valid_plain all V); rewrite <- E; apply in_or_app; right; left; auto).
      cbn [bind]. destruct suf as [|s suf]; [rewrite ST in SQ; discriminate|].
      assert (T : t (at_ ((pre ++ [q]) ++ [p])) = Dir). { clear - SA. destruct (t (at_ _)); try discriminate; auto. destruct (ends_slash _) in SA; discriminate. }
      assert (LT : (length (concat (pre ++ [q])) + length p)%nat <> length (concat all)).
      { rewrite <- E. pose proof (all_nonempty ((pre ++ [q]) ++ [p]) s suf ltac:(rewrite <- E, <- app_assoc; reflexivity)) as NE. rewrite (concat_app (pre ++ [q])). cbn [concat]. rewrite !app_length. destruct s; [congruence|cbn; lia]. }
      apply Nat.eqb_neq in LT. rewrite LT. assert (LP : (length (concat (pre ++ [q])) + length p)%nat = length (concat ((pre ++ [q]) ++ [p]))) by (rewrite (concat_app (pre ++ [q])), app_length; cbn; rewrite app_nil_r; auto). rewrite LP.
      assert (SL : exists r, s = 47 :: r). { destruct (pre ++ [q]) as [|q0 pq] eqn:PQ; [destruct pre; discriminate|]. apply (valid_slash q0 (pq ++ [p]) s suf). rewrite <- app_assoc. cbn [app] in *. rewrite E. exact V. }
      rewrite put_slash by exact SL. cbn [bind].
      exists (o_state ((pre ++ [q]) ++ [p]) s suf). split; [reflexivity|]. split; [rewrite <- app_assoc; exact E|]. split; auto.
    - change (0 <? 0) with false. change (0 =? 0) with true. cbv iota. exists o_file. split; [reflexivity|]. exists (pre ++ [q]), p, suf. split; auto. destruct (t (at_ _)); try discriminate; auto.
    - change (0 <? -1) with false. change (-1 =? 0) with false. cbv iota.
      assert (NZ : Nat.eqb (length (concat (pre ++ [q]))) 0 = false).
      { apply Nat.eqb_neq. rewrite concat_app, app_length. cbn. rewrite app_nil_r. pose proof (all_nonempty pre q (p :: suf) ltac:(rewrite <- E, <- app_assoc; reflexivity)). destruct q; [congruence|cbn; lia]. }
      rewrite NZ. assert (SL : exists r, p = 47 :: r). { destruct (pre ++ [q]) as [|q0 pq] eqn:PQ; [destruct pre; discriminate|]. apply (valid_slash q0 pq p suf). cbn [app] in E. rewrite E. exact V. }
      rewrite put_zero by exact SL. cbn [bind].
      assert (VB : valid (pre ++ q :: p :: suf)) by (rewrite <- E in V; rewrite <- app_assoc in V; exact V).
      pose proof (back_over pre q (p :: suf) VB (p :: suf)) as BO. destruct (back_char (buf (pre ++ [q]) (p :: suf)) (length (concat (pre ++ [q])))) as [e1| |]; cbn [bind] in BO |- *; try discriminate.
      rewrite BO. cbn [bind]. apply IH; [rewrite app_length in L; cbn in L; lia|rewrite <- E, <- app_assoc; reflexivity|exact SQ].
  Qed.

  Lemma at_next : forall pre p suf, pre ++ p :: suf = all -> at_ (pre ++ [p]) = at_ pre ++ comps p.
  Proof.
    intros pre p suf E. destruct pre as [|q pre]; [|apply (at_snoc q pre p suf); exact E].
    unfold at_. cbn [app concat]. rewrite app_nil_r. change (comps []) with (@nil (list Z)). rewrite app_nil_r. reflexivity.
  Qed.
  Lemma comps_one : forall pre p suf, pre ++ p :: suf = all -> (comps p = [] /\ pre <> [] /\ suf = []) \/ (exists n, comps p = [n] /\ exists a c, p = a ++ [c] /\ c <> 47).
  Proof.
    intros pre p suf E. rewrite <- E in V. destruct (valid_piece _ _ _ V) as (i & n & -> & F & H). rewrite comps_slashes. destruct n as [|c n].
    - left. split; [reflexivity|]. destruct pre as [|q pre].
      + exfalso. destruct V as [(j & m & EQ & N & FM) _]. rewrite app_nil_r in EQ. destruct m as [|c m _] using rev_ind; [congruence|]. apply Forall_app in FM. destruct FM as [_ FM]. inversion FM as [|? ? [A _]]; subst.
        assert (I : In c (repeat 47 i)) by (rewrite EQ; apply in_or_app; right; apply in_or_app; right; left; auto). apply repeat_spec in I. congruence.
      + split; [discriminate|]. destruct suf as [|s suf]; auto. exfalso. destruct V as [_ R]. apply rest_named in R. destruct R as (j & m & EQ & N & FM). rewrite app_nil_r in EQ.
        destruct m as [|c m _] using rev_ind; [congruence|]. apply Forall_app in FM. destruct FM as [_ FM]. inversion FM as [|? ? [A _]]; subst.
        assert (I : In c (repeat 47 i)) by (rewrite EQ; apply in_or_app; right; apply in_or_app; right; left; auto). apply repeat_spec in I. congruence.
    - right. exists (c :: n). split; [apply comps_name; [discriminate|auto]|]. apply named_last. right. exists i, (c :: n). split; auto. split; [discriminate|auto].
  Qed.
End Scan.

Lemma chain_app : forall x b y, chain b (x ++ y) = chain b x ++ chain (b ++ x) y.
Proof. induction x as [|n x IH]; intros b y; cbn [app chain]; [rewrite app_nil_r; auto|]. rewrite IH, <- app_assoc. reflexivity. Qed.
Lemma chain_long : forall l b x, In x (chain b l) -> (length b < length x)%nat.
Proof. induction l as [|n l IH]; intros b x I; cbn [chain] in I; [destruct I|]. destruct I as [<-|I]; [rewrite app_length; cbn; lia|]. apply IH in I. rewrite app_length in I. cbn in I. lia. Qed.
Lemma chain_ext : forall l b x, In x (chain b l) -> exists y, x = b ++ y /\ y <> [].
Proof.
  induction l as [|n l IH]; intros b x I; cbn [chain] in I; [destruct I|]. destruct I as [<-|I]; [exists [n]; split; [auto|discriminate]|].
  destruct (IH _ _ I) as (y & -> & _). exists (n :: y). rewrite <- app_assoc. split; [auto|discriminate].
Qed.
Lemma chain_in : forall x b y, x <> [] -> In (b ++ x) (chain b (x ++ y)).
Proof.
  intros x b y N. destruct x as [|n x _] using rev_ind; [congruence|]. rewrite <- app_assoc, chain_app. cbn [app chain]. apply in_or_app. right. left. rewrite app_assoc. auto.
Qed.
Lemma tree_below : forall t y b, tree_ok t -> t (b ++ y) <> Absent -> y <> [] -> t b = Dir.
Proof.
  intros t y. induction y as [|n y IH] using rev_ind; intros b T A N; [congruence|]. destruct T as [T0 T]. rewrite app_assoc in A. apply T in A. destruct y as [|z y]; [rewrite app_nil_r in A; auto|].
  apply IH; [split; auto| |discriminate]. rewrite A. discriminate.
Qed.
Lemma chain_absent : forall t l b x, tree_ok t -> t b = Absent -> In x (chain b l) -> t x = Absent.
Proof.
  intros t l b x T A I. destruct (chain_ext _ _ _ I) as (y & -> & N). destruct (t (b ++ y)) eqn:E; auto.
  - assert (X : t b = Dir) by (apply (tree_below t y b T); [rewrite E; discriminate|auto]). congruence.
  - assert (X : t b = Dir) by (apply (tree_below t y b T); [rewrite E; discriminate|auto]). congruence.
Qed.
Lemma chain_dirs : forall t l b, tree_ok t -> t b = Dir -> t (b ++ l) = Dir -> forall x, In x (chain b l) -> t x = Dir.
Proof.
  intros t l. induction l as [|n l IH]; intros b T B E x I; cbn [chain] in I; [destruct I|].
  assert (D : t (b ++ [n]) = Dir). { destruct l as [|m l]; auto. change (n :: m :: l) with ([n] ++ m :: l) in E. rewrite app_assoc in E. apply (tree_below t (m :: l) _ T); [rewrite E; discriminate|discriminate]. }
  destruct I as [<-|I]; auto. apply (IH (b ++ [n])); auto. rewrite <- app_assoc. exact E.
Qed.

Definition path_dec := list_eq_dec (list_eq_dec Z.eq_dec).
Lemma make_spec : forall orc cwd all, valid all -> (forall n, 0 <= orc n /\ orc n <> EEXIST) ->
  forall suf pre p w fuel, pre ++ p :: suf = all -> (length suf + 1 < fuel)%nat ->
  let L := chain (at_ cwd all pre) (concat (map comps (p :: suf))) in
  d_tree w (at_ cwd all pre) = Dir -> (forall x, In x L -> d_tree w x = Absent) ->
  exists r w' k, make_all fuel orc cwd (length (concat all)) w (buf (pre ++ [p]) suf) (length (concat pre)) = Ok (r, w') /\
    d_made w' = d_made w ++ firstn k L /\ (forall q, d_tree w' q = if in_dec path_dec q (firstn k L) then Dir else d_tree w q) /\
    (r = 0 /\ firstn k L = L \/ (r < 0 /\ exists j, r = - orc j)).
Proof.
  intros orc cwd all V OK. induction suf as [|s suf IH]; intros pre p w fuel E FU L D A; (destruct fuel as [|fuel]; [lia|]); cbn [make_all].
  all: pose proof (all_nonempty all V pre p _ E) as NE.
  all: assert (LT : (length (concat pre) <? length (concat all))%nat = true) by (apply Nat.ltb_lt; rewrite <- E, concat_app, app_length; cbn [concat]; rewrite app_length; destruct p; [congruence|cbn; lia]).
  all: rewrite LT, cstring_buf by (eapply (plain_pre all V) with (l := _); rewrite <- app_assoc; exact E); cbn [bind].
  all: assert (LE : (length (concat pre) + length p)%nat = length (concat (pre ++ [p]))) by (rewrite concat_app, app_length; cbn; rewrite app_nil_r; auto).
  all: assert (SL : forall sf, strlen (buf (pre ++ [p]) sf) (length (concat pre)) = Ok (length p)) by (intros sf; apply strlen_buf; apply (valid_plain all V); rewrite <- E; apply in_or_app; right; left; auto).
  (* the effect of mkdir on this piece *)
  all: assert (MK : exists r1 w1, mkdir_ orc cwd w (concat (pre ++ [p])) = (r1, w1) /\
     (((r1 <? 0) && negb (r1 =? - EEXIST))%bool = true /\ r1 < 0 /\ (exists j, r1 = - orc j) /\ d_tree w1 = d_tree w /\ d_made w1 = d_made w \/
      ((r1 <? 0) && negb (r1 =? - EEXIST))%bool = false /\ d_made w1 = d_made w ++ chain (at_ cwd all pre) (comps p) /\
      (forall q, d_tree w1 q = if in_dec path_dec q (chain (at_ cwd all pre) (comps p)) then Dir else d_tree w q))).
  1, 3: unfold mkdir_; rewrite (resolve_at cwd all V pre p _ E), (at_next cwd all V pre p _ E); destruct (abs_prefix all V pre p _ E) as [_ NEC]; destruct (concat (pre ++ [p])) as [|c0 cs0]; [congruence|];
    destruct (comps_one cwd all V pre p _ E) as [(CP & _ & _)|(n & CP & _)]; rewrite CP.
  1, 3: rewrite app_nil_r, D; eexists; eexists; split; [reflexivity|]; right; split; [reflexivity|]; cbn [chain]; split; [cbn [d_made]; rewrite app_nil_r; auto|]; intros q; destruct (in_dec path_dec q []) as [[]|_]; reflexivity.
  1, 2: assert (AN : d_tree w (at_ cwd all pre ++ [n]) = Absent) by (apply A; subst L; cbn [map concat]; rewrite CP; left; auto);
    rewrite AN, removelast_last, D; destruct (Z.eqb_spec (orc (d_calls w)) 0) as [O|O]; eexists; eexists; (split; [reflexivity|]);
    [right; split; [reflexivity|]; split; [reflexivity|]; intros q; cbn [d_tree chain]; unfold add_dir;
       destruct (in_dec path_dec q [at_ cwd all pre ++ [n]]) as [[I|[]]|I]; destruct (list_eq_dec (list_eq_dec Z.eq_dec) q (at_ cwd all pre ++ [n])); try reflexivity; [congruence|exfalso; apply I; left; congruence]
    |left; destruct (OK (d_calls w)); split; [destruct (Z.ltb_spec (- orc (d_calls w)) 0); [|lia]; destruct (Z.eqb_spec (- orc (d_calls w)) (- EEXIST)); [unfold EEXIST in *; lia|reflexivity]|]; split; [lia|]; split; [eauto|split; reflexivity]].
  (* the end of the path *)
  - destruct MK as (r1 & w1 & -> & [(B & NG & J & T & M)|(B & M & T)]); rewrite B.
    + exists r1, w1, 0%nat. split; auto. rewrite M. cbn [firstn]. rewrite app_nil_r. split; auto. split; [|right; auto]. intros q. rewrite T. destruct (in_dec path_dec q []) as [[]|_]; auto.
    + assert (LL : L = chain (at_ cwd all pre) (comps p)) by (subst L; cbn [map concat]; rewrite app_nil_r; auto). rewrite SL. cbn [bind]. rewrite LE.
      assert (EA : length (concat all) = length (concat (pre ++ [p]))) by (rewrite <- E; auto).
      unfold buf. cbn [map concat app]. rewrite put_app. cbn [bind]. destruct fuel as [|fuel]; [cbn in FU; lia|]. cbn [make_all]. rewrite <- EA, Nat.ltb_irrefl.
      exists 0, w1, (length L). split; auto. rewrite firstn_all, LL. split; auto.
  - destruct MK as (r1 & w1 & -> & [(B & NG & J & T & M)|(B & M & T)]); rewrite B.
    + exists r1, w1, 0%nat. split; auto. rewrite M. cbn [firstn]. rewrite app_nil_r. split; auto. split; [|right; auto]. intros q. rewrite T. destruct (in_dec path_dec q []) as [[]|_]; auto.
    + rewrite SL. cbn [bind]. rewrite LE.
      assert (SS : exists r, s = 47 :: r). { rewrite <- E in V. destruct pre as [|q0 pre]; [apply (valid_slash p [] s suf); exact V|]. apply (valid_slash q0 (pre ++ [p]) s suf). rewrite <- app_assoc. exact V. }
      rewrite put_slash by exact SS. cbn [bind].
      assert (E2 : (pre ++ [p]) ++ s :: suf = all) by (rewrite <- app_assoc; exact E).
      assert (LL : L = chain (at_ cwd all pre) (comps p) ++ chain (at_ cwd all (pre ++ [p])) (concat (map comps (s :: suf)))).
      { subst L. cbn [map]. change (concat (comps p :: comps s :: map comps suf)) with (comps p ++ concat (map comps (s :: suf))). rewrite chain_app, (at_next cwd all V pre p _ E). reflexivity. }
      destruct (IH (pre ++ [p]) s w1 fuel E2 ltac:(cbn in FU; lia)) as (r & w' & k & -> & M2 & T2 & R2).
      * rewrite T. destruct (in_dec path_dec _ _) as [_|NI]; auto. rewrite (at_next cwd all V pre p _ E).
        destruct (comps_one cwd all V pre p _ E) as [(CP & _ & X)|(n & CP & _)]; [discriminate|]. exfalso. apply NI. rewrite (at_next cwd all V pre p _ E), CP. left. auto.
      * intros x I. rewrite T. destruct (in_dec path_dec x _) as [I2|_].
        -- exfalso. apply chain_long in I. rewrite (at_next cwd all V pre p _ E) in I. destruct (comps_one cwd all V pre p _ E) as [(CP & _ & X)|(n & CP & _)]; [discriminate|]. rewrite CP in *. cbn in I2. destruct I2 as [<-|[]]. lia.
        -- apply A. rewrite LL. apply in_or_app; auto.
      * set (C1 := chain (at_ cwd all pre) (comps p)) in *. set (C2 := chain (at_ cwd all (pre ++ [p])) (concat (map comps (s :: suf)))) in *.
        exists r, w', (length C1 + k)%nat. split; auto. rewrite LL, firstn_app_2. rewrite M2, M, <- app_assoc. split; auto. split.
        -- intros q. rewrite T2, T. destruct (in_dec path_dec q (firstn k C2)) as [I|I]; destruct (in_dec path_dec q C1) as [I1|I1]; destruct (in_dec path_dec q (C1 ++ firstn k C2)) as [I2|I2]; auto;
             try (exfalso; apply I2; apply in_or_app; auto; fail). apply in_app_or in I2. tauto.
        -- destruct R2 as [[-> R2]|R2]; [left|right; auto]. rewrite R2. auto.
Qed.

(* ---- the property ---- *)

Lemma ends_last : forall a c, ends_slash (a ++ [c]) = (c =? 47).
Proof. intros. unfold ends_slash. rewrite rev_app_distr. reflexivity. Qed.
Lemma filter_all : forall A (f : A -> bool) l, (forall x, In x l -> f x = true) -> filter f l = l.
Proof. induction l as [|x l IH]; intros H; cbn [filter]; auto. rewrite (H x (or_introl eq_refl)), IH; auto. intros y I. apply H. right; auto. Qed.
Lemma filter_nothing : forall A (f : A -> bool) l, (forall x, In x l -> f x = false) -> filter f l = [].
Proof. induction l as [|x l IH]; intros H; cbn [filter]; auto. rewrite (H x (or_introl eq_refl)). apply IH. intros y I. apply H. right; auto. Qed.
Lemma comps_concat : forall all, valid all -> comps (concat all) = concat (map comps all).
Proof.
  intros all V. destruct all as [|p ps]; [destruct V|]. destruct V as [FP R]. cbn [concat map]. clear FP. revert p. induction ps as [|q ps IH]; intros p; cbn [concat map].
  - rewrite !app_nil_r. reflexivity.
  - destruct (rest_in _ q R (or_introl eq_refl)) as (r & ->). assert (R' : rest ps) by (inversion R; subst; auto; constructor). specialize (IH R').
    cbn [app]. rewrite comps_app. f_equal. specialize (IH (47 :: r)). cbn [app] in IH. unfold comps at 1 in IH. cbn [comps_from] in IH. change (47 =? 47) with true in IH. cbv iota in IH. exact IH.
Qed.

(* In every tree and for every path: the call returns; if something on the way is a file it fails and changes nothing;
   otherwise it creates missing directories of the path in order from the outermost, and nothing else: all of them,
   with result 0, unless the system refuses to create one. *)
Theorem C76_mkdir : forall orc cwd t path, tree_ok t -> t cwd = Dir -> (forall n, 0 <= orc n /\ orc n <> EEXIST) -> path <> [] -> ~ In 0 path ->
  let base := if absolute path then [] else cwd in
  let way := chain base (comps path) in
  exists r w, mkdir_p orc cwd (mkDirs t [] 0) path = Ok (r, w) /\
    ((exists q, In q way /\ t q = File) -> r = - ENOTDIR /\ d_made w = [] /\ d_tree w = t) /\
    ((forall q, In q way -> t q <> File) ->
      (exists k, d_made w = firstn k (filter (absent t) way)) /\
      (forall q, d_tree w q = if in_dec path_dec q (d_made w) then Dir else t q) /\
      (r = 0 /\ d_made w = filter (absent t) way \/ r < 0 /\ exists j, r = - orc j)).
Proof.
  intros orc cwd t path T CW OK NE Z0 base way. unfold mkdir_p. cbn [d_tree].
  assert (BD : t base = Dir) by (unfold base; destruct (absolute path); [apply T|auto]).
  assert (RV : resolve cwd path = base ++ comps path) by reflexivity.
  assert (CS : cstring (path ++ [0]) = Ok path) by (apply cstring_app; auto).
  replace (length path + 3)%nat with (S (S (S (length path)))) by lia.
  (* the whole path exists as a directory *)
  assert (DONE : t (base ++ comps path) = Dir -> exists r w, (let* r := scan_back (S (S (S (length path)))) t cwd (length path) (path ++ [0]) (length path) in
      match r with inl r => Ok (r, mkDirs t [] 0) | inr (b, e) => make_all (S (S (S (length path)))) orc cwd (length path) (mkDirs t [] 0) b e end) = Ok (r, w) /\
    ((exists q, In q way /\ t q = File) -> r = - ENOTDIR /\ d_made w = [] /\ d_tree w = t) /\
    ((forall q, In q way -> t q <> File) ->
      (exists k, d_made w = firstn k (filter (absent t) way)) /\
      (forall q, d_tree w q = if in_dec path_dec q (d_made w) then Dir else t q) /\
      (r = 0 /\ d_made w = filter (absent t) way \/ r < 0 /\ exists j, r = - orc j))).
  { intros D. exists 0, (mkDirs t [] 0). pose proof (chain_dirs t _ _ T BD D) as AD. split; [|split].
    - cbn [scan_back]. rewrite CS. cbn [bind]. unfold is_dir, stat_. destruct path as [|c0 r0] eqn:PE; [congruence|]. rewrite <- PE in *. rewrite RV, D. change (0 <? 1) with true. cbv iota.
      unfold strlen. rewrite app_length. cbn [length]. destruct (Nat.ltb_spec (length path) (length path + 1)); [|lia]. rewrite skipn_app, skipn_all, Nat.sub_diag. cbn [app skipn cstring bind]. change (0 =? 0) with true. cbv iota. cbn [bind length]. rewrite Nat.add_0_r, Nat.eqb_refl. reflexivity.
    - intros (q & I & F). apply AD in I. congruence.
    - intros _. assert (FE : filter (absent t) way = []) by (apply filter_nothing; intros x I; apply AD in I; unfold absent; rewrite I; auto). rewrite FE. split; [exists 0%nat; reflexivity|]. split; [|left; auto].
      intros q. cbn [d_made d_tree]. destruct (in_dec path_dec q []) as [[]|_]; auto. }
  destruct (comps_split path Z0) as [CE|(all & PE & V)]. { apply DONE. rewrite CE, app_nil_r. auto. }
  assert (SE : stat_ t cwd path = match t (base ++ comps path) with Absent => None | Dir => Some Dir | File => if ends_slash path then None else Some File end).
  { unfold stat_. rewrite RV. destruct path; [congruence|reflexivity]. }
  destruct (stat_ t cwd path) as [e0|] eqn:ST0.
  - destruct (t (base ++ comps path)) eqn:TF; [discriminate|auto|]. destruct (ends_slash path); [discriminate|]. inversion SE; subst e0.
    exists (- ENOTDIR), (mkDirs t [] 0). split; [|split; [auto|]].
    + cbn [scan_back]. rewrite CS. cbn [bind]. unfold is_dir. rewrite ST0. reflexivity.
    + intros NF. exfalso. apply (NF (base ++ comps path)); auto. unfold way. rewrite <- (app_nil_r (comps path)) at 2. apply chain_in.
      rewrite PE, comps_concat by auto. destruct all as [|q0 l0]; [destruct V|]. destruct V as [(i & n & -> & N & FN) _]. cbn [map concat]. rewrite comps_slashes, comps_name; auto. discriminate.
  - (* not found *)
    assert (X : exists pre p, all = pre ++ [p]). { destruct all as [|p pre _] using rev_ind; [destruct V|eauto]. } destruct X as (pre & p & AE).
    assert (E : pre ++ p :: [] = all) by auto.
    assert (BA : base = if absolute (concat all) then [] else cwd) by (unfold base; rewrite PE; auto).
    assert (AT : forall l, at_ cwd all l = base ++ comps (concat l)) by (intros; unfold at_; rewrite <- BA; auto).
    assert (SF : stat_ t cwd (concat (pre ++ [p])) = None). { rewrite <- AE, <- PE. exact ST0. }
    remember (scan_back (S (S (S (length path)))) t cwd (length path) (path ++ [0]) (length path)) as sc eqn:SC.
    assert (SCE : exists o, sc = Ok (result o) /\ right_outcome t cwd all o).
    { rewrite SC. remember (S (S (length path))) as f2. cbn [scan_back]. rewrite CS. cbn [bind]. unfold is_dir. rewrite PE, AE, SF. change (0 <? -1) with false. change (-1 =? 0) with false. cbv iota. rewrite <- AE, <- PE.
      destruct (Nat.eqb_spec (length path) 0) as [L0|L0]; [destruct path; [congruence|discriminate]|].
      rewrite put_app. cbn [bind]. pose proof (back_over pre p [] ltac:(rewrite E; exact V) []) as BO. rewrite <- AE, <- PE in BO. unfold buf in BO. cbn [map concat app] in BO. rewrite <- PE in BO.
      destruct (back_char (path ++ [0]) (length path)) as [e1| |]; cbn [bind] in BO |- *; try discriminate. rewrite BO. cbn [bind].
      assert (PB : path ++ [0] = buf (pre ++ [p]) []) by (unfold buf; cbn [map concat app]; rewrite <- AE, PE; auto). rewrite PB, PE. apply scan_spec; auto.
      subst f2. assert (length pre <= length (concat pre))%nat.
      { clear - V E. assert (H : forall q, In q pre -> q <> []). { intros q I. apply in_split in I. destruct I as (a & b & ->). apply (all_nonempty all V a q (b ++ [p])). rewrite <- E, <- app_assoc. reflexivity. }
        clear E V. induction pre as [|q pre IH]; cbn; [lia|]. rewrite app_length. assert (q <> []) by (apply H; left; auto). destruct q; [congruence|]. cbn. assert (length pre <= length (concat pre))%nat by (apply IH; intros; apply H; right; auto). lia. }
      rewrite PE, AE, concat_app, app_length. lia. }
    destruct SCE as (o & -> & RO). cbn [bind]. assert (WAY : way = chain base (concat (map comps all))) by (unfold way; rewrite PE, comps_concat; auto).
    destruct o as [|pre2 p2 suf2]; cbn [result] in *.
    + destruct RO as (pre2 & p2 & suf2 & E2 & F). exists (- ENOTDIR), (mkDirs t [] 0). split; auto. split; auto. intros NF. exfalso. apply (NF (at_ cwd all (pre2 ++ [p2]))); auto.
      rewrite AT. unfold way. rewrite PE, (comps_concat all V). rewrite <- E2. change (p2 :: suf2) with ([p2] ++ suf2). rewrite app_assoc, map_app, (concat_app (map comps (pre2 ++ [p2]))).
      assert (V2 : valid (pre2 ++ [p2])). { rewrite <- E2 in V. destruct pre2 as [|q0 pre2]; cbn [app] in *; [destruct V; split; [auto|constructor]|]. destruct V as [V1 V2]. split; auto. exact (rest_prefix _ _ _ V2). }
      rewrite <- (comps_concat _ V2). apply chain_in. destruct (pre2 ++ [p2]) as [|q0 l0]; [destruct V2|]. rewrite comps_concat by auto. destruct V2 as [(i & n & -> & N & FN) _]. cbn [map concat]. rewrite comps_slashes, comps_name; auto. discriminate.
    + destruct RO as (E2 & DP & SN).
      assert (V2 : pre2 = [] \/ valid pre2). { rewrite <- E2 in V. destruct pre2 as [|q0 pre2]; auto. right. destruct V as [V1 V2]. split; auto. clear - V2. induction pre2 as [|y l IH]; cbn [app] in *; [constructor|]. inversion V2; subst; [destruct l; discriminate|]. constructor; auto. }
      assert (CC : comps (concat pre2) = concat (map comps pre2)) by (destruct V2 as [->|V2]; [reflexivity|apply comps_concat; auto]).
      assert (DP2 : t (at_ cwd all pre2) = Dir). { destruct pre2 as [|q0 pre2]; [|apply DP; discriminate]. rewrite AT. cbn [concat]. change (comps []) with (@nil (list Z)). rewrite app_nil_r. auto. }
      assert (AB : t (at_ cwd all (pre2 ++ [p2])) = Absent /\ exists n, comps p2 = [n]).
      { rewrite (stat_at t cwd all V pre2 p2 suf2 E2) in SN. rewrite (at_next cwd all V pre2 p2 suf2 E2) in *. destruct (comps_one cwd all V pre2 p2 suf2 E2) as [(CP & _ & _)|(n & CP & a & c & PA & NC)].
        - rewrite CP, app_nil_r, DP2 in SN. discriminate.
        - split; [|eauto]. rewrite CP in *. destruct (t (at_ cwd all pre2 ++ [n])); auto; [discriminate|]. exfalso. rewrite PA in SN. rewrite concat_app in SN. cbn [concat] in SN. rewrite app_nil_r, app_assoc, ends_last in SN.
          destruct (Z.eqb_spec c 47); [congruence|discriminate]. }
      destruct AB as (AB & n & CP).
      assert (ABS : forall x, In x (chain (at_ cwd all pre2) (concat (map comps (p2 :: suf2)))) -> t x = Absent).
      { intros x I. cbn [map concat] in I. rewrite CP in I. cbn [app chain] in I. rewrite (at_next cwd all V pre2 p2 suf2 E2), CP in AB. destruct I as [<-|I]; auto. eapply chain_absent; eauto. }
      assert (SPL : way = chain base (comps (concat pre2)) ++ chain (at_ cwd all pre2) (concat (map comps (p2 :: suf2)))).
      { rewrite AT, WAY, CC, <- E2, map_app, concat_app, chain_app. reflexivity. }
      assert (DIRS : forall x, In x (chain base (comps (concat pre2))) -> t x = Dir) by (apply chain_dirs; auto; rewrite <- AT; auto).
      assert (NOF : ~ exists q, In q way /\ t q = File). { intros (q & I & F). rewrite SPL in I. apply in_app_or in I. destruct I as [I|I]; [apply DIRS in I|apply ABS in I]; congruence. }
      assert (MIS : filter (absent t) way = chain (at_ cwd all pre2) (concat (map comps (p2 :: suf2)))).
      { rewrite SPL, filter_app. rewrite filter_nothing, filter_all; auto; intros x I; unfold absent; [rewrite (ABS x I)|rewrite (DIRS x I)]; auto. }
      assert (FU : (length suf2 + 1 < S (S (S (length path))))%nat).
      { assert (H : forall q, In q suf2 -> q <> []). { intros q I. apply in_split in I. destruct I as (a & b & ->). apply (all_nonempty all V (pre2 ++ p2 :: a) q b). rewrite <- E2, <- app_assoc. reflexivity. }
        assert (length suf2 <= length (concat suf2))%nat. { clear - H. induction suf2 as [|q l IH]; cbn; [lia|]. rewrite app_length. assert (q <> []) by (apply H; left; auto). destruct q; [congruence|]. cbn. assert (length l <= length (concat l))%nat by (apply IH; intros; apply H; right; auto). lia. }
        rewrite PE, <- E2, concat_app, app_length. cbn [concat]. rewrite app_length. lia. }
      destruct (make_spec orc cwd all V OK suf2 pre2 p2 (mkDirs t [] 0) _ E2 FU DP2 ABS) as (r & w & k & MA & M & TT & R).
      rewrite PE. rewrite PE in MA. exists r, w. split; [exact MA|]. split; [intros X; exfalso; apply NOF; exact X|]. intros _. rewrite MIS. cbn [d_made app] in M. rewrite M. split; [eauto|]. split.
      { intros q. exact (TT q). } destruct R as [[-> R]|R]; [left; auto|right; auto].
Qed.
Print Assumptions C76_mkdir.

(* So without errors and without a file in the way the whole path exists afterwards, and everything else is unchanged. *)
Theorem C76_created : forall cwd t path, tree_ok t -> t cwd = Dir -> path <> [] -> ~ In 0 path ->
  let way := chain (if absolute path then [] else cwd) (comps path) in
  (forall q, In q way -> t q <> File) ->
  exists w, mkdir_p (fun _ => 0) cwd (mkDirs t [] 0) path = Ok (0, w) /\
    d_made w = filter (absent t) way /\ (forall q, In q way -> d_tree w q = Dir) /\ (forall q, ~ In q way -> d_tree w q = t q).
Proof.
  intros cwd t path T C N Z0 way NF. destruct (C76_mkdir (fun _ => 0) cwd t path T C) as (r & w & E & _ & H); auto. { unfold EEXIST. intros. lia. }
  destruct (H NF) as (_ & TT & [[-> M]|[L (j & ->)]]); [|lia]. exists w. split; auto. split; auto. fold way in M. split; intros q I; rewrite TT; destruct (in_dec path_dec q (d_made w)) as [J|J]; auto.
  - destruct (t q) eqn:TQ; auto; [|exfalso; apply (NF q I TQ)]. exfalso. apply J. rewrite M. apply filter_In. split; auto. unfold absent. rewrite TQ. auto.
  - exfalso. rewrite M in J. apply filter_In in J. tauto.
Qed.
Print Assumptions C76_created.

(* /var exists, /var/log and below do not; trailing and doubled slashes; a file in the way *)
Definition ex_tree : tree := fun p =>
  if path_dec p [] then Dir else if path_dec p [[118]] then Dir else if path_dec p [[118]; [102]] then File else Absent.
Example C76_nonvacuous : tree_ok ex_tree /\
  (let way := chain [] (comps [47; 118; 47; 47; 108; 47; 109; 47]) in (forall q, In q way -> ex_tree q <> File) /\ filter (absent ex_tree) way = [[[118]; [108]]; [[118]; [108]; [109]]]) /\
  (exists q, In q (chain [[118]] (comps [102; 47; 120])) /\ ex_tree q = File).
Proof.
  split; [|split; [split|]].
  - split; [reflexivity|]. intros p x H. unfold ex_tree in H. destruct (path_dec (p ++ [x]) []) as [E|_]; [destruct p; discriminate|].
    destruct (path_dec (p ++ [x]) [[118]]) as [E|_]; [apply (app_inj_tail p [] x [118]) in E; destruct E; subst; reflexivity|].
    destruct (path_dec (p ++ [x]) [[118]; [102]]) as [E|_]; [apply (app_inj_tail p [[118]] x [102]) in E; destruct E; subst; reflexivity|]. congruence.
  - intros q [<-|[<-|[<-|[]]]]; vm_compute; discriminate.
  - reflexivity.
  - exists [[118]; [102]]. split; [left; reflexivity|reflexivity].
Qed.
