(* The file reader does what the line-by-line reading of SpecConf says, and never reads outside the mapping. *)
From Verif Require Import Base Names Num Conf SpecConf.
Local Open Scope nat_scope.

Lemma white_space : forall c, white c = is_space c.
Proof. reflexivity. Qed.
Lemma fold_lower : forall c, fold_case c = lower c.
Proof. reflexivity. Qed.

(* ---- reads ---- *)

Lemma rd_at : forall pre l post k x, nth_error l k = Some x ->
  rd (pre ++ l ++ post) (length pre + k) = Ok x.
Proof.
  intros pre l post k x H. unfold rd.
  rewrite nth_error_app2 by lia. replace (length pre + k - length pre) with k by lia.
  rewrite nth_error_app1; [rewrite H; reflexivity|]. apply nth_error_Some. congruence.
Qed.

Lemma rd_mid : forall pre x post, rd (pre ++ x :: post) (length pre) = Ok x.
Proof.
  intros. unfold rd. rewrite nth_error_app2 by lia. rewrite Nat.sub_diag. reflexivity.
Qed.

Lemma len_snoc : forall A (l : list A) x, length (l ++ [x]) = S (length l).
Proof. intros. rewrite app_length. simpl. lia. Qed.

Lemma snoc_app : forall A (l : list A) x r, l ++ x :: r = (l ++ [x]) ++ r.
Proof. intros. rewrite <- app_assoc. reflexivity. Qed.

Lemma memchr_found : forall l pre c post len, ~ In c l -> length l < len ->
  memchr (pre ++ l ++ c :: post) (length pre) len c = Ok (Some (length pre + length l)).
Proof.
  induction l as [|x l IH]; intros pre c post len N L; destruct len as [|len]; cbn [length] in L; try lia; cbn [memchr].
  - cbn [app]. rewrite rd_mid. cbn [bind]. rewrite Z.eqb_refl. do 2 f_equal. cbn. lia.
  - cbn [app]. rewrite rd_mid. cbn [bind].
    destruct (Z.eqb_spec x c) as [->|D]; [exfalso; apply N; left; reflexivity|].
    rewrite snoc_app, <- (len_snoc _ pre x).
    rewrite IH; [|intro; apply N; right; auto|lia]. rewrite len_snoc. cbn [length]. do 2 f_equal. lia.
Qed.

Lemma memchr_none : forall l pre c post, ~ In c l ->
  memchr (pre ++ l ++ post) (length pre) (length l) c = Ok None.
Proof.
  induction l as [|x l IH]; intros pre c post N; cbn [memchr length]; [reflexivity|].
  cbn [app]. rewrite rd_mid. cbn [bind].
  destruct (Z.eqb_spec x c) as [->|D]; [exfalso; apply N; left; reflexivity|].
  rewrite snoc_app, <- (len_snoc _ pre x). apply IH. intro; apply N; right; auto.
Qed.

Lemma cut_some : forall c l a b, cut c l = Some (a, b) -> l = a ++ c :: b /\ ~ In c a.
Proof.
  induction l as [|x l IH]; intros a b H; cbn [cut] in H; [discriminate|].
  destruct (Z.eqb_spec x c).
  - inversion H; subst. split; auto.
  - destruct (cut c l) as [[a' b']|]; inversion H; subst. destruct (IH _ _ eq_refl) as [-> N].
    split; [reflexivity|]. intros [E|E]; congruence || auto.
Qed.
Lemma cut_none : forall c l, cut c l = None -> ~ In c l.
Proof.
  induction l as [|x l IH]; intros H; cbn [cut] in H; [auto|].
  destruct (Z.eqb_spec x c); [discriminate|]. destruct (cut c l) as [[? ?]|]; [discriminate|].
  intros [E|E]; [congruence|]. apply IH; auto.
Qed.
Lemma cut_app : forall c a b, ~ In c a -> cut c (a ++ c :: b) = Some (a, b).
Proof.
  induction a as [|x a IH]; intros b N; cbn [cut app].
  - rewrite Z.eqb_refl. reflexivity.
  - destruct (Z.eqb_spec x c); [exfalso; apply N; left; congruence|]. rewrite IH; auto.
    intro; apply N; right; auto.
Qed.

(* memchr over a region, by cut *)
Lemma memchr_cut : forall l pre c post,
  memchr (pre ++ l ++ post) (length pre) (length l) c =
  Ok (match cut c l with Some (a, _) => Some (length pre + length a) | None => None end).
Proof.
  intros. destruct (cut c l) as [[a b]|] eqn:E.
  - destruct (cut_some _ _ _ _ E) as [-> N]. rewrite <- app_assoc. cbn [app].
    apply memchr_found; auto. rewrite app_length. cbn [length]. lia.
  - apply memchr_none. apply cut_none; auto.
Qed.

(* ---- trim ---- *)

Lemma trim_front_spec : forall l pre y post,
  exists l1, l = l1 ++ strip_front l /\ Forall (fun c => white c = true) l1 /\
  trim_front (pre ++ l ++ y :: post) (length pre) (length l) = Ok (length pre + length l1, length (strip_front l)).
Proof.
  induction l as [|x l IH]; intros pre y post.
  - exists []. split; [reflexivity|]. split; [constructor|]. cbn [app length trim_front strip_front].
    rewrite rd_mid. cbn [bind]. do 2 f_equal. lia.
  - cbn [strip_front]. destruct (white x) eqn:W.
    + destruct (IH (pre ++ [x]) y post) as (l1 & E & F & T). exists (x :: l1).
      split; [cbn [app]; f_equal; exact E|]. split; [constructor; auto|].
      cbn [length trim_front app]. rewrite rd_mid. cbn [bind]. rewrite <- white_space, W.
      rewrite snoc_app, <- (len_snoc _ pre x), T, len_snoc. cbn [length]. do 2 f_equal. lia.
    + exists []. split; [reflexivity|]. split; [constructor|].
      cbn [length trim_front app]. rewrite rd_mid. cbn [bind]. rewrite <- white_space, W. do 2 f_equal. lia.
Qed.

Lemma strip_front_snoc_white : forall l x, white x = true -> strip_front (l ++ [x]) = 
  match strip_front l with [] => [] | s => s ++ [x] end.
Proof.
  induction l as [|a l IH]; intros x W; cbn [strip_front app].
  - rewrite W. reflexivity.
  - destruct (white a) eqn:A; [apply IH; auto|]. reflexivity.
Qed.

Definition strip_back (l : list Z) : list Z := rev (strip_front (rev l)).
Lemma strip_back_snoc : forall l x, strip_back (l ++ [x]) = if white x then strip_back l else l ++ [x].
Proof.
  intros. unfold strip_back. rewrite rev_app_distr. cbn [rev app strip_front].
  destruct (white x); [reflexivity|]. cbn [rev]. rewrite rev_involutive. reflexivity.
Qed.

Lemma trim_back_spec : forall l pre post,
  exists l2, l = strip_back l ++ l2 /\ Forall (fun c => white c = true) l2 /\
  trim_back (pre ++ l ++ post) (length pre) (length l) = Ok (length (strip_back l)).
Proof.
  induction l as [|x l IH] using rev_ind; intros pre post.
  - exists []. repeat split. constructor.
  - rewrite strip_back_snoc, len_snoc. cbn [trim_back].
    rewrite (rd_at pre (l ++ [x]) post (length l) x) by
      (rewrite nth_error_app2, Nat.sub_diag by lia; reflexivity).
    cbn [bind]. change (is_space x) with (white x). destruct (white x) eqn:W.
    + destruct (IH pre ([x] ++ post)) as (l2 & E & F & T). exists (l2 ++ [x]).
      split; [rewrite app_assoc, <- E; reflexivity|]. split; [apply Forall_app; auto|].
      rewrite <- app_assoc. exact T.
    + exists []. rewrite app_nil_r, len_snoc. repeat split. constructor.
Qed.

Lemma strip_eq : forall l, strip l = strip_back (strip_front l).
Proof. reflexivity. Qed.

Lemma trim_spec : forall l pre y post,
  exists l1 l2, l = l1 ++ strip l ++ l2 /\ Forall (fun c => white c = true) l1 /\ Forall (fun c => white c = true) l2 /\
  trim (pre ++ l ++ y :: post) (length pre) (length l) = Ok (length pre + length l1, length (strip l)).
Proof.
  intros. destruct (trim_front_spec l pre y post) as (l1 & E1 & F1 & T1).
  destruct (trim_back_spec (strip_front l) (pre ++ l1) (y :: post)) as (l2 & E2 & F2 & T2).
  exists l1, l2. rewrite strip_eq.
  split; [rewrite E1 at 1; rewrite E2 at 1; reflexivity|]. split; [auto|]. split; [auto|].
  unfold trim. rewrite T1. cbn [bind].
  rewrite E1 at 1. rewrite <- !app_assoc in T2. rewrite app_length in T2. rewrite <- !app_assoc. rewrite T2. reflexivity.
Qed.

Lemma strip_front_head : forall l, match strip_front l with [] => True | c :: _ => white c = false end.
Proof. induction l as [|x l IH]; cbn [strip_front]; auto. destruct (white x) eqn:W; auto. Qed.
Lemma strip_back_last : forall l, match rev (strip_back l) with [] => True | c :: _ => white c = false end.
Proof. intros. unfold strip_back. rewrite rev_involutive. apply strip_front_head. Qed.
Lemma strip_back_head : forall l, match l with [] => True | c :: _ => white c = false end ->
  match strip_back l with [] => l = [] | c :: r => exists r', l = c :: r' end.
Proof.
  intros [|x l] H. reflexivity.
  induction l as [|y l IH] using rev_ind.
  - unfold strip_back. cbn. rewrite H. cbn. eauto.
  - rewrite app_comm_cons, strip_back_snoc. destruct (white y).
    + destruct (strip_back (x :: l)); [discriminate|]. destruct IH as [r' E]. inversion E; subst. eexists. reflexivity.
    + cbn. eauto.
Qed.
Lemma strip_head : forall l, match strip l with [] => True | c :: _ => white c = false end.
Proof.
  intros. rewrite strip_eq. pose proof (strip_front_head l). pose proof (strip_back_head _ H).
  destruct (strip_back (strip_front l)); auto. destruct H0 as [r' E]. rewrite E in H. auto.
Qed.
Lemma strip_last : forall l, match rev (strip l) with [] => True | c :: _ => white c = false end.
Proof. intros. rewrite strip_eq. apply strip_back_last. Qed.

Lemma strip_front_nil : forall l, strip_front l = [] <-> Forall (fun c => white c = true) l.
Proof.
  induction l as [|x l IH]; cbn [strip_front]; [split; auto|].
  destruct (white x) eqn:W.
  - rewrite IH. split; intros H; [constructor; auto|inversion H; auto].
  - split; intros H; [discriminate|]. inversion H; congruence.
Qed.
Lemma strip_nil : forall l, strip l = [] <-> Forall (fun c => white c = true) l.
Proof.
  intros. rewrite strip_eq. unfold strip_back. split; intros H.
  - assert (strip_front (rev (strip_front l)) = []) by (destruct (strip_front (rev (strip_front l))); auto; cbn in H; destruct (rev l0); discriminate).
    apply strip_front_nil in H0. apply Forall_rev in H0. rewrite rev_involutive in H0.
    pose proof (strip_front_head l). destruct (strip_front l) eqn:E; [apply strip_front_nil; auto|].
    inversion H0; congruence.
  - apply strip_front_nil in H. rewrite H. reflexivity.
Qed.

(* a text with a non-blank first or last character does not become empty *)
Lemma strip_nonempty_head : forall c l, white c = false -> strip (c :: l) <> [].
Proof. intros c l W E. apply strip_nil in E. inversion E; congruence. Qed.
Lemma strip_nonempty_in : forall l c, In c l -> white c = false -> strip l <> [].
Proof. intros l c I W E. apply strip_nil in E. rewrite Forall_forall in E. rewrite (E c I) in W. discriminate. Qed.

(* ---- names up to case ---- *)

Lemma lower_zero : forall x, lower x = 0%Z <-> x = 0%Z.
Proof. intros. unfold lower. destruct ((65 <=? x) && (x <=? 90))%Z eqn:E; lia. Qed.

Lemma ncaseeq_spec : forall n a b, length a = n -> length b = n ->
  (ncaseeq n a b = true <-> map lower (cstr a) = map lower (cstr b)).
Proof.
  induction n as [|n IH]; intros [|x a] [|y b] LA LB; try discriminate; cbn [ncaseeq cstr map]; [tauto|].
  cbn [length] in LA, LB. injection LA as LA. injection LB as LB.
  pose proof (lower_zero x). pose proof (lower_zero y).
  destruct (Z.eqb_spec x 0) as [->|X]; destruct (Z.eqb_spec y 0) as [->|Y].
  - cbn. tauto.
  - cbn [map]. assert (lower y <> 0)%Z by tauto. change (lower 0) with 0%Z. destruct (Z.eqb_spec 0 (lower y)); [congruence|]. cbn.
    split; intros F; discriminate.
  - cbn [map]. assert (lower x <> 0)%Z by tauto. change (lower 0) with 0%Z. destruct (Z.eqb_spec (lower x) 0); [congruence|]. cbn.
    split; intros F; discriminate.
  - cbn [map]. rewrite Bool.andb_true_iff, Z.eqb_eq. cbn [orb]. rewrite (IH a b) by auto.
    split; [intros [-> ->]; auto|intros F; inversion F; auto].
Qed.

Definition nkey (a : list Z) : nat * list Z := (length a, map lower (cstr a)).
Lemma memcaseeq_key : forall a b, memcaseeq a b = true <-> nkey a = nkey b.
Proof.
  intros. unfold memcaseeq, nkey. rewrite Bool.andb_true_iff, Nat.eqb_eq. split.
  - intros [L N]. rewrite ncaseeq_spec in N; auto. congruence.
  - intros E. inversion E. split; auto. apply ncaseeq_spec; auto.
Qed.
Definition cmatch (key : list Z) (c : centry) : bool :=
  ((length (ce_key c) =? length key) && ncaseeq (length key) key (ce_key c)).
Lemma cmatch_key : forall key c, cmatch key c = true <-> nkey key = nkey (ce_key c).
Proof.
  intros. unfold cmatch, nkey. rewrite Bool.andb_true_iff, Nat.eqb_eq. split.
  - intros [L N]. rewrite ncaseeq_spec in N; auto. congruence.
  - intros E. inversion E. split; auto. apply ncaseeq_spec; auto.
Qed.

Lemma cstr_id : forall a, ~ In 0%Z a -> cstr a = a.
Proof.
  induction a as [|x a IH]; intros N; cbn [cstr]; auto.
  destruct (Z.eqb_spec x 0); [exfalso; apply N; left; auto|]. f_equal. apply IH. intro; apply N; right; auto.
Qed.
Lemma nkey_same : forall a b, ~ In 0%Z a -> ~ In 0%Z b -> (nkey a = nkey b <-> same a b).
Proof.
  intros. unfold nkey, same. rewrite !cstr_id by auto. split; intros E; [inversion E; auto|].
  f_equal; auto. apply (f_equal (@length Z)) in E. rewrite !map_length in E. auto.
Qed.

(* ---- section headers ---- *)

Definition few (sp : bool) (ws : list Z) : bool :=
  match ws with
  | [] => true
  | [c] => negb sp && (c =? 32)%Z
  | _ => false
  end.
Lemma name_ok_spec : forall l pre post sp,
  name_ok (pre ++ l ++ post) (length pre) (length l) sp = Ok (few sp (filter white l)).
Proof.
  induction l as [|x l IH]; intros pre post sp; cbn [name_ok length filter]; [reflexivity|].
  cbn [app]. rewrite rd_mid. cbn [bind]. rewrite snoc_app, <- (len_snoc _ pre x), !IH.
  change (is_space x) with (white x). destruct (white x) eqn:W; [|reflexivity].
  destruct (Z.eqb_spec x 32) as [->|D]; cbn [negb].
  - destruct sp; cbn [negb andb].
    + cbn [few]. destruct (filter white l); reflexivity.
    + destruct (filter white l) as [|a [|b r]] eqn:F; cbn [few negb andb]; auto.
  - cbn [few]. destruct (filter white l); auto. replace (x =? 32)%Z with false by (symmetry; apply Z.eqb_neq; auto).
    rewrite Bool.andb_false_r. reflexivity.
Qed.

Definition names_short (cs : confs) : Prop := Forall (fun s => length (se_name s) <= 100) cs.

Lemma find_section_in : forall name cs s, find_section name cs = Some s -> In s cs /\ nkey name = nkey (se_name s).
Proof.
  induction cs as [|x cs IH]; intros s H; cbn [find_section] in H; [discriminate|].
  destruct (memcaseeq name (se_name x)) eqn:M.
  - inversion H; subst. split; [left; auto|]. apply memcaseeq_key; auto.
  - destruct (IH _ H). split; [right; auto|auto].
Qed.

Definition enter (name : list Z) (cs : confs) : nat * confs :=
  match find_section name cs with
  | Some s => (se_id s, cs)
  | None => (length cs, mkSe (length cs) name [] :: cs)
  end.

Lemma slice_mid : forall pre l post, slice (pre ++ l ++ post) (length pre) (length l) = Ok l.
Proof.
  intros. rewrite slice_Ok by (rewrite !app_length; lia).
  rewrite skipn_app, skipn_all, Nat.sub_diag. cbn [app skipn]. rewrite firstn_app, Nat.sub_diag, firstn_all.
  cbn. rewrite app_nil_r. reflexivity.
Qed.

Lemma add_section_spec : forall r pre post cs, names_short cs ->
  add_section (pre ++ (91%Z :: r) ++ post) (length pre) (length (91%Z :: r)) cs =
  Ok (match cut 93 r with
      | Some (name, []) => if good_name name then (Some (fst (enter name cs)), snd (enter name cs)) else (None, cs)
      | _ => (None, cs)
      end).
Proof.
  intros r pre post cs NS. unfold add_section. rewrite memchr_cut. cbn [bind cut].
  change (91 =? 93)%Z with false. cbv iota.
  destruct (cut 93 r) as [[name b]|] eqn:C; [|reflexivity].
  apply cut_some in C. destruct C as [-> N]. cbn [length].
  replace (length pre + S (length name) - length pre) with (S (length name)) by lia.
  rewrite app_length. cbn [length].
  destruct b as [|x b].
  2:{ cbn [length]. destruct (Nat.ltb_spec (S (length name)) (S (length name + S (S (length b))) - 1)); [reflexivity|lia]. }
  cbn [length]. destruct (Nat.ltb_spec (S (length name)) (S (length name + 1) - 1)); [lia|].
  replace (length pre + S (length name) - 1) with (length pre + length name) by lia.
  replace (S (length name + 1) - 2) with (length name) by lia.
  assert (RL : exists c, rd (pre ++ (91%Z :: name ++ [93%Z]) ++ post) (length pre + length name) = Ok c /\
    is_space c = match rev name with [] => false | c :: _ => white c end).
  { destruct name as [|y name'] using rev_ind.
    - exists 91%Z. split; [|reflexivity]. apply rd_at. reflexivity.
    - clear IHname'. exists y. split; [|rewrite rev_app_distr; reflexivity].
      apply rd_at. rewrite len_snoc. cbn [nth_error]. rewrite <- app_assoc, nth_error_app2, Nat.sub_diag by lia. reflexivity. }
  destruct RL as (cl & RL & WL). rewrite RL. cbn [bind].
  assert (RF : exists c, rd (pre ++ (91%Z :: name ++ [93%Z]) ++ post) (length pre + 1) = Ok c /\
    is_space c = match name with [] => false | c :: _ => white c end).
  { destruct name as [|y name'].
    - exists 93%Z. split; [|reflexivity]. apply rd_at. reflexivity.
    - exists y. split; [|reflexivity]. apply rd_at. reflexivity. }
  destruct RF as (cf & RF & WF). rewrite RF. cbn [bind]. rewrite WL, WF.
  change (S (length name)) with (length (91%Z :: name)).
  replace (pre ++ (91%Z :: name ++ [93%Z]) ++ post) with (pre ++ (91%Z :: name) ++ ([93%Z] ++ post))
    by (cbn [app]; rewrite <- !app_assoc; reflexivity).
  rewrite name_ok_spec. cbn [bind filter]. change (white 91) with false. cbv iota.
  replace (pre ++ (91%Z :: name) ++ [93%Z] ++ post) with ((pre ++ [91%Z]) ++ name ++ ([93%Z] ++ post))
    by (rewrite <- !app_assoc; reflexivity).
  replace (length pre + 1) with (length (pre ++ [91%Z])) by (rewrite len_snoc; lia).
  rewrite slice_mid. cbn [bind].
  unfold good_name.
  assert (FW : few false (filter white name) = match filter white name with [] => true | [c] => (c =? 32)%Z | _ => false end).
  { unfold few. destruct (filter white name) as [|? [|? ?]]; reflexivity. }
  rewrite <- FW.
  assert (FI : forall s, find_section name cs = Some s -> length name <= 100).
  { intros s E. apply find_section_in in E. destruct E as [I K]. unfold nkey in K. inversion K.
    unfold names_short in NS. rewrite Forall_forall in NS. specialize (NS s I). lia. }
  unfold enter.
  destruct (match rev name with [] => false | c :: _ => white c end) eqn:W1;
  destruct (match name with [] => false | c :: _ => white c end) eqn:W2; cbn [orb].
  1-3: match goal with |- _ = Ok (if ?b then _ else _) => replace b with false; [reflexivity|] end;
       symmetry; destruct (rev name); destruct name; try discriminate; rewrite ?W1, ?W2;
       rewrite ?Bool.andb_false_r; try reflexivity;
       destruct (few false _); cbn; rewrite ?Bool.andb_false_r; reflexivity.
  assert (X1 : match name with [] => true | c :: _ => negb (white c) end = true) by (destruct name; auto; rewrite W2; auto).
  assert (X2 : match rev name with [] => true | c :: _ => negb (white c) end = true) by (destruct (rev name); auto; rewrite W1; auto).
  rewrite X1, X2, !Bool.andb_true_r. destruct (few false (filter white name)); cbn [negb].
  2:{ rewrite Bool.andb_false_r. reflexivity. }
  rewrite Bool.andb_true_r.
  destruct (find_section name cs) as [s|] eqn:FS.
  - specialize (FI s eq_refl). destruct (Z.leb_spec (Z.of_nat (length name)) 100); [reflexivity|lia].
  - unfold MAX_SECTION_NAME. destruct (Nat.ltb_spec 100 (length name)); destruct (Z.leb_spec (Z.of_nat (length name)) 100); try lia; reflexivity.
Qed.

(* ---- settings ---- *)

Lemma add_config_spec : forall l pre post id cs,
  match l with [] => True | c :: _ => white c = false end ->
  match rev l with [] => True | c :: _ => white c = false end ->
  add_config (pre ++ l ++ post) id (length pre) (length l) cs =
  Ok (match cut 61 l with
      | Some (a, b) => match a, b with
                       | _ :: _, _ :: _ => (0%Z, upd_section id (put_config (strip a) (strip b)) cs)
                       | _, _ => ((- EINVAL)%Z, cs)
                       end
      | None => ((- EINVAL)%Z, cs)
      end).
Proof.
  intros l pre post id cs HF HL. unfold add_config. rewrite memchr_cut. cbn [bind].
  destruct (cut 61 l) as [[a b]|] eqn:C; [|reflexivity].
  apply cut_some in C. destruct C as [-> N].
  destruct a as [|x a].
  { cbn [length]. rewrite Nat.add_0_r, Nat.eqb_refl. reflexivity. }
  cbn [length]. destruct (Nat.eqb_spec (length pre + S (length a)) (length pre)); [lia|].
  rewrite !app_length. cbn [length].
  destruct b as [|y b].
  { cbn [length]. destruct (Nat.eqb_spec (length pre + S (length a)) (length pre + (S (length a) + 1) - 1)); [reflexivity|lia]. }
  cbn [length].
  destruct (Nat.eqb_spec (length pre + S (length a)) (length pre + (S (length a) + S (S (length b))) - 1)); [lia|].
  replace (length pre + S (length a) - length pre) with (length (x :: a)) by (cbn [length]; lia).
  replace (S (length a) + S (S (length b)) - length (x :: a) - 1) with (length (y :: b)) by (cbn [length]; lia).
  (* the key *)
  destruct (trim_spec (x :: a) pre 61%Z ((y :: b) ++ post)) as (k1 & k2 & EK & _ & _ & TK).
  replace (pre ++ ((x :: a) ++ 61%Z :: y :: b) ++ post) with (pre ++ (x :: a) ++ 61%Z :: (y :: b) ++ post)
    by (rewrite <- !app_assoc; reflexivity).
  rewrite TK. cbn [bind].
  (* the value; it does not end with white space, so one character after it is not needed *)
  assert (TV : exists v1 v2, y :: b = v1 ++ strip (y :: b) ++ v2 /\
    trim (pre ++ (x :: a) ++ 61%Z :: (y :: b) ++ post) (length pre + S (length a) + 1) (length (y :: b)) =
    Ok (length pre + S (length a) + 1 + length v1, length (strip (y :: b)))).
  { assert (P : pre ++ (x :: a) ++ 61%Z :: (y :: b) ++ post = (pre ++ (x :: a) ++ [61%Z]) ++ (y :: b) ++ post)
      by (rewrite <- !app_assoc; reflexivity).
    rewrite P. assert (L : length pre + S (length a) + 1 = length (pre ++ (x :: a) ++ [61%Z])) by (rewrite !app_length; cbn [length]; lia).
    rewrite L. set (pp := pre ++ (x :: a) ++ [61%Z]).
    assert (exists i z, y :: b = i ++ [z] /\ white z = false) as (i & z & E & W).
    { destruct (exists_last (l := y :: b)) as (i & z & E); [discriminate|]. exists i, z. split; auto.
      rewrite E in HL. rewrite rev_app_distr in HL. cbn [rev] in HL. rewrite rev_app_distr in HL. cbn [rev app] in HL. exact HL. }
    destruct (trim_front_spec (y :: b) pp 0%Z []) as (v1 & E1 & F1 & _).
    assert (T1 : forall l p q, (exists i z, l = i ++ [z] /\ white z = false) -> exists v1, l = v1 ++ strip_front l /\
       trim_front (p ++ l ++ q) (length p) (length l) = Ok (length p + length v1, length (strip_front l))).
    { clear. induction l as [|c l IH]; intros p q (i & z & E & W).
      - destruct i; discriminate.
      - cbn [strip_front trim_front length app]. rewrite rd_mid. cbn [bind]. change (is_space c) with (white c). destruct (white c) eqn:WC.
        + destruct i as [|i0 i]; inversion E; subst; [congruence|].
          destruct (IH (p ++ [i0]) q) as (v1 & E1 & T); [eauto|]. exists (i0 :: v1). split; [cbn [app]; f_equal; exact E1|].
          rewrite snoc_app, <- (len_snoc _ p i0), T, len_snoc. cbn [length]. do 2 f_equal. lia.
        + exists []. split; [reflexivity|]. do 2 f_equal. cbn. lia. }
    destruct (T1 (y :: b) pp post) as (v & Ev & Tv); [eauto|].
    destruct (trim_back_spec (strip_front (y :: b)) (pp ++ v) post) as (v2 & E2 & F2 & T2).
    exists v, v2. split; [rewrite strip_eq; rewrite Ev at 1; rewrite E2 at 1; reflexivity|].
    unfold trim. rewrite Tv. cbn [bind]. rewrite Ev at 1. rewrite <- !app_assoc in T2. rewrite app_length in T2.
    rewrite <- !app_assoc. rewrite T2. reflexivity. }
  destruct TV as (v1 & v2 & EV & TV). rewrite TV. cbn [bind].
  assert (SK : slice (pre ++ (x :: a) ++ 61%Z :: (y :: b) ++ post) (length pre + length k1) (length (strip (x :: a))) = Ok (strip (x :: a))).
  { rewrite EK at 1. rewrite <- !app_assoc.
    replace (pre ++ k1 ++ strip (x :: a) ++ k2 ++ 61%Z :: (y :: b) ++ post) with ((pre ++ k1) ++ strip (x :: a) ++ (k2 ++ 61%Z :: (y :: b) ++ post))
      by (rewrite <- !app_assoc; reflexivity).
    rewrite <- app_length. apply slice_mid. }
  rewrite SK. cbn [bind].
  assert (SV : slice (pre ++ (x :: a) ++ 61%Z :: (y :: b) ++ post) (length pre + S (length a) + 1 + length v1) (length (strip (y :: b))) = Ok (strip (y :: b))).
  { rewrite EV at 1.
    replace (pre ++ (x :: a) ++ 61%Z :: (v1 ++ strip (y :: b) ++ v2) ++ post) with ((pre ++ (x :: a) ++ [61%Z] ++ v1) ++ strip (y :: b) ++ (v2 ++ post))
      by (cbn [app]; rewrite <- !app_assoc; cbn [app]; rewrite <- !app_assoc; reflexivity).
    replace (length pre + S (length a) + 1 + length v1) with (length (pre ++ (x :: a) ++ [61%Z] ++ v1))
      by (rewrite !app_length; cbn [length]; lia).
    apply slice_mid. }
  rewrite SV. reflexivity.
Qed.
