(* mkdir_p as steps over the pieces of a path. *)
From Verif Require Import Base Num Mkdir.

Definition okc (c : Z) : Prop := c <> 47 /\ c <> 0.
(* a piece: slashes and a name; the first piece may have no slash, the last may have no name *)
Definition first_piece (p : list Z) : Prop := exists i n, p = repeat 47 i ++ n /\ n <> [] /\ Forall okc n.
Definition named (p : list Z) : Prop := exists i n, p = repeat 47 (S i) ++ n /\ n <> [] /\ Forall okc n.
Inductive rest : list (list Z) -> Prop :=
| r_nil : rest []
| r_end : forall i, rest [repeat 47 (S i)]
| r_cons : forall p ps, named p -> rest ps -> rest (p :: ps).
Definition valid (ps : list (list Z)) : Prop := match ps with [] => False | p :: r => first_piece p /\ rest r end.

Lemma split_run : forall s, ~ In 0 s -> exists i n r, s = repeat 47 i ++ n ++ r /\ Forall okc n /\ (r = [] \/ exists r', r = 47 :: r') /\ (n = [] -> r = []).
Proof.
  intros s Z0.
  assert (A : exists i t, s = repeat 47 i ++ t /\ match t with [] => True | c :: _ => c <> 47 end /\ ~ In 0 t).
  { induction s as [|c s IH]; [exists 0%nat, []; auto|]. destruct (Z.eq_dec c 47) as [->|N].
    - destruct IH as (i & t & -> & H & I); [intros J; apply Z0; right; auto|]. exists (S i), t. auto.
    - exists 0%nat, (c :: s). auto. }
  destruct A as (i & t & -> & H & I).
  assert (B : exists n r, t = n ++ r /\ Forall okc n /\ (r = [] \/ exists r', r = 47 :: r')).
  { clear H Z0. induction t as [|c t IH]; [exists [], []; auto|]. destruct (Z.eq_dec c 47) as [->|N].
    - exists [], (47 :: t). split; auto. split; [constructor|eauto].
    - destruct IH as (n & r & -> & F & R); [intros J; apply I; right; auto|]. exists (c :: n), r. split; auto. split; auto. constructor; auto. split; auto. intros ->. apply I. left; auto. }
  destruct B as (n & r & -> & F & R). exists i, n, r. split; auto. split; auto. split; auto.
  intros ->. destruct R as [->|(r' & ->)]; auto. cbn in H. congruence.
Qed.
Lemma split_rest : forall k s, (length s <= k)%nat -> ~ In 0 s -> s = [] \/ (exists r', s = 47 :: r') -> exists ps, s = concat ps /\ rest ps.
Proof.
  induction k as [|k IH]; intros s L Z0 H.
  - destruct s; [exists []; split; [auto|constructor]|cbn in L; lia].
  - destruct H as [->|(r' & ->)]; [exists []; split; [auto|constructor]|].
    destruct (split_run r') as (i & n & r & -> & F & R & E); [intros I; apply Z0; right; auto|].
    destruct n as [|c n].
    + rewrite (E eq_refl). exists [repeat 47 (S i)]. split; [cbn; rewrite ?app_nil_r; auto|constructor].
    + destruct (IH r) as (ps & -> & V); auto.
      * cbn in L. rewrite !app_length in L. cbn in L. rewrite app_length in L. lia.
      * intros I. apply Z0. right. apply in_or_app. right. apply in_or_app. auto.
      * exists ((repeat 47 (S i) ++ c :: n) :: ps). split; [cbn; rewrite <- app_assoc; auto|]. constructor; auto. exists i, (c :: n). split; auto. split; [discriminate|auto].
Qed.

(* ---- components ---- *)

Lemma comps_slash : forall a r acc, comps_from acc (a ++ 47 :: r) = comps_from acc a ++ comps r.
Proof.
  induction a as [|c a IH]; intros r acc; cbn [app comps_from].
  - change (47 =? 47) with true. cbv iota. destruct acc; reflexivity.
  - destruct (c =? 47); [destruct acc|]; rewrite IH; auto.
Qed.
Lemma comps_app : forall a r, comps (a ++ 47 :: r) = comps a ++ comps r.
Proof. intros. apply comps_slash. Qed.
Lemma comps_slashes : forall i s, comps (repeat 47 i ++ s) = comps s.
Proof. induction i; intros; auto. cbn [repeat app]. unfold comps. cbn [comps_from]. change (47 =? 47) with true. cbv iota. apply IHi. Qed.
Lemma comps_name : forall n, n <> [] -> Forall okc n -> comps n = [n].
Proof.
  assert (G : forall n acc, Forall okc n -> comps_from acc n = match acc ++ n with [] => [] | x => [x] end).
  { induction n as [|c n IH]; intros acc F; cbn [comps_from]; [rewrite app_nil_r; destruct acc; auto|]. destruct (Forall_inv F) as [A _]. pose proof (Forall_inv_tail F) as F'. destruct (Z.eqb_spec c 47); [congruence|]. rewrite IH; auto.
    rewrite <- app_assoc. reflexivity. }
  intros n N F. unfold comps. rewrite G; auto. destruct n; [congruence|]. reflexivity.
Qed.
Lemma comps_piece : forall a p, (exists r, p = 47 :: r) -> comps (a ++ p) = comps a ++ comps p.
Proof. intros a p (r & ->). rewrite comps_app. reflexivity. Qed.
Lemma comps_split : forall s, ~ In 0 s -> comps s = [] \/ exists ps, s = concat ps /\ valid ps.
Proof.
  intros s Z0. destruct (split_run s Z0) as (i & n & r & -> & F & R & E). destruct n as [|c n].
  - left. rewrite (E eq_refl). cbn. rewrite ?app_nil_r. rewrite <- (app_nil_r (repeat 47 i)). rewrite comps_slashes. reflexivity.
  - right. destruct (split_rest (length r) r) as (ps & -> & V); auto.
    + intros I. apply Z0. apply in_or_app. right. apply in_or_app. auto.
    + exists ((repeat 47 i ++ c :: n) :: ps). split; [cbn; rewrite <- app_assoc; auto|]. split; auto. exists i, (c :: n). split; auto. split; [discriminate|auto].
Qed.

(* ---- the buffer ---- *)

Definition zap (p : list Z) : list Z := 0 :: tl p.
Definition buf (pre suf : list (list Z)) : list Z := concat pre ++ concat (map zap suf) ++ [0].

Lemma cstring_app : forall s r, ~ In 0 s -> cstring (s ++ 0 :: r) = Ok s.
Proof.
  induction s as [|c s IH]; intros r N; cbn [app cstring]; [reflexivity|]. destruct (Z.eqb_spec c 0) as [->|]; [exfalso; apply N; left; auto|].
  rewrite IH; auto. intros I. apply N. right; auto.
Qed.
Lemma buf_end : forall suf, exists r, concat (map zap suf) ++ [0] = 0 :: r.
Proof. destruct suf as [|p suf]; cbn; eauto. Qed.
Lemma cstring_buf : forall pre suf, ~ In 0 (concat pre) -> cstring (buf pre suf) = Ok (concat pre).
Proof. intros pre suf N. unfold buf. destruct (buf_end suf) as (r & ->). apply cstring_app; auto. Qed.
Lemma strlen_buf : forall pre p suf, ~ In 0 p -> strlen (buf (pre ++ [p]) suf) (length (concat pre)) = Ok (length p).
Proof.
  intros pre p suf N. unfold strlen, buf. rewrite concat_app. cbn [concat]. rewrite app_nil_r. destruct (buf_end suf) as (r & ->).
  destruct (Nat.ltb_spec (length (concat pre)) (length ((concat pre ++ p) ++ 0 :: r))) as [_|B]; [|rewrite !app_length in B; cbn in B; lia].
  rewrite <- app_assoc, skipn_app, skipn_all, Nat.sub_diag. cbn [app skipn]. rewrite cstring_app; auto.
Qed.
Lemma put_app : forall a c d r, put (a ++ c :: r) (length a) d = Ok (a ++ d :: r).
Proof.
  intros. unfold put. destruct (Nat.ltb_spec (length a) (length (a ++ c :: r))) as [_|B]; [|rewrite app_length in B; cbn in B; lia].
  f_equal. f_equal. { rewrite firstn_app, firstn_all, Nat.sub_diag. cbn. apply app_nil_r. }
  f_equal. replace (S (length a)) with (length (a ++ [c])) by (rewrite app_length; cbn; lia).
  change (c :: r) with ([c] ++ r). rewrite app_assoc, skipn_app, skipn_all, Nat.sub_diag. reflexivity.
Qed.
Lemma put_zero : forall pre p suf, (exists r, p = 47 :: r) -> put (buf (pre ++ [p]) suf) (length (concat pre)) 0 = Ok (buf pre (p :: suf)).
Proof.
  intros pre p suf (r & ->). unfold buf. rewrite concat_app. cbn [concat map]. rewrite app_nil_r, <- !app_assoc. cbn [app]. rewrite put_app. reflexivity.
Qed.
Lemma put_slash : forall pre p suf, (exists r, p = 47 :: r) -> put (buf pre (p :: suf)) (length (concat pre)) 47 = Ok (buf (pre ++ [p]) suf).
Proof.
  intros pre p suf (r & ->). unfold buf. rewrite concat_app. cbn [concat map]. change (zap (47 :: r)) with (0 :: r). rewrite app_nil_r, <- !app_assoc. cbn [app]. rewrite put_app. reflexivity.
Qed.
Lemma get_app : forall a c r, get (a ++ c :: r) (length a) = Ok c.
Proof. intros. unfold get. rewrite nth_error_app2, Nat.sub_diag by lia. reflexivity. Qed.

Lemma back_char_spec : forall n a c r, Forall (fun c => c <> 47) n -> c <> 47 ->
  back_char (a ++ n ++ c :: r) (length (a ++ n)) = back_char (a ++ n ++ c :: r) (pred (length a)) \/ length a = 0%nat /\ back_char (a ++ n ++ c :: r) (length (a ++ n)) = Ok 0%nat.
Proof.
  intros n. induction n as [|x n IH] using rev_ind; intros a c r F N.
  - rewrite app_nil_r. cbn [app]. destruct a as [|y a].
    + right. split; auto.
    + left. assert (E : back_char ((y :: a) ++ c :: r) (length (y :: a)) = (let* d := get ((y :: a) ++ c :: r) (length (y :: a)) in if d =? 47 then Ok (length (y :: a)) else back_char ((y :: a) ++ c :: r) (length a))) by reflexivity.
      rewrite E, get_app. cbn [bind]. destruct (Z.eqb_spec c 47); [congruence|]. reflexivity.
  - apply Forall_app in F. destruct F as [F FX]. inversion FX; subst.
    assert (L : length (a ++ n ++ [x]) = S (length (a ++ n))) by (rewrite !app_length; cbn; lia). rewrite L.
    assert (E : back_char (a ++ (n ++ [x]) ++ c :: r) (S (length (a ++ n))) = back_char (a ++ (n ++ [x]) ++ c :: r) (length (a ++ n))).
    { cbn [back_char]. rewrite <- L. rewrite (app_assoc a). rewrite get_app. cbn [bind]. destruct (Z.eqb_spec c 47); [congruence|]. reflexivity. }
    rewrite E. rewrite <- app_assoc. cbn [app]. destruct (IH a x (c :: r) F) as [H|H]; auto.
Qed.
Lemma back_char_stop : forall a r, back_char (a ++ 47 :: r) (length a) = Ok (length a).
Proof.
  intros a r. destruct a as [|c a]; [reflexivity|]. assert (E : back_char ((c :: a) ++ 47 :: r) (length (c :: a)) = (let* d := get ((c :: a) ++ 47 :: r) (length (c :: a)) in if d =? 47 then Ok (length (c :: a)) else back_char ((c :: a) ++ 47 :: r) (length a))) by reflexivity.
  rewrite E, get_app. reflexivity.
Qed.
Lemma back_slash_spec : forall i a r, (a = [] \/ exists a' c, a = a' ++ [c] /\ c <> 47) -> back_slash (a ++ repeat 47 i ++ r) (length a + i) = Ok (length a).
Proof.
  induction i as [|i IH]; intros a r H.
  - rewrite Nat.add_0_r. cbn [repeat app]. destruct H as [->|(a' & c & -> & N)]; [reflexivity|].
    rewrite app_length. cbn [length]. rewrite Nat.add_1_r. cbn [back_slash]. rewrite <- app_assoc. cbn [app]. rewrite get_app. cbn [bind]. destruct (Z.eqb_spec c 47); [congruence|]. reflexivity.
  - assert (R : forall i, repeat 47 (S i) = repeat 47 i ++ [47]). { clear. induction i; auto. cbn [repeat app]. f_equal. exact IHi. }
    rewrite R, <- app_assoc, Nat.add_succ_r. cbn [back_slash app].
    rewrite <- IH with (r := 47 :: r); auto. rewrite app_assoc. replace (length a + i)%nat with (length (a ++ repeat 47 i)) by (rewrite app_length, repeat_length; lia).
    rewrite get_app. cbn [bind]. change (47 =? 47) with true. cbv iota. reflexivity.
Qed.

(* going back over one piece *)
Lemma back_piece : forall a i n r, Forall okc n -> (a = [] /\ True \/ (exists a' c, a = a' ++ [c] /\ c <> 47) /\ (0 < i)%nat) ->
  (let* e := back_char (a ++ (repeat 47 i ++ n) ++ 0 :: r) (length (a ++ repeat 47 i ++ n)) in back_slash (a ++ (repeat 47 i ++ n) ++ 0 :: r) e) = Ok (length a).
Proof.
  intros a i n r F H. assert (FN : Forall (fun c => c <> 47) n) by (eapply Forall_impl; [|exact F]; intros ? []; auto).
  assert (HA : a = [] \/ exists a' c, a = a' ++ [c] /\ c <> 47) by tauto.
  rewrite <- app_assoc. rewrite !(app_assoc a). destruct i as [|i].
  - destruct H as [[-> _]|[_ H]]; [|lia]. cbn [repeat app]. destruct (back_char_spec n [] 0 r FN ltac:(lia)) as [E|[_ E]]; cbn [app length pred] in E; rewrite E; reflexivity.
  - assert (R : repeat 47 (S i) = repeat 47 i ++ [47]). { clear. induction i; auto. cbn [repeat app]. f_equal. exact IHi. }
    destruct (back_char_spec n (a ++ repeat 47 (S i)) 0 r FN ltac:(lia)) as [E|[E _]].
    + rewrite E. rewrite !app_length, repeat_length. replace (pred (length a + S i)) with (length (a ++ repeat 47 i)) by (rewrite app_length, repeat_length; lia).
      rewrite R. assert (Q : (a ++ repeat 47 i ++ [47]) ++ n ++ 0 :: r = (a ++ repeat 47 i) ++ 47 :: n ++ 0 :: r) by (rewrite <- !app_assoc; reflexivity). rewrite Q, back_char_stop. cbn [bind].
      rewrite app_length, repeat_length, <- app_assoc. apply back_slash_spec; auto.
    + rewrite app_length, repeat_length in E. lia.
Qed.
