(* C93: the program's own messages. *)
From Coq Require Import String.
From Verif Require Import Base Num LogOut SpecLogOut.
Open Scope string_scope. Open Scope list_scope. Open Scope Z_scope.

(* the levels there are; short: fits into the line buffer *)
Definition level_ok (m : Z * list Z) : Prop := 0 <= fst m <= 5.
Definition short (b : backend) (m : Z * list Z) : Prop := b = ToStderr -> (length (snd m) <= 2047)%nat.

Lemma sgr_esc : forall x, Forall (fun c => 48 <= c <= 57 \/ c = 59) x -> sgr (27 :: 91 :: x ++ [109]).
Proof. intros x F. exists x. auto. Qed.
Lemma log_one : forall b tty level m, level_ok m -> short b m ->
  let s := set_max_level level (log_open b tty log_static) in
  Forall2 (appears b tty) (up_to level [m]) (log s m).
Proof.
  intros b tty level [l t] L S s. unfold level_ok in L. cbn [fst] in L. unfold up_to. cbn [filter fst]. unfold log.
  replace (l_max s) with level by (destruct b; reflexivity). rewrite Z.leb_antisym. destruct (level <? l) eqn:LT; cbn [negb]; [constructor|].
  destruct b.
  - specialize (S eq_refl). cbn [snd] in S.
    assert (C : (tty = false /\ color s l = None) \/ (tty = true /\ match color s l with None => True | Some c => sgr c end)).
    { destruct tty; [right|left]; (split; [reflexivity|]); [|reflexivity]. unfold s, color, log_open, set_max_level, log_static. cbn [l_fd l_colors negb].
      change (negb (-1 <? 0)) with false. cbn [l_colors negb].
      destruct (l =? L_ERROR); [apply (sgr_esc [51; 49]); repeat constructor; lia|]. destruct (l =? L_WARNING); [apply (sgr_esc [48; 59; 51; 51]); repeat constructor; lia|].
      destruct (l =? L_NOTICE); [apply (sgr_esc [51; 51; 59; 49]); repeat constructor; lia|]. destruct (l =? L_INFO); [apply (sgr_esc [51; 55; 59; 49]); repeat constructor; lia|].
      destruct (l =? L_DEBUG); [apply (sgr_esc [51; 52; 59; 49]); repeat constructor; lia|exact I]. }
    change (l_backend s) with ToStderr. cbv iota. unfold to_fd. replace (l_fd s) with 2 by reflexivity. change (2 <? 0) with false. cbv iota.
    rewrite firstn_all2 by (change (LINE_MAX - 1)%nat with 2047%nat; lia). constructor; [|constructor]. cbn [appears snd]. eexists. split; [reflexivity|].
    destruct C as [[T C]|[T C]]; rewrite ?C; [left; reflexivity|]. destruct (color s l) as [c|]; [|left; reflexivity]. right. split; [exact T|]. exists c. split; [exact C|]. reflexivity.
  - change (l_backend s) with ToSyslog. cbv iota. constructor; [|constructor]. cbn [appears fst snd]. eexists. split; [reflexivity|].
    unfold severity, syslog_level, L_ERROR, L_WARNING, L_NOTICE, L_INFO.
    repeat match goal with |- context [?a =? ?b] => destruct (Z.eqb_spec a b) end; lia.
Qed.
Lemma log_many : forall b tty level ms, Forall level_ok ms -> Forall (short b) ms ->
  Forall2 (appears b tty) (up_to level ms) (flat_map (log (set_max_level level (log_open b tty log_static))) ms).
Proof.
  induction ms as [|m ms IH]; intros L S; cbn [flat_map]; [constructor|]. inversion L; inversion S; subst.
  change (m :: ms) with ([m] ++ ms). unfold up_to. rewrite filter_app. apply Forall2_app; [apply log_one; auto|apply IH; auto].
Qed.
(* Once the configuration was read, exactly the messages up to the configured level appear, each once, in order, whole,
   as lines of standard error (coloured only on a terminal) or with their severity in the system log.  Before, the level
   is INFO.  For messages of at most 2047 bytes on standard error. *)
Theorem C93_messages_partial : forall b tty level version early late, Forall level_ok (early ++ late) -> Forall (short b) ((3, version) :: early ++ late) ->
  Forall2 (appears b tty) ((3, version) :: up_to 3 early ++ up_to level late) (main_log b tty level version early late).
Proof.
  intros b tty level version early late L S. apply Forall_app in L. destruct L as [L1 L2]. inversion S as [|? ? SV SR]; subst. apply Forall_app in SR. destruct SR as [S1 S2].
  unfold main_log. replace (log_open b tty log_static) with (set_max_level 3 (log_open b tty log_static)) at 1 2 by (destruct b, tty; reflexivity).
  apply (Forall2_app (l1 := [(3, version)])); [|apply Forall2_app; [apply log_many; auto|apply log_many; auto]].
  change [(3, version)] with (up_to 3 [(3, version)]). apply (log_one b tty 3 (3, version)); auto. unfold level_ok. cbn. lia.
Qed.
Print Assumptions C93_messages_partial.

(* Refuted: the configured level does not hold from the beginning.  With level ERROR the version and warnings about the
   configuration appear nevertheless; with level DEBUG what is said for debugging while reading it does not. *)
Theorem C93_level_refuted : forall version warning debug,
  main_log ToStderr false L_ERROR version [(L_WARNING, warning)] [] = [OFd 2 (firstn 2047 version ++ [10]); OFd 2 (firstn 2047 warning ++ [10])] /\
  main_log ToStderr false L_DEBUG version [(L_DEBUG, debug)] [] = [OFd 2 (firstn 2047 version ++ [10])].
Proof. intros. split; reflexivity. Qed.
Print Assumptions C93_level_refuted.
(* Refuted: longer messages are cut. *)
Theorem C93_long_refuted : forall level text, 0 <= level <= 5 -> (2047 < length text)%nat ->
  main_log ToStderr false L_TRACE [] [] [(level, text)] = [OFd 2 [10]; OFd 2 (firstn 2047 text ++ [10])] /\
  ~ appears ToStderr false (level, text) (OFd 2 (firstn 2047 text ++ [10])).
Proof.
  intros level text L N. split.
  - unfold main_log. cbn [flat_map]. rewrite !app_nil_r. unfold log. change (l_max (set_max_level L_TRACE (log_open ToStderr false log_static))) with 5.
    destruct (Z.ltb_spec 5 level); [lia|]. reflexivity.
  - cbn [appears snd]. intros (line & E & [A|[A _]]); [|discriminate]. unfold a_line in A. subst line.
    apply (f_equal (fun o => match o with OFd _ b => length b | _ => 0%nat end)) in E. cbv beta iota in E. rewrite !app_length, firstn_length in E. lia.
Qed.
Print Assumptions C93_long_refuted.
Example C93_nonvacuous : main_log ToStderr true L_NOTICE (lit "v3") [(L_DEBUG, lit "a")] [(L_INFO, lit "b"); (L_ERROR, lit "bad")] =
  [OFd 2 (27 :: lit "[37;1mv3" ++ 27 :: lit "[0m" ++ [10]); OFd 2 (27 :: lit "[31mbad" ++ 27 :: lit "[0m" ++ [10])].
Proof. vm_compute. reflexivity. Qed.
