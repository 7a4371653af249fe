(* C90: the command line means what the help text says. *)
From Coq Require Import String.
From Verif Require Import Base Num Inet Conf ConfLook Opts Main SpecArgs Getopt Prop_ConfSafe.
Open Scope string_scope.
Open Scope list_scope.
Open Scope Z_scope.

Lemma scan_word : forall a os r, same a (lit "--") = false -> nonoption a = false -> word a = (os, None) ->
  scan (a :: r) = mkSc (os ++ sc_opts (scan r)) (a :: sc_used (scan r)) (sc_rest (scan r)) (sc_cut (scan r)).
Proof. intros a os r S N W. cbn [scan]. rewrite S, N, W. reflexivity. Qed.
Lemma scan_value : forall a os c b r, same a (lit "--") = false -> nonoption a = false -> word a = (os, Some c) ->
  scan (a :: b :: r) = mkSc (os ++ mkCo c b :: sc_opts (scan r)) (a :: b :: sc_used (scan r)) (sc_rest (scan r)) (sc_cut (scan r)).
Proof. intros a os c b r S N W. cbn [scan]. rewrite S, N, W. reflexivity. Qed.
Lemma non_dashes : forall a, nonoption a = true -> same a (lit "--") = false.
Proof. intros a N. unfold same. destruct (list_eq_dec Z.eq_dec a (lit "--")); auto. subst. discriminate. Qed.
Lemma scan_other : forall a r, nonoption a = true -> scan (a :: r) = mkSc (sc_opts (scan r)) (sc_used (scan r)) (a :: sc_rest (scan r)) (sc_cut (scan r)).
Proof. intros a r N. cbn [scan]. rewrite non_dashes, N by auto. reflexivity. Qed.
Lemma scan_others : forall xs, Forall (fun a => nonoption a = true) xs -> scan xs = mkSc [] [] xs false.
Proof. induction 1 as [|a xs N F IH]; [reflexivity|]. rewrite scan_other, IH by auto. reflexivity. Qed.
Lemma scan_again : forall n argv xs, (length argv <= n)%nat -> Forall (fun a => nonoption a = true) xs -> sc_cut (scan argv) = false ->
  scan (sc_used (scan argv) ++ xs ++ sc_rest (scan argv)) = mkSc (sc_opts (scan argv)) (sc_used (scan argv)) (xs ++ sc_rest (scan argv)) false.
Proof.
  induction n as [|n IH]; intros argv xs L F C; (destruct argv as [|a r]; [cbn [scan sc_used sc_rest sc_opts app]; rewrite app_nil_r; apply scan_others; auto|]); cbn [length] in L; [lia|].
  destruct (same a (lit "--")) eqn:S.
  { assert (E : scan (a :: r) = mkSc [] [a] r false) by (cbn [scan]; rewrite S; reflexivity). rewrite E. cbn [sc_used sc_rest sc_opts app scan]. rewrite S. reflexivity. }
  destruct (nonoption a) eqn:N.
  { rewrite scan_other in * by auto. cbn [sc_used sc_rest sc_opts sc_cut] in *. specialize (IH r (xs ++ [a])). rewrite <- app_assoc in IH. cbn [app] in IH. apply IH; auto; [lia|]. apply Forall_app. auto. }
  destruct (word a) as [os [c|]] eqn:W.
  - destruct r as [|b r]. { cbn [scan] in C. rewrite S, N, W in C. discriminate. }
    rewrite (scan_value a os c b r) in * by auto. cbn [sc_used sc_rest sc_opts sc_cut app] in *. rewrite (scan_value a os c b) by auto. rewrite IH; auto. cbn [length] in L. lia.
  - rewrite (scan_word a os r) in * by auto. cbn [sc_used sc_rest sc_opts sc_cut app] in *. rewrite (scan_word a os) by auto. rewrite IH; auto. lia.
Qed.
(* Both scans of the command line see the same options, values and endpoints, unless the last word is an option without its
   value. *)
Theorem C90_scans_partial : forall argv, sc_cut (scan argv) = false ->
  sc_opts (scan (permuted (scan argv))) = sc_opts (scan argv) /\ sc_rest (scan (permuted (scan argv))) = sc_rest (scan argv).
Proof. intros argv C. unfold permuted. pose proof (scan_again (length argv) argv [] (le_n _) (Forall_nil _) C) as E. cbn [app] in E. rewrite E. auto. Qed.
Print Assumptions C90_scans_partial.

(* the ways of writing options that work *)
Definition works (d : docopt) (f : form) : Prop :=
  match f with
  | Letter => d_letter d <> chr "T" /\ d_letter d <> chr "V"
  | Name => d_name d <> lit "help"
  end.
Lemma plain_nonoption : forall a, plain_word a -> nonoption a = true.
Proof.
  intros [|c [|c' r]] P; [reflexivity| |]; cbn [plain_word] in P; unfold nonoption; destruct c as [|p|p]; try reflexivity; do 6 (destruct p as [p|p|]; try reflexivity); congruence.
Qed.
Lemma scan_spelled : forall d f ws v, In d documented -> works d f -> spelled d f ws v -> forall r,
  sc_opts (scan (ws ++ r)) = mkCo (d_letter d) v :: sc_opts (scan r) /\ sc_rest (scan (ws ++ r)) = sc_rest (scan r) /\ sc_cut (scan (ws ++ r)) = sc_cut (scan r).
Proof.
  assert (ONE : forall a o r, same a (lit "--") = false -> nonoption a = false -> word a = ([o], None) ->
    sc_opts (scan ([a] ++ r)) = o :: sc_opts (scan r) /\ sc_rest (scan ([a] ++ r)) = sc_rest (scan r) /\ sc_cut (scan ([a] ++ r)) = sc_cut (scan r)).
  { intros a o r S N W. cbn [app]. rewrite (scan_word a [o] r) by auto. auto. }
  assert (TWO : forall a c b r, same a (lit "--") = false -> nonoption a = false -> word a = ([], Some c) ->
    sc_opts (scan ([a; b] ++ r)) = mkCo c b :: sc_opts (scan r) /\ sc_rest (scan ([a; b] ++ r)) = sc_rest (scan r) /\ sc_cut (scan ([a; b] ++ r)) = sc_cut (scan r)).
  { intros a c b r S N W. cbn [app]. rewrite (scan_value a [] c b r) by auto. auto. }
  intros d f ws v I W S r.
  destruct S as [d V|d v V|d v V NE|d V|d v V|d v V]; cbn [documented In] in I;
    repeat (destruct I as [<-|I]; [try (cbn in V; discriminate V); try (exfalso; cbn in W; intuition congruence);
      try (apply ONE; [reflexivity|reflexivity|first [reflexivity | destruct v; [congruence|reflexivity]]]); try (apply TWO; [reflexivity|reflexivity|reflexivity])|]); try contradiction.
Qed.
Lemma written_scan : forall argv os ps, SpecArgs.written works argv os ps -> sc_opts (scan argv) = os /\ sc_rest (scan argv) = ps /\ sc_cut (scan argv) = false.
Proof.
  induction 1 as [|a r os ps P W IH|d f ws v r os ps I OK S W IH|r].
  - auto.
  - rewrite scan_other by (apply plain_nonoption; auto). cbn [sc_opts sc_rest sc_cut]. destruct IH as (A & B & C). rewrite A, B, C. auto.
  - destruct (scan_spelled d f ws v I OK S r) as (A & B & C). rewrite A, B, C. destruct IH as (A' & B' & C'). rewrite A', B', C'. auto.
  - auto.
Qed.
(* For command lines written as the help text says, other than -T, -V and --help: both scans see exactly the options, values
   and endpoints written, in their order, wherever the endpoints stand, and the configuration is that of these options (C77). *)
Theorem C90_written_partial : forall argv os ps, SpecArgs.written works argv os ps ->
  sc_opts (scan argv) = os /\ sc_opts (scan (permuted (scan argv))) = os /\ sc_rest (scan (permuted (scan argv))) = ps /\
  forall v chr ef ed, configure_argv v chr ef ed argv = configure v chr ef ed os ps.
Proof.
  intros argv os ps W. destruct (written_scan argv os ps W) as (A & B & C). destruct (C90_scans_partial argv C) as (D & E).
  split; [auto|]. split; [congruence|]. split; [congruence|]. intros v chr ef ed. unfold configure_argv, configure. cbv zeta. rewrite D, E, A, B. reflexivity.
Qed.
Print Assumptions C90_written_partial.
Definition anything (d : docopt) (f : form) : Prop := True.
Lemma in_doc : forall k d, nth_error documented k = Some d -> In d documented.
Proof. intros k d. apply nth_error_In. Qed.
(* Refuted: -T, documented without a value, takes the next word, so that an endpoint behind it is lost *)
Theorem C90_T_refuted : forall a, plain_word a -> SpecArgs.written anything [lit "-T"; a] [mkCo (chr "T") []] [a] /\
  sc_opts (scan [lit "-T"; a]) = [mkCo (chr "T") a] /\ sc_rest (scan (permuted (scan [lit "-T"; a]))) = [].
Proof.
  intros a P. split; [|split; reflexivity]. change [lit "-T"; a] with ([lit "-" ++ [d_letter (mkDoc (chr "T") (lit "telemetry-log") false)]] ++ [a]).
  apply (w_option anything (mkDoc (chr "T") (lit "telemetry-log") false) Letter); [apply (in_doc 7); reflexivity|exact I|apply sp_flag; reflexivity|]. apply w_endpoint; auto. constructor.
Qed.
Print Assumptions C90_T_refuted.
(* -V alone and --help, both documented, are errors *)
Theorem C90_V_refuted : SpecArgs.written anything [lit "-V"] [mkCo (chr "V") []] [] /\ sc_opts (scan [lit "-V"]) = [bad] /\
  SpecArgs.written anything [lit "--help"] [mkCo (chr "h") []] [] /\ sc_opts (scan [lit "--help"]) = [bad] /\
  forall v ch ef ed g, configure_argv v ch ef ed [lit "-V"] <> Ok (Some g).
Proof.
  split. { change [lit "-V"] with ([lit "-" ++ [d_letter (mkDoc (chr "V") (lit "version") false)]] ++ []).
    apply (w_option anything (mkDoc (chr "V") (lit "version") false) Letter); [apply (in_doc 10); reflexivity|exact I|apply sp_flag; reflexivity|constructor]. }
  split; [reflexivity|]. split. { change [lit "--help"] with ([lit "--" ++ d_name (mkDoc (chr "h") (lit "help") false)] ++ []).
    apply (w_option anything (mkDoc (chr "h") (lit "help") false) Name); [apply (in_doc 13); reflexivity|exact I|apply sp_name; reflexivity|constructor]. }
  split; [reflexivity|]. intros v ch ef ed g. unfold configure_argv. change (scan [lit "-V"]) with (mkSc [bad] [lit "-V"] [] true). cbn [permuted sc_used sc_rest sc_opts app]. change (scan [lit "-V"]) with (mkSc [bad] [lit "-V"] [] true). cbn [sc_used sc_rest sc_opts].
  change (pre_parse [bad] [] []) with (Some (@nil Z, @nil Z)). cbv iota. destruct (parse_conf_files _ _ _ _) as [[ret g0]| |]; cbn [bind]; try discriminate. destruct (ret <? 0); [discriminate|].
  change (parse_argv ch [bad] [] g0) with (- EINVAL, g0). cbv iota. change (- EINVAL =? 2) with false. discriminate.
Qed.
Print Assumptions C90_V_refuted.
(* An option at the end whose value is missing is reported by the first scan only; for the second one the first endpoint has
   become its value. *)
Theorem C90_missing_refuted : forall a, plain_word a ->
  sc_opts (scan [a; lit "-e"]) = [bad] /\ sc_opts (scan (permuted (scan [a; lit "-e"]))) = [mkCo (chr "e") a] /\ sc_rest (scan (permuted (scan [a; lit "-e"]))) = [].
Proof.
  intros a P. rewrite scan_other by (apply plain_nonoption; auto). change (scan [lit "-e"]) with (mkSc [bad] [lit "-e"] [] true). cbn [permuted sc_used sc_rest sc_opts app].
  rewrite (scan_value (lit "-e") [] (chr "e") a []) by reflexivity. auto.
Qed.
Print Assumptions C90_missing_refuted.
Example C90_nonvacuous : SpecArgs.written works [lit "/dev/ttyS0:57600"; lit "-e"; lit "10.0.0.1"; lit "--tcp-port=0"; lit "-v"; lit "--endpoint"; lit "-x"; lit "10.0.0.2:1"]
  [mkCo (chr "e") (lit "10.0.0.1"); mkCo (chr "t") (lit "0"); mkCo (chr "v") []; mkCo (chr "e") (lit "-x")] [lit "/dev/ttyS0:57600"; lit "10.0.0.2:1"].
Proof.
  assert (O : forall k d f ws v r os ps, nth_error documented k = Some d -> works d f -> spelled d f ws v -> SpecArgs.written works r os ps -> SpecArgs.written works (ws ++ r) (mkCo (d_letter d) v :: os) ps).
  { intros k d f ws v r os ps N W S H. eapply w_option; eauto. eapply in_doc; eauto. }
  apply w_endpoint; [cbn; lia|].
  apply (O 0%nat (mkDoc (chr "e") (lit "endpoint") true) Letter [lit "-e"; lit "10.0.0.1"]); [reflexivity|cbn; split; discriminate|apply (sp_value (mkDoc (chr "e") (lit "endpoint") true)); reflexivity|].
  apply (O 3%nat (mkDoc (chr "t") (lit "tcp-port") true) Name [lit "--tcp-port=0"]); [reflexivity|cbn; discriminate|apply (sp_name_joined (mkDoc (chr "t") (lit "tcp-port") true)); reflexivity|].
  apply (O 9%nat (mkDoc (chr "v") (lit "verbose") false) Letter [lit "-v"]); [reflexivity|cbn; split; discriminate|apply (sp_flag (mkDoc (chr "v") (lit "verbose") false)); reflexivity|].
  apply (O 0%nat (mkDoc (chr "e") (lit "endpoint") true) Name [lit "--endpoint"; lit "-x"]); [reflexivity|cbn; discriminate|apply (sp_name_value (mkDoc (chr "e") (lit "endpoint") true)); reflexivity|].
  apply w_endpoint; [cbn; lia|]. constructor.
Qed.

(* C85 for the words of the command line: whatever they are, reading them and the files comes to an end. *)
Theorem C85_words_partial : forall v chr env_file env_dir argv,
  (forall path, narrow (fv_node v path)) ->
  (forall dir ents, fv_dir v dir = Some ents -> (length (filter de_reg ents) <= 128)%nat) ->
  exists r, configure_argv v chr env_file env_dir argv = Ok r.
Proof.
  intros v ch ef ed argv N D. destruct (C85_defined_partial v ch ef ed (sc_opts (scan argv)) [] N D) as (r & E). unfold configure in E. unfold configure_argv. cbv zeta.
  destruct (pre_parse (sc_opts (scan argv)) [] []) as [[file dir]|]; [|eauto]. destruct (parse_conf_files _ _ _ _) as [[ret g]| |]; cbn [bind] in *; try discriminate.
  destruct (ret <? 0); [eauto|]. destruct (parse_argv ch (sc_opts (scan (permuted (scan argv)))) (sc_rest (scan (permuted (scan argv)))) g). eauto.
Qed.
Print Assumptions C85_words_partial.
