(* C85: reading the configuration always comes to an end, without undefined behaviour, whatever the files, the directory and the command line
   contain; with the two exceptions C66 and C67 name. *)
From Coq Require Import String.
From Verif Require Import Base Names Num Accept Conf SpecConf ConfProofs ConfRun ConfLook Opts Main ConfFiles Prop_Conf.
Local Open Scope string_scope.
Local Open Scope list_scope.
Local Open Scope Z_scope.

(* ---- the only errors of a file that exists are -EINVAL ---- *)

Lemma add_config_code : forall m id a n cs r cs', add_config m id a n cs = Ok (r, cs') -> r = 0 \/ r = - EINVAL.
Proof.
  intros m id a n cs r cs' H. unfold add_config in H. apply bind_Ok_inv in H. destruct H as ([e|] & _ & H); [|inversion H; auto].
  destruct (e =? a)%nat; [inversion H; auto|]. destruct (e =? a + n - 1)%nat; [inversion H; auto|].
  apply bind_Ok_inv in H. destruct H as ([k kn] & _ & H). apply bind_Ok_inv in H. destruct H as ([v vn] & _ & H).
  apply bind_Ok_inv in H. destruct H as (key & _ & H). apply bind_Ok_inv in H. destruct H as (val & _ & H). inversion H; auto.
Qed.
Lemma parse_lines_code : forall fuel m addr len cs cur ret r cs', parse_lines fuel m addr len cs cur ret = Ok (r, cs') -> ret = 0 \/ ret = - EINVAL -> r = 0 \/ r = - EINVAL.
Proof.
  induction fuel as [|fuel IH]; intros m addr len cs cur ret r cs' H R; cbn [parse_lines] in H; [discriminate|].
  apply bind_Ok_inv in H. destruct H as ([e|] & _ & H); [|inversion H; subst; auto].
  destruct (INT_MAX <? Z.of_nat (e - addr)); [inversion H; auto|]. apply bind_Ok_inv in H. destruct H as ([a n] & _ & H).
  destruct (n =? 0)%nat; [eapply IH; eauto|]. apply bind_Ok_inv in H. destruct H as (c & _ & H).
  destruct ((c =? 59) || (c =? 35)); [eapply IH; eauto|]. destruct (c =? 91).
  - apply bind_Ok_inv in H. destruct H as ([[s|] cs1] & _ & H); [eapply IH; eauto|inversion H; auto].
  - destruct cur as [id|]; [|inversion H; auto]. apply bind_Ok_inv in H. destruct H as ([r1 cs1] & A & H). apply add_config_code in A.
    destruct (r1 <? 0); [inversion H; subst; auto|eapply IH; eauto].
Qed.

(* ---- what the sections read so far satisfy ---- *)

Record nice (cs : confs) : Prop := mkNice { ni_ci : CI cs; ni_full : full cs; ni_short : Forall (fun s => (length (se_name s) < 100)%nat) cs }.

(* no section of the text has a name of 100 characters *)
Definition narrow (f : node) : Prop :=
  match f with NData t => forall l n, In l (lines_of t) -> classify l = Header n -> (length n < 100)%nat | NErr _ => True end.

Lemma says_narrow : forall ls cur its n, says cur ls = Some its -> In (Sec n) its -> exists l, In l ls /\ classify l = Header n.
Proof.
  induction ls as [|l ls IH]; intros cur its n H I; cbn [says] in H; [inversion H; subst; destruct I|].
  destruct (classify l) as [|nm|k v|] eqn:C; try discriminate.
  - destruct (IH _ _ _ H I) as (x & A & B). exists x. split; [right|]; auto.
  - destruct (says (Some nm) ls) as [its'|] eqn:E; inversion H; subst. destruct I as [X|I]; [inversion X; subst; exists l; split; [left|]; auto|].
    destruct (IH _ _ _ E I) as (x & A & B). exists x. split; [right|]; auto.
  - destruct cur as [nm|]; [|discriminate]. destruct (says (Some nm) ls) as [its'|] eqn:E; inversion H; subst. destruct I as [X|I]; [discriminate|].
    destruct (IH _ _ _ E I) as (x & A & B). exists x. split; [right|]; auto.
Qed.
Lemma apply_short : forall its cs, Forall (fun s => (length (se_name s) < 100)%nat) cs -> (forall n, In (Sec n) its -> (length n < 100)%nat) ->
  Forall (fun s => (length (se_name s) < 100)%nat) (apply its cs).
Proof.
  induction its as [|[n|s k v] its IH]; intros cs F H; cbn [apply]; auto.
  - apply IH; [|intros; apply H; right; auto]. unfold enter. destruct (find_section n cs); cbn [snd]; auto. constructor; auto. apply H. left; auto.
  - apply IH; [|intros; apply H; right; auto]. destruct (find_section s cs) as [x|]; auto. unfold upd_section. rewrite Forall_map.
    eapply Forall_impl; [|exact F]. intros y L. cbn. destruct (se_id y =? se_id x)%nat; auto.
Qed.

Lemma parse_nice : forall f cs, nice cs -> narrow f -> exists r cs', parse f cs = Ok (r, cs') /\ (0 <= r \/ r = - ENOENT -> nice cs').
Proof.
  intros f cs [C F S] N. destruct (parse_total f cs C) as (r & cs' & P & _). exists r, cs'. split; auto. intros [R|R].
  - destruct (parse_ok _ _ _ _ C P R) as (its & (t & -> & _ & M) & -> & C' & _). constructor; auto.
    + apply apply_full; auto. intros n k v I. eapply says_nonempty; eauto.
    + apply apply_short; auto. intros n I. destruct (says_narrow _ _ _ _ M I) as (l & A & B). eapply N; eauto.
  - destruct f as [e|[|b data]]; cbn [parse] in P.
    + inversion P; subst. constructor; auto.
    + inversion P; subst. unfold EINVAL, ENOENT in *. lia.
    + unfold parse_file in P. apply parse_lines_code in P; auto. unfold EINVAL, ENOENT in *. lia.
Qed.
Lemma parse_each_nice : forall fsys files cs, nice cs -> (forall f, narrow (fsys f)) -> exists r cs', parse_each fsys files cs = Ok (r, cs') /\ (0 <= r -> nice cs').
Proof.
  induction files as [|f files IH]; intros cs C N; cbn [parse_each]; [exists 0, cs; auto|].
  destruct (parse_nice (fsys f) cs C (N f)) as (r & cs1 & -> & C1). cbn [bind]. destruct (Z.ltb_spec r 0); [exists r, cs1; split; [reflexivity|lia]|]. apply IH; auto.
Qed.

(* ---- extraction ---- *)

Lemma extract_total : forall D (table : list (opt D)) s, defined_on_values table -> (forall c, In c (se_confs s) -> ce_val c <> []) ->
  forall d, exists r d', extract_section s table d = Ok (r, d').
Proof.
  induction table as [|t r IH]; intros s DV NE d; cbn [extract_section]; [eauto|].
  assert (DV' : defined_on_values r) by (intros t0 v d0 I; apply DV; right; auto).
  destruct (find_config (o_key t) (se_confs s)) as [c|] eqn:F.
  - assert (IC : In c (se_confs s)).
    { clear - F. induction (se_confs s) as [|x l IHl]; [discriminate|]. rewrite find_config_cons in F. destruct (cmatch (o_key t) x); [inversion F; left; auto|right; auto]. }
    destruct (DV t (ce_val c) d) as (ret & d1 & ->); auto; [left; auto|]. cbn [bind]. destruct (ret <? 0); [eauto|]. apply IH; auto.
  - destruct (o_req t); [eauto|]. apply IH; auto.
Qed.
Lemma options_total : forall D (table : list (opt D)) cs name d, defined_on_values table -> full cs -> exists r d', extract_options cs name table d = Ok (r, d').
Proof.
  intros D table cs name d DV F. unfold extract_options. destruct (find_section name cs) as [s|] eqn:E; [|eauto].
  apply extract_total; auto. intros c I. apply find_section_in in E. destruct E as [E _]. apply (F s c E I).
Qed.

Lemma get_sections_total : forall prefix it, Forall (fun s => (length (se_name s) < 100)%nat) it ->
  exists nx, get_sections prefix it = Ok nx /\ forall s r, nx = Some (s, r) -> In s it /\ (length r < length it)%nat /\ (forall x, In x r -> In x it).
Proof.
  induction it as [|s it IH]; intros F; cbn [get_sections]; [exists None; split; [auto|discriminate]|]. inversion F; subst.
  unfold MAX_SECTION_NAME. destruct (Nat.ltb_spec (length (se_name s)) 100); [|lia]. destruct (fnstar prefix (cstr (se_name s))).
  - exists (Some (s, it)). split; auto. intros s0 r X. inversion X; subst. split; [left; auto|]. split; [cbn; lia|]. intros; right; auto.
  - destruct (IH H2) as (nx & -> & K). exists nx. split; auto. intros s0 r X. destruct (K _ _ X) as (A & B & C). split; [right; auto|]. split; [cbn; lia|]. intros; right; auto.
Qed.

Lemma uarts_total : forall fuel it g, (length it < fuel)%nat -> full it -> Forall (fun s => (length (se_name s) < 100)%nat) it -> exists r g', conf_uarts fuel it g = Ok (r, g').
Proof.
  induction fuel as [|fuel IH]; intros it g L F S; [lia|]. cbn [conf_uarts]. destruct (get_sections_total uart_prefix it S) as ([[s r]|] & -> & K); cbn [bind]; [|eauto].
  destruct (K s r eq_refl) as (A & B & C). destruct (extract_total _ uart_table s (proj1 C64_tables) (fun c I => proj2 (F s c A I)) (mkUa (skipn (length uart_prefix) (se_name s)) [] [] false no_filters [])) as (ret & u & ->).
  cbn [bind]. destruct (negb (ret =? 0)); [eauto|]. match goal with |- context [validate_uart ?x] => destruct (negb (validate_uart x)); [eauto|] end.
  apply IH; [lia| |]. { intros s0 c I; apply F; auto. } apply Forall_forall. intros x I. rewrite Forall_forall in S. auto.
Qed.
Lemma udps_total : forall fuel it g, (length it < fuel)%nat -> full it -> Forall (fun s => (length (se_name s) < 100)%nat) it -> exists r g', conf_udps fuel it g = Ok (r, g').
Proof.
  induction fuel as [|fuel IH]; intros it g L F S; [lia|]. cbn [conf_udps]. destruct (get_sections_total udp_prefix it S) as ([[s r]|] & -> & K); cbn [bind]; [|eauto].
  destruct (K s r eq_refl) as (A & B & C). destruct (extract_total _ udp_table s (proj1 (proj2 C64_tables)) (fun c I => proj2 (F s c A I)) (mkUd (skipn (length udp_prefix) (se_name s)) [] UNSET UUndefined no_filters [])) as (ret & u & ->).
  cbn [bind]. destruct (negb (ret =? 0)); [eauto|]. match goal with |- context [validate_udp ?x] => destruct (negb (validate_udp x)); [eauto|] end.
  apply IH; [lia| |]. { intros s0 c I; apply F; auto. } apply Forall_forall. intros x I. rewrite Forall_forall in S. auto.
Qed.
Lemma tcps_total : forall fuel it g, (length it < fuel)%nat -> full it -> Forall (fun s => (length (se_name s) < 100)%nat) it -> exists r g', conf_tcps fuel it g = Ok (r, g').
Proof.
  induction fuel as [|fuel IH]; intros it g L F S; [lia|]. cbn [conf_tcps]. destruct (get_sections_total tcp_prefix it S) as ([[s r]|] & -> & K); cbn [bind]; [|eauto].
  destruct (K s r eq_refl) as (A & B & C). destruct (extract_total _ tcp_table s (proj1 (proj2 (proj2 C64_tables))) (fun c I => proj2 (F s c A I)) (mkTc (skipn (length tcp_prefix) (se_name s)) [] UNSET 5 no_filters [])) as (ret & u & ->).
  cbn [bind]. destruct (negb (ret =? 0)); [eauto|]. match goal with |- context [validate_tcp ?x] => destruct (negb (validate_tcp x)); [eauto|] end.
  apply IH; [lia| |]. { intros s0 c I; apply F; auto. } apply Forall_forall. intros x I. rewrite Forall_forall in S. auto.
Qed.

Lemma parse_confs_total : forall cs g, nice cs -> exists r g', parse_confs cs g = Ok (r, g').
Proof.
  intros cs g [C F S]. unfold parse_confs. destruct C64_tables as (_ & _ & _ & TL & TG).
  destruct (options_total _ global_table cs general g TG F) as (r1 & g1 & ->). cbn [bind]. destruct (r1 <? 0); [eauto|].
  destruct (options_total _ log_table cs general (g_log g1) TL F) as (r2 & l & ->). cbn [bind]. destruct (r2 <? 0); [eauto|].
  destruct (uarts_total (Datatypes.S (length cs)) cs (with_log g1 l)) as (r3 & g3 & ->); auto. cbn [bind]. destruct (negb (r3 =? 0)); [eauto|].
  destruct (udps_total (Datatypes.S (length cs)) cs g3) as (r4 & g4 & ->); auto. cbn [bind]. destruct (negb (r4 =? 0)); [eauto|].
  apply tcps_total; auto.
Qed.

Lemma collect_total : forall dir ents files, (length files + length (filter de_reg ents) <= 128)%nat -> exists fs, collect dir ents files = Ok fs.
Proof.
  induction ents as [|e ents IH]; intros files L; cbn [collect]; [eauto|]. destruct (PATH_MAX <=? Z.of_nat (length (dir ++ [47] ++ de_name e))); [eauto|].
  cbn [filter] in L. destruct (de_reg e); cbn [negb length] in *; [|apply IH; auto].
  unfold MAX_FILES. destruct (Nat.ltb_spec (length files) 128); [|lia]. rewrite app_length. cbn [length]. destruct (Nat.ltb_spec 128 (length files + 1)); [eauto|].
  apply IH. rewrite app_length. cbn [length]. lia.
Qed.

(* ==== C85 ==== *)

(* Whatever the files contain and the command line says, the configuration is read to its end or refused, provided no section name has exactly
   100 characters (longer ones are refused) and the configuration directory has at most 128 regular files. *)
Theorem C85_defined_partial : forall v chr env_file env_dir os pos,
  (forall path, narrow (fv_node v path)) ->
  (forall dir ents, fv_dir v dir = Some ents -> (length (filter de_reg ents) <= 128)%nat) ->
  exists r, configure v chr env_file env_dir os pos = Ok r.
Proof.
  intros v chr ef ed os pos N D. unfold configure. destruct (pre_parse os [] []) as [[file dir]|]; [|eauto].
  generalize (choose file ef (lit "/etc/mavlink-router/main.conf")) as f0. generalize (choose dir ed (lit "/etc/mavlink-router/config.d")) as d0. intros d0 f0.
  assert (P : exists r g, parse_conf_files v f0 d0 g_default = Ok (r, g)).
  { unfold parse_conf_files. destruct (parse_nice (fv_node v f0) [] (mkNice _ CI_nil (fun s c I => match I with end) (Forall_nil _)) (N f0)) as (r & cs & -> & C). cbn [bind].
    destruct (Z.ltb_spec r 0) as [R|R]; cbn [andb].
    - destruct (Z.eqb_spec r (- ENOENT)) as [E|E]; cbn [negb]; [|eauto]. specialize (C (or_intror E)).
      destruct (fv_dir v d0) as [ents|] eqn:V; [|apply parse_confs_total; auto].
      destruct (collect_total d0 ents []) as ([fs|] & ->); [cbn [length]; apply (D _ _ V)| |cbn [bind]; eauto]. cbn [bind].
      destruct (parse_each_nice (fv_node v) (sort_str fs) cs C N) as (r2 & cs2 & -> & C2). cbn [bind]. destruct (Z.ltb_spec r2 0); [eauto|]. apply parse_confs_total; auto.
    - specialize (C (or_introl R)). destruct (fv_dir v d0) as [ents|] eqn:V; [|apply parse_confs_total; auto].
      destruct (collect_total d0 ents []) as ([fs|] & ->); [cbn [length]; apply (D _ _ V)| |cbn [bind]; eauto]. cbn [bind].
      destruct (parse_each_nice (fv_node v) (sort_str fs) cs C N) as (r2 & cs2 & -> & C2). cbn [bind]. destruct (Z.ltb_spec r2 0); [eauto|]. apply parse_confs_total; auto. }
  destruct P as (r & g & ->). cbn [bind]. destruct (r <? 0); [eauto|]. destruct (parse_argv chr os pos g). eauto.
Qed.
Print Assumptions C85_defined_partial.

(* Both exceptions are real: a main file with one such section, and 129 files in the directory. *)
Definition long_fs : fsview := mkFv (fun _ => NData t_long) (fun _ => None).
Definition many_fs : fsview := mkFv (fun _ => NErr 2) (fun _ => Some (repeat (mkDe (lit "a.conf") true) 129)).
Theorem C85_refuted : configure long_fs (fun _ => false) None None [] [] = UB /\ configure many_fs (fun _ => false) None None [] [] = UB.
Proof. split; vm_compute; reflexivity. Qed.
Print Assumptions C85_refuted.

(* a malformed file and a directory of three entries are within the theorem *)
Definition odd_fs : fsview := mkFv (fun p => if seq_ p (lit "/etc/mavlink-router/config.d/b") then NData (lit "[General" ++ [10; 61; 0; 255; 10]) else NData (lit "[UdpEndpoint a]" ++ [10]))
  (fun _ => Some [mkDe (lit ".") false; mkDe (lit "a") true; mkDe (lit "b") true]).
Example C85_nonvacuous : (forall path, narrow (fv_node odd_fs path)) /\ (forall dir ents, fv_dir odd_fs dir = Some ents -> (length (filter de_reg ents) <= 128)%nat) /\
  configure odd_fs (fun _ => false) None None [] [] = Ok None.
Proof.
  split; [|split].
  - intros path. unfold odd_fs. cbn [fv_node]. destruct (seq_ path _); intros l n I C.
    + vm_compute in I. repeat (destruct I as [<-|I]; [vm_compute in C; discriminate|]). destruct I.
    + vm_compute in I. repeat (destruct I as [<-|I]; [vm_compute in C; inversion C; cbn; lia|]). destruct I.
  - intros dir ents H. inversion H; subst. cbn. lia.
  - vm_compute. reflexivity.
Qed.
