(* C62-C67: configuration texts, overriding, stored values, unterminated lines, section enumeration, the directory. *)
From Coq Require Import String Sorting.Sorted Sorting.Permutation.
From Verif Require Import Base Names Num Conf SpecConf ConfProofs ConfRun ConfLook Opts Main ConfFiles.
Local Open Scope string_scope.
Local Open Scope list_scope.
Local Open Scope Z_scope.

(* ==== C62: round trip ==== *)

(* a configuration: sections with their settings, and its text *)
Definition cfile : Type := list (list Z * list (list Z * list Z)).
Definition print_setting (kv : list Z * list Z) : list Z := fst kv ++ 61 :: snd kv ++ [10].
Definition print_section (s : list Z * list (list Z * list Z)) : list Z :=
  91 :: fst s ++ [93; 10] ++ flat_map print_setting (snd s).
Definition print_conf (c : cfile) : list Z := flat_map print_section c.

(* characters that may be used *)
Definition legal_name (n : list Z) : Prop := good_name n = true /\ ~ In 93 n /\ ~ In 10 n /\ ~ In 0 n.
Definition legal_key (k : list Z) : Prop :=
  tight k /\ ~ In 61 k /\ ~ In 10 k /\ ~ In 0 k /\ match k with c :: _ => c <> 91 /\ c <> 59 /\ c <> 35 | [] => True end.
Definition legal_value (v : list Z) : Prop := tight v /\ ~ In 10 v.
Definition legal_setting (kv : list Z * list Z) : Prop :=
  legal_key (fst kv) /\ legal_value (snd kv) /\ Z.of_nat (length (fst kv) + length (snd kv)) < 2147483647.
(* no two texts are equal up to case *)
Fixpoint distinct (l : list (list Z)) : Prop :=
  match l with
  | [] => True
  | x :: r => (forall y, In y r -> ~ same x y) /\ distinct r
  end.
Definition legal (c : cfile) : Prop :=
  distinct (map fst c) /\
  Forall (fun s => legal_name (fst s) /\ distinct (map fst (snd s)) /\ Forall legal_setting (snd s)) c.

(* what the reader holds *)
Definition contents (cs : confs) : cfile :=
  map (fun s => (se_name s, map (fun c => (ce_key c, ce_val c)) (rev (se_confs s)))) (rev cs).

Definition conf_items (c : cfile) : list item :=
  flat_map (fun s => Sec (fst s) :: map (fun kv => Set_ (fst s) (fst kv) (snd kv)) (snd s)) c.

Lemma says_settings : forall n kvs rest, Forall legal_setting kvs ->
  says (Some n) (lines_of (flat_map print_setting kvs ++ rest)) =
  match says (Some n) (lines_of rest) with
  | Some its => Some (map (fun kv => Set_ n (fst kv) (snd kv)) kvs ++ its)
  | None => None
  end.
Proof.
  induction kvs as [|kv kvs IH]; intros rest F; cbn [flat_map map app].
  - destruct (says (Some n) (lines_of rest)); reflexivity.
  - inversion F as [|? ? (K & V & L) F2]; subst. destruct kv as [k v]. unfold print_setting at 1. cbn [fst snd] in *.
    destruct K as (K1 & K2 & K3 & K4 & K5). destruct V as [V1 V2].
    replace (((k ++ 61 :: v ++ [10]) ++ flat_map print_setting kvs) ++ rest)
      with ((k ++ 61 :: v) ++ 10 :: (flat_map print_setting kvs ++ rest))
      by (rewrite <- !app_assoc; cbn [app]; rewrite <- !app_assoc; reflexivity).
    rewrite lines_line.
    2:{ intros I. apply in_app_or in I. destruct I as [I|[I|I]]; auto. discriminate. }
    cbn [says]. rewrite classify_setting by auto. rewrite IH by auto.
    destruct (says (Some n) (lines_of rest)); reflexivity.
Qed.

Lemma meaning_print : forall c cur, Forall (fun s => legal_name (fst s) /\ distinct (map fst (snd s)) /\ Forall legal_setting (snd s)) c ->
  says cur (lines_of (print_conf c)) = Some (conf_items c).
Proof.
  induction c as [|s c IH]; intros cur F; [reflexivity|].
  inversion F as [|? ? (N & D & S) F2]; subst. destruct s as [n kvs]. cbn [fst snd] in *. destruct N as (N1 & N2 & N3 & N4).
  cbn [print_conf flat_map]. unfold print_section at 1. cbn [fst snd].
  replace ((91 :: n ++ [93; 10] ++ flat_map print_setting kvs) ++ flat_map print_section c)
    with ((91 :: n ++ [93]) ++ 10 :: (flat_map print_setting kvs ++ print_conf c))
    by (cbn [app]; rewrite <- !app_assoc; cbn [app]; rewrite <- ?app_assoc; reflexivity).
  rewrite lines_line.
  2:{ intros [I|I]; [discriminate|]. apply in_app_or in I. destruct I as [I|[I|[]]]; auto. discriminate. }
  cbn [says]. rewrite classify_header by auto. rewrite says_settings by auto. rewrite IH by auto. reflexivity.
Qed.

Lemma find_config_none_distinct : forall k l, ~ In 0 k -> (forall c, In c l -> ~ In 0 (ce_key c) /\ ~ same (ce_key c) k) -> find_config k l = None.
Proof.
  intros k l P H. destruct (find_config k l) as [c|] eqn:E; auto. exfalso.
  assert (In c l /\ cmatch k c = true) as [I M].
  { clear H. induction l as [|x l IH]; [discriminate|]. rewrite find_config_cons in E. destruct (cmatch k x) eqn:M.
    - inversion E; subst. split; [left|]; auto.
    - destruct (IH E). split; [right|]; auto. }
  destruct (H c I) as [P2 NS]. apply cmatch_key in M. apply nkey_same in M; auto. apply NS. unfold same in *. congruence.
Qed.

Lemma apply_sets : forall n kvs l id cs, Forall legal_setting kvs -> distinct (map fst kvs) ->
  (forall s, In s cs -> se_id s <> id) ->
  (forall c kv, In c l -> In kv kvs -> ~ In 0 (ce_key c) /\ ~ same (ce_key c) (fst kv)) ->
  apply (map (fun kv => Set_ n (fst kv) (snd kv)) kvs) (mkSe id n l :: cs) =
  mkSe id n (rev (map (fun kv => mkCe (fst kv) (snd kv)) kvs) ++ l) :: cs.
Proof.
  induction kvs as [|[k v] kvs IH]; intros l id cs F D NI X; cbn [map apply rev app]; auto.
  inversion F as [|? ? (K & V & L) F2]; subst. cbn [fst snd] in *. cbn [map distinct] in D. destruct D as [D1 D2].
  destruct K as (K1 & K2 & K3 & K4 & K5).
  cbn [find_section se_name]. replace (memcaseeq n n) with true by (symmetry; apply memcaseeq_key; auto).
  cbn [se_id]. unfold upd_section. cbn [map se_id se_name se_confs]. rewrite Nat.eqb_refl.
  assert (M : map (fun s => if (se_id s =? id)%nat then mkSe (se_id s) (se_name s) (put_config k v (se_confs s)) else s) cs = cs).
  { rewrite <- (map_id cs) at 2. apply map_ext_in. intros s I. destruct (Nat.eqb_spec (se_id s) id); auto. exfalso. eapply NI; eauto. }
  rewrite M. unfold put_config. rewrite find_config_none_distinct; auto.
  2:{ intros c I. destruct (X c (k, v) I (or_introl eq_refl)). auto. }
  rewrite IH; auto.
  - cbn [map rev]. rewrite <- app_assoc. reflexivity.
  - intros c kv [<-|I] J.
    + cbn [ce_key]. split; auto. apply D1. apply in_map; auto.
    + apply X; [auto|right; auto].
Qed.

Lemma apply_conf : forall c cs, CI cs -> legal c ->
  (forall s t, In s cs -> In t c -> ~ In 0 (se_name s) /\ ~ same (se_name s) (fst t)) ->
  contents (apply (conf_items c) cs) = contents cs ++ c.
Proof.
  induction c as [|[n kvs] c IH]; intros cs C L X; cbn [conf_items flat_map apply].
  - rewrite app_nil_r. reflexivity.
  - destruct L as [D F]. inversion F as [|? ? (N & DK & S) F2]; subst. cbn [map distinct fst snd] in *. destruct D as [D1 D2].
    destruct N as (N1 & N2 & N3 & N4).
    assert (FS : find_section n cs = None).
    { destruct (find_section n cs) as [s|] eqn:E; auto. exfalso. apply find_section_in in E. destruct E as [I K].
      destruct (X s (n, kvs) I (or_introl eq_refl)) as [P Q]. apply nkey_same in K; auto. apply Q. unfold same in *. cbn. congruence. }
    cbn [app apply]. unfold enter. rewrite FS. cbn [snd]. rewrite apply_app.
    rewrite apply_sets; auto.
    + rewrite app_nil_r.
      assert (C' : CI (mkSe (length cs) n (rev (map (fun kv => mkCe (fst kv) (snd kv)) kvs)) :: cs)).
      { pose proof (enter_CI n cs C (good_name_short n N1)) as E. unfold enter in E. rewrite FS in E. cbn [snd] in E.
        constructor; [pose proof (ci_short _ E) as Q; inversion Q; subst; constructor; auto|exact (ci_ids _ E)|exact (ci_names _ E)]. }
      change (flat_map (fun s : list Z * list (list Z * list Z) => Sec (fst s) :: map (fun kv => Set_ (fst s) (fst kv) (snd kv)) (snd s)) c) with (conf_items c).
      rewrite IH; auto; [|split; auto|].
      * unfold contents. cbn [rev]. rewrite map_app. cbn [map se_name se_confs]. rewrite rev_involutive, map_map.
        rewrite <- app_assoc. cbn [app]. do 3 f_equal. rewrite <- (map_id kvs) at 2. apply map_ext. intros [? ?]; reflexivity.
      * intros s t [<-|I] J; [|apply X; [auto|right; auto]]. cbn [se_name]. split; auto. apply D1. apply in_map; auto.
    + intros s I E. pose proof (ci_ids cs C) as IDS. assert (In (se_id s) (map se_id cs)) by (apply in_map; auto).
      rewrite IDS in H. apply in_rev in H. apply in_seq in H. lia.
Qed.

(* Printing any configuration and reading it back yields exactly that configuration. *)
Theorem C62_roundtrip : forall c, legal c ->
  exists cs, parse_file (print_conf c) [] = Ok (0, cs) /\ contents cs = c.
Proof.
  intros c L. pose proof (parse_file_spec (print_conf c) [] CI_nil) as S. unfold meaning in S.
  rewrite meaning_print in S by apply L. destruct S as [S _]. eexists. split; [exact S|].
  rewrite apply_conf; [reflexivity|apply CI_nil|exact L|intros ? ? []].
Qed.
Print Assumptions C62_roundtrip.

Definition ex_conf : cfile :=
  [ (lit "General", [(lit "TcpServerPort", lit "5790"); (lit "ReportStats", lit "true")]);
    (lit "UdpEndpoint alpha", [(lit "Mode", lit "Server"); (lit "Address", lit "[::1]")]) ].
Ltac notin := let I := fresh in vm_compute; intros I; repeat (destruct I as [I|I]; [discriminate|]); try destruct I.
Ltac two := cbn; split; [|split; [intros y []|exact Logic.I]]; intros y [<-|[]]; vm_compute; discriminate.
Ltac setting := split; [repeat split; cbn [fst snd]; try reflexivity; first [solve [vm_compute; discriminate] | notin]|split; [split; [split; reflexivity|notin]|reflexivity]].
Example C62_nonvacuous : legal ex_conf.
Proof.
  split; [two|]. unfold ex_conf.
  constructor; [|constructor; [|constructor]].
  - split; [repeat split; cbn [fst]; try reflexivity; notin|]. split; [two|]. constructor; [setting|constructor; [setting|constructor]].
  - split; [repeat split; cbn [fst]; try reflexivity; notin|]. split; [two|]. constructor; [setting|constructor; [setting|constructor]].
Qed.

(* ==== C63: the last setting wins ==== *)

(* The value found for a key in a section after reading a list of files is the one given by the last line, over all
   files in order, that sets that key in that section (both up to case). *)
Theorem C63_last_wins : forall fsys files cs sec key,
  Forall plain_node (map fsys files) -> plain sec -> plain key ->
  parse_each fsys files [] = Ok (0, cs) ->
  exists itss, Forall2 (fun f its => exists t, fsys f = NData t /\ meaning t = Some its) files itss /\
    value_of cs sec key = in_force sec key (concat itss).
Proof.
  intros fsys files cs sec key PF PS PK P.
  destruct (parse_each_ok _ _ _ _ _ CI_nil P) as (itss & T & -> & C & _); [lia|].
  exists itss. split.
  - clear - T. induction T as [|f its fs itss (t & A & _ & B) T IH]; constructor; eauto.
  - assert (T' : Forall2 tells (map fsys files) itss).
    { clear - T. induction T; cbn [map]; constructor; auto. }
    destruct (tells_all _ _ T' PF []) as (A & B & H).
    rewrite apply_value; auto using CI_nil; [|constructor]. unfold value_of. cbn [find_section]. destruct (in_force sec key (concat itss)); auto.
Qed.
Print Assumptions C63_last_wins.

(* Reading a further file changes no other setting. *)
Theorem C63_others_unaffected : forall fsys files g cs cs' its sec key,
  Forall plain_node (map fsys (files ++ [g])) -> plain sec -> plain key ->
  parse_each fsys files [] = Ok (0, cs) -> parse_each fsys (files ++ [g]) [] = Ok (0, cs') ->
  (exists t, fsys g = NData t /\ meaning t = Some its) ->
  in_force sec key its = None -> value_of cs' sec key = value_of cs sec key.
Proof.
  intros fsys files g cs cs' its sec key PF PS PK P1 P2 (t & G & M) N.
  rewrite map_app in PF. pose proof PF as PF0. apply Forall_app in PF. destruct PF as [PA PB].
  destruct (C63_last_wins fsys files cs sec key PA PS PK P1) as (i1 & T1 & ->).
  destruct (C63_last_wins fsys (files ++ [g]) cs' sec key) as (i2 & T2 & ->); auto.
  { rewrite map_app. auto. }
  apply Forall2_app_inv_l in T2. destruct T2 as (a & b & T2 & T3 & ->).
  assert (a = i1).
  { clear - T1 T2. revert a T2. induction T1; intros a T2; inversion T2 as [|? ? ? ? (t' & A' & B') T4]; subst; auto. f_equal; auto.
    destruct H as (t & A & B). congruence. }
  subst a. inversion T3 as [|? i ? ? (t' & G' & M') T4]; subst. inversion T4; subst.
  assert (i = its) by congruence. subst i. rewrite concat_app. cbn [concat]. rewrite app_nil_r.
  clear - N. induction (concat i1) as [|j l IH]; cbn [app in_force].
  - auto.
  - rewrite IH. reflexivity.
Qed.
Print Assumptions C63_others_unaffected.

Definition nl : list Z := [10].
Definition t_main : list Z := lit "[General]" ++ nl ++ lit "TcpServerPort = 5790" ++ nl ++ lit "# a comment" ++ nl ++ lit "ReportStats=true" ++ nl.
Definition t_over : list Z := lit "[GENERAL]" ++ nl ++ lit "tcpserverport=14" ++ nl ++ lit "TcpServerPort=15" ++ nl.
Definition ex_fs (f : list Z) : node :=
  match f with [1] => NData t_main | [2] => NData t_over | _ => NErr 2 end.
Example C63_nonvacuous : exists cs, parse_each ex_fs [[1]; [2]] [] = Ok (0, cs) /\
  value_of cs (lit "general") (lit "TCPSERVERPORT") = Some (lit "15") /\
  value_of cs (lit "General") (lit "ReportStats") = Some (lit "true").
Proof. eexists. split; [vm_compute; reflexivity|]. split; vm_compute; reflexivity. Qed.

(* ==== C64: stored keys and values are not empty ==== *)

Theorem C64_nonempty : forall fsys files cs, parse_each fsys files [] = Ok (0, cs) ->
  forall s c, In s cs -> In c (se_confs s) -> ce_key c <> [] /\ ce_val c <> [].
Proof.
  intros fsys files cs P. destruct (parse_each_ok _ _ _ _ _ CI_nil P) as (itss & T & -> & C & _); [lia|].
  apply apply_full; [intros ? ? []|]. intros n k v I. apply in_concat in I. destruct I as (its & I1 & I2).
  clear - T I1 I2. induction T; [destruct I1|]; destruct I1 as [<-|I1]; auto.
  destruct H as (t & _ & _ & M). eapply says_nonempty; [exact M|exact I2].
Qed.
Print Assumptions C64_nonempty.

(* So no assertion of an option parser fails, whatever the texts: extracting any table of the program's parsers from
   any section is defined. *)
Definition defined_on_values {D} (table : list (opt D)) : Prop :=
  forall t v d, In t table -> v <> [] -> exists r d', o_parse t v d = Ok (r, d').
Theorem C64_no_assertion : forall D (table : list (opt D)) fsys files cs s d, defined_on_values table ->
  parse_each fsys files [] = Ok (0, cs) -> In s cs -> exists r d', extract_section s table d = Ok (r, d').
Proof.
  intros D table fsys files cs s d DV P I. pose proof (C64_nonempty _ _ _ P s) as NE.
  assert (G : forall table0, (forall t, In t table0 -> In t table) -> forall d, exists r d', extract_section s table0 d = Ok (r, d')).
  { induction table0 as [|t r IH]; intros SUB d0; cbn [extract_section]; [eauto|].
    destruct (find_config (o_key t) (se_confs s)) as [c|] eqn:F.
    - assert (IC : In c (se_confs s)).
      { clear - F. induction (se_confs s) as [|x l IHl]; [discriminate|]. rewrite find_config_cons in F. destruct (cmatch (o_key t) x); [inversion F; left; auto|right; auto]. }
      destruct (NE c I IC) as [_ V]. destruct (DV t (ce_val c) d0) as (ret & d1 & ->); auto; [apply SUB; left; auto|]. cbn [bind].
      destruct (ret <? 0); [eauto|]. apply IH. intros; apply SUB; right; auto.
    - destruct (o_req t); [eauto|]. apply IH. intros; apply SUB; right; auto. }
  apply G; auto.
Qed.
Print Assumptions C64_no_assertion.

(* all tables of the program qualify *)
Ltac parser_defined := unfold parse_u32s, parse_u8s, parse_str, parse_bool, parse_udp_mode, parse_dialect, parse_log_mode, parse_fcu_id,
  parse_log_level, parse_ul, parse_i, parse_num, asserted.
Lemma def_num : forall D f (set : D -> Z -> D) v d, v <> [] -> exists r d', parse_num f set v d = Ok (r, d').
Proof. intros. unfold parse_num, asserted. destruct v; [congruence|]. destruct (f (cstr (z :: v))). eauto. Qed.
Lemma def_bool : forall D (set : D -> bool -> D) v d, v <> [] -> exists r d', parse_bool set v d = Ok (r, d').
Proof.
  intros. unfold parse_bool. unfold asserted at 1. destruct v; [congruence|].
  destruct (memcaseeq (lit "true") (z :: v)); [eauto|]. destruct (memcaseeq (lit "false") (z :: v)); [eauto|]. apply def_num. congruence.
Qed.
Theorem C64_tables : defined_on_values uart_table /\ defined_on_values udp_table /\ defined_on_values tcp_table /\
  defined_on_values log_table /\ defined_on_values global_table.
Proof.
  repeat split; intros t v d I V; cbn in I;
  repeat (destruct I as [<-|I]; [cbn [o_parse row];
    first [ apply def_num; exact V | apply def_bool; exact V
          | unfold parse_fcu_id, parse_i; destruct (def_num _ safe_atoi s_fcu v d V) as (r0 & d0 & ->); cbn [bind];
            destruct (negb (r0 =? 0)); [eauto|]; destruct ((255 <? lo_fcu d0) || (lo_fcu d0 <=? 0)); eauto
          | unfold parse_u32s, parse_u8s, parse_str, parse_udp_mode, parse_dialect, parse_log_mode, parse_log_level, asserted;
            destruct v as [|z v]; [congruence|];
            repeat match goal with |- context [if ?b then _ else _] => destruct b end;
            try match goal with |- context [match ?x with Some _ => _ | None => _ end] => destruct x end; eauto ]|]); destruct I.
Qed.
Print Assumptions C64_tables.
Example C64_nonvacuous : exists cs s c, parse_each ex_fs [[1]; [2]] [] = Ok (0, cs) /\ In s cs /\ In c (se_confs s).
Proof. eexists _, _, _. split; [vm_compute; reflexivity|]. split; [left; reflexivity|left; reflexivity]. Qed.

(* ==== C65: unterminated last line ==== *)

Definition t_cut : list Z := lit "[General]" ++ nl ++ lit "ReportStats=true".
(* The last line of a file is ignored if no newline follows it. *)
Theorem C65_last_line_refuted : exists text cs cs',
  parse_file text [] = Ok (0, cs) /\ value_of cs (lit "General") (lit "ReportStats") = None /\
  parse_file (text ++ [10]) [] = Ok (0, cs') /\ value_of cs' (lit "General") (lit "ReportStats") = Some (lit "true").
Proof. exists t_cut. eexists _, _. repeat split; vm_compute; reflexivity. Qed.
Print Assumptions C65_last_line_refuted.

(* All lines that end with a newline are honoured, in order: the file is accepted if they make sense, and then each
   setting is in force unless a later one overrides it. *)
Theorem C65_terminated_partial : forall ls rest its,
  Forall (fun l => ~ In 10 l) ls -> ~ In 10 rest -> plain (concat ls) -> plain rest ->
  says None ls = Some its ->
  exists cs, parse_file (flat_map (fun l => l ++ [10]) ls ++ rest) [] = Ok (0, cs) /\
    forall sec key, plain sec -> plain key -> value_of cs sec key = in_force sec key its.
Proof.
  intros ls rest its F NR P PR S.
  assert (LO : lines_of (flat_map (fun l => l ++ [10]) ls ++ rest) = ls).
  { clear S P. induction F; cbn [flat_map app].
    - rewrite lines_cut. destruct (cut 10 rest) as [[a b]|] eqn:E; auto. apply cut_some in E. destruct E as [-> _].
      exfalso. apply NR. apply in_or_app. right. left. auto.
    - rewrite <- !app_assoc. cbn [app]. rewrite lines_line by auto. f_equal. auto. }
  pose proof (parse_file_spec (flat_map (fun l => l ++ [10]) ls ++ rest) [] CI_nil) as PS.
  unfold meaning in PS. rewrite LO, S in PS. destruct PS as [PS C]. eexists. split; [exact PS|].
  intros sec key P1 P2.
  assert (PL : Forall plain ls).
  { rewrite Forall_forall. intros l I J. apply P. apply in_concat. eauto. }
  destruct (says_plain ls None its S PL) as (A & B & _); [intros; discriminate|].
  rewrite apply_value; auto using CI_nil; [|constructor|].
  - unfold value_of. cbn [find_section]. destruct (in_force sec key its); auto.
  - eapply says_homed; [exact S|]. intros; discriminate.
Qed.
Print Assumptions C65_terminated_partial.
Example C65_nonvacuous : says None [lit "[General]"; lit "; note"; lit " ReportStats = true "] =
  Some [Sec (lit "General"); Set_ (lit "General") (lit "ReportStats") (lit "true")].
Proof. vm_compute. reflexivity. Qed.

(* An empty file is refused (mmap of length zero), although it contains nothing wrong. *)
Theorem C65_empty_file_refuted : meaning [] = Some [] /\ exists e, parse (NData []) [] = Ok (e, []) /\ e < 0.
Proof. split; [reflexivity|]. exists (-22). split; [reflexivity|lia]. Qed.
Print Assumptions C65_empty_file_refuted.

(* ==== C66: enumeration ==== *)

Lemma fnstar_starts : forall prefix name, fnstar prefix name = true <-> exists p r, name = p ++ r /\ same prefix p.
Proof.
  induction prefix as [|x prefix IH]; intros name; cbn [fnstar].
  - split; auto. intros _. exists [], name. split; auto. reflexivity.
  - destruct name as [|y name].
    + split; [discriminate|]. intros (p & r & E & S). destruct p; [|discriminate]. unfold same in S. cbn in S. discriminate.
    + rewrite Bool.andb_true_iff, Z.eqb_eq, IH. split.
      * intros [L (p & r & -> & S)]. exists (y :: p), r. split; auto. unfold same in *. cbn [map]. f_equal; auto.
      * intros (p & r & E & S). destruct p as [|z p]; [unfold same in S; cbn in S; discriminate|]. inversion E; subst.
        unfold same in S. cbn [map] in S. inversion S. split; auto. exists p, r. auto.
Qed.

(* Visiting the sections of a kind delivers every section of that kind once and no other, if all names are shorter
   than 100 characters. *)
Theorem C66_enumeration_partial : forall prefix cs,
  Forall (fun s => (length (se_name s) < 100)%nat) cs ->
  exists l, visit (S (length cs)) prefix cs = Ok l /\
    l = filter (pick prefix) cs /\
    forall s, plain (se_name s) -> (In s l <-> In s cs /\ exists p r, se_name s = p ++ r /\ same prefix p).
Proof.
  intros prefix cs F. exists (filter (pick prefix) cs). split; [apply visit_spec; auto|]. split; [reflexivity|].
  intros s P. rewrite filter_In. unfold pick. rewrite cstr_id by exact P. rewrite fnstar_starts. tauto.
Qed.
Print Assumptions C66_enumeration_partial.
Example C66_nonvacuous : exists cs, parse_file (print_conf ex_conf) [] = Ok (0, cs) /\
  exists s, visit (S (length cs)) udp_prefix cs = Ok [s] /\ se_name s = lit "UdpEndpoint alpha".
Proof. eexists. split; [vm_compute; reflexivity|]. eexists. split; vm_compute; reflexivity. Qed.

(* A section name of exactly 100 characters is accepted by the reader, and enumerating the sections of any kind then
   writes behind the buffer. *)
Definition t_long : list Z := 91 :: repeat 120 100 ++ [93; 10].
Theorem C66_buffer_refuted : exists text cs,
  parse_file text [] = Ok (0, cs) /\ visit (S (length cs)) uart_prefix cs = UB /\ parse_confs cs g_default = UB.
Proof. exists t_long. eexists. split; [vm_compute; reflexivity|]. split; vm_compute; reflexivity. Qed.
Print Assumptions C66_buffer_refuted.

(* ==== C67: the configuration directory ==== *)

(* With at most 128 regular files, exactly the regular files are read, after the main file, in ascending order of their
   paths; everything else in the directory is ignored. *)
Theorem C67_directory_partial : forall v file dir ents g fs,
  fv_dir v dir = Some ents ->
  Forall (fun e => Z.of_nat (length (path_of dir e)) < 4096) ents ->
  (length (filter de_reg ents) <= 128)%nat ->
  Permutation fs (map (path_of dir) (filter de_reg ents)) -> StronglySorted (fun a b => str_le a b = true) fs ->
  parse_conf_files v file dir g =
    let* (ret, cs) := parse (fv_node v file) [] in
    if (ret <? 0) && negb (ret =? - ENOENT) then Ok (ret, g)
    else let* (ret, cs) := parse_each (fv_node v) fs cs in
         if ret <? 0 then Ok (ret, g) else parse_confs cs g.
Proof.
  intros v file dir ents g fs D L N P S. unfold parse_conf_files. rewrite D.
  destruct (parse (fv_node v file) []) as [[r cs]| |]; cbn [bind]; auto. destruct ((r <? 0) && negb (r =? - ENOENT)); auto.
  rewrite collect_spec by (auto; cbn [length]; lia). cbn [bind app].
  replace (sort_str (map (path_of dir) (filter de_reg ents))) with fs; auto.
  apply sorted_unique; auto; [apply sort_sorted|]. eapply perm_trans; [exact P|]. apply Permutation_sym, sort_perm.
Qed.
Print Assumptions C67_directory_partial.

(* Read means: the file at the given path if there is one, then those files in that order; whatever the program
   afterwards looks up is what the last line setting it said.  The errors of the reader are never ENOENT. *)
Lemma parse_lines_enoent : forall fuel m addr len cs cur ret r cs', ret = 0 ->
  parse_lines fuel m addr len cs cur ret = Ok (r, cs') -> r <> - ENOENT.
Proof.
  induction fuel; intros m addr len cs cur ret r cs' Z H; cbn [parse_lines] in H; [discriminate|]. unfold ENOENT, EINVAL in *.
  destruct (memchr m addr len 10) as [[e|]| |]; cbn [bind] in H; try discriminate. 2:{ inversion H; lia. }
  destruct (INT_MAX <? Z.of_nat (e - addr)). { inversion H; lia. }
  destruct (trim m addr (e - addr)) as [[a n]| |]; cbn [bind] in H; try discriminate.
  destruct ((n =? 0)%nat); [eapply IHfuel; eauto|]. destruct (rd m a) as [c| |]; cbn [bind] in H; try discriminate.
  destruct ((c =? 59) || (c =? 35)); [eapply IHfuel; eauto|]. destruct (c =? 91).
  - destruct (add_section m a n cs) as [[[id|] cs1]| |]; cbn [bind] in H; try discriminate; [eapply IHfuel; eauto|]. inversion H; lia.
  - destruct cur as [id|]; [|inversion H; lia].
    destruct (add_config m id a n cs) as [[r1 cs1]| |] eqn:A; cbn [bind] in H; try discriminate.
    assert (R : r1 = 0 \/ r1 = -22).
    { clear - A. unfold add_config, EINVAL in A. destruct (memchr m a n 61) as [[e|]| |]; cbn [bind] in A; try discriminate.
      2:{ inversion A; auto. } destruct (e =? a)%nat. { inversion A; auto. } destruct (e =? a + n - 1)%nat. { inversion A; auto. }
      destruct (trim m a (e - a)) as [[k kn]| |]; cbn [bind] in A; try discriminate.
      destruct (trim m (e + 1) (n - (e - a) - 1)) as [[w wn]| |]; cbn [bind] in A; try discriminate.
      destruct (slice m k kn); cbn [bind] in A; try discriminate. destruct (slice m w wn); cbn [bind] in A; try discriminate. inversion A; auto. }
    destruct (Z.ltb_spec r1 0); [inversion H; lia|]. eapply IHfuel; [|exact H]. lia.
Qed.
Theorem C67_read_partial : forall v file dir ents g fs r g',
  fv_dir v dir = Some ents ->
  Forall (fun e => Z.of_nat (length (path_of dir e)) < 4096) ents ->
  (length (filter de_reg ents) <= 128)%nat ->
  Permutation fs (map (path_of dir) (filter de_reg ents)) -> StronglySorted (fun a b => str_le a b = true) fs ->
  (forall f, plain_node (fv_node v f)) ->
  parse_conf_files v file dir g = Ok (r, g') -> 0 <= r ->
  exists files itss cs,
    (fv_node v file = NErr 2 /\ files = fs \/ files = file :: fs) /\
    Forall2 (fun f its => exists t, fv_node v f = NData t /\ meaning t = Some its) files itss /\
    (forall sec key, plain sec -> plain key -> value_of cs sec key = in_force sec key (concat itss)) /\
    parse_confs cs g = Ok (r, g').
Proof.
  intros v file dir ents g fs r g' D L N P S PN H R. rewrite (C67_directory_partial _ _ _ _ _ _ D L N P S) in H.
  destruct (parse (fv_node v file) []) as [[r0 cs0]| |] eqn:P0; cbn [bind] in H; try discriminate.
  assert (V : forall files itss cs, Forall2 (fun f its => tells (fv_node v f) its) files itss -> cs = apply (concat itss) [] -> CI cs ->
    Forall2 (fun f its => exists t, fv_node v f = NData t /\ meaning t = Some its) files itss /\
    (forall sec key, plain sec -> plain key -> value_of cs sec key = in_force sec key (concat itss))).
  { clear - PN. intros files itss cs T -> C. split. { clear - T. induction T as [|f its fs itss (t & A & _ & B) T IH]; constructor; eauto. }
    intros sec key PS PK.
    assert (T' : Forall2 tells (map (fv_node v) files) itss) by (clear - T; induction T; cbn [map]; constructor; auto).
    assert (PF : Forall plain_node (map (fv_node v) files)) by (apply Forall_forall; intros x I; apply in_map_iff in I; destruct I as (f & <- & _); auto).
    destruct (tells_all _ _ T' PF []) as (A & B & HH).
    rewrite apply_value; auto using CI_nil; [|constructor]. unfold value_of. cbn [find_section]. destruct (in_force sec key (concat itss)); auto. }
  destruct (Z.ltb_spec r0 0) as [NEG|POS]; cbn [andb] in H.
  - destruct (Z.eqb_spec r0 (- ENOENT)) as [E|E]; cbn [negb] in H. 2:{ inversion H; subst. lia. }
    assert (NF : fv_node v file = NErr 2 /\ cs0 = []).
    { destruct (fv_node v file) as [e|[|b data]]; cbn [parse] in P0.
      - inversion P0; subst. unfold ENOENT in *. assert (e = 2%positive) by lia. subst; auto.
      - inversion P0; subst. unfold EINVAL, ENOENT in *. lia.
      - exfalso. eapply parse_lines_enoent; [|exact P0|exact E]. reflexivity. }
    destruct NF as [NF ->]. destruct (parse_each (fv_node v) fs []) as [[r1 cs]| |] eqn:P1; cbn [bind] in H; try discriminate.
    destruct (Z.ltb_spec r1 0). { inversion H; subst. lia. }
    destruct (parse_each_ok _ _ _ _ _ CI_nil P1) as (itss & T & E1 & C & _); [lia|].
    destruct (V _ _ _ T E1 C) as [V1 V2]. exists fs, itss, cs. auto.
  - destruct (parse_ok _ _ _ _ CI_nil P0 POS) as (i0 & T0 & -> & C0 & ->).
    destruct (parse_each (fv_node v) fs (apply i0 [])) as [[r1 cs]| |] eqn:P1; cbn [bind] in H; try discriminate.
    destruct (Z.ltb_spec r1 0). { inversion H; subst. lia. }
    destruct (parse_each_ok _ _ _ _ _ C0 P1) as (itss & T & E1 & C & _); [lia|].
    destruct (V (file :: fs) (i0 :: itss) cs) as [V1 V2]; auto.
    { cbn [concat]. rewrite apply_app. auto. }
    exists (file :: fs), (i0 :: itss), cs. auto.
Qed.
Print Assumptions C67_read_partial.

(* str_le is the order of strings by character codes *)
Lemma str_le_lex : forall a b, str_le a b = true <->
  (exists r, b = a ++ r) \/ exists p x y a' b', a = p ++ x :: a' /\ b = p ++ y :: b' /\ x < y.
Proof.
  induction a as [|x a IH]; intros b; cbn [str_le].
  - split; auto. intros _. left. exists b. auto.
  - destruct b as [|y b].
    + split; [discriminate|]. intros [[r E]|(p & u & w & a' & b' & E1 & E2 & L)]; [discriminate|]. destruct p; discriminate.
    + destruct (Z.ltb_spec x y) as [H|H]; [|destruct (Z.ltb_spec y x) as [H2|H2]].
      * split; auto. intros _. right. exists [], x, y, a, b. auto.
      * split; [discriminate|]. intros [[r E]|(p & u & w & a' & b' & E1 & E2 & L)].
        -- inversion E; lia.
        -- destruct p; inversion E1; inversion E2; subst; lia.
      * assert (x = y) by lia. subst y. rewrite IH. split.
        -- intros [[r ->]|(p & u & w & a' & b' & -> & -> & L)]; [left; exists r; auto|]. right. exists (x :: p), u, w, a', b'. auto.
        -- intros [[r E]|(p & u & w & a' & b' & E1 & E2 & L)].
           ++ inversion E. left; eauto.
           ++ destruct p; inversion E1; inversion E2; subst; [lia|]. right. exists p, u, w, a', b'. auto.
Qed.

Definition ex_view : fsview := mkFv (fun f => if list_eq_dec Z.eq_dec f (lit "d/b") then NData t_over else NData t_main)
  (fun _ => Some [mkDe (lit "b") true; mkDe (lit "..") false; mkDe (lit "a") true]).
Example C67_nonvacuous :
  parse_conf_files ex_view (lit "main") (lit "d") g_default =
  parse_conf_files (mkFv (fv_node ex_view) (fun _ => Some [mkDe (lit "a") true; mkDe (lit "b") true])) (lit "main") (lit "d") g_default
  /\ exists g, parse_conf_files ex_view (lit "main") (lit "d") g_default = Ok (0, g) /\ g_tcp_port g = 15.
Proof. split; [vm_compute; reflexivity|]. eexists. split; [vm_compute; reflexivity|vm_compute; reflexivity]. Qed.
Example C67_read_nonvacuous : (forall f, plain_node (fv_node ex_view f)) /\
  exists g, parse_conf_files ex_view (lit "main") (lit "d") g_default = Ok (0, g).
Proof.
  split. { intros f. unfold ex_view, fv_node. destruct (list_eq_dec Z.eq_dec f (lit "d/b")); notin. }
  eexists. vm_compute. reflexivity.
Qed.

(* The 129th regular file makes the program write behind its array. *)
Theorem C67_too_many_refuted : forall v file dir ents g,
  fv_dir v dir = Some ents -> fv_node v file = NErr 2 ->
  Forall (fun e => Z.of_nat (length (path_of dir e)) < 4096) ents ->
  (128 < length (filter de_reg ents))%nat ->
  parse_conf_files v file dir g = UB.
Proof.
  intros v file dir ents g D E L N. unfold parse_conf_files. rewrite D, E. cbn [parse bind].
  change ((- Z.pos 2 <? 0) && negb (- Z.pos 2 =? - ENOENT)) with false. cbv iota.
  assert (K : forall ents files, Forall (fun e => Z.of_nat (length (path_of dir e)) < 4096) ents ->
    (length files <= 128)%nat -> (128 < length files + length (filter de_reg ents))%nat -> collect dir ents files = UB).
  { clear. induction ents as [|e ents IH]; intros files L M N; cbn [collect filter length] in *; [lia|].
    inversion L; subst. fold (path_of dir e). unfold PATH_MAX. destruct (Z.leb_spec 4096 (Z.of_nat (length (path_of dir e)))); [lia|].
    destruct (de_reg e); cbn [negb length] in *; [|apply IH; auto].
    unfold MAX_FILES. destruct (Nat.ltb_spec (length files) 128); [|reflexivity].
    rewrite app_length. cbn [length]. destruct (Nat.ltb_spec 128 (length files + 1)); [lia|].
    apply IH; auto; rewrite app_length; cbn [length]; lia. }
  rewrite (K ents []); auto; cbn [length]; lia.
Qed.
Print Assumptions C67_too_many_refuted.
Example C67_too_many_nonvacuous : exists v, fv_dir v (lit "d") = Some (repeat (mkDe (lit "x") true) 129) /\ fv_node v (lit "main") = NErr 2.
Proof. exists (mkFv (fun _ => NErr 2) (fun _ => Some (repeat (mkDe (lit "x") true) 129))). split; reflexivity. Qed.
