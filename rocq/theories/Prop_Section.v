(* C68 and C77: extraction of options, and the endpoints a configuration describes. *)
From Coq Require Import String.
From Verif Require Import Base Names Num SpecNum NumProofs Conf SpecConf ConfProofs ConfRun ConfLook Accept LogFile RouterSetup Opts Regex Main ConfFiles SpecSection Prop_Opts Extract Prop_Conf SectionProofs.
Local Open Scope string_scope.
Local Open Scope list_scope.
Local Open Scope Z_scope.

(* ==== C68: when extraction fails ==== *)

(* [good] describes the well-formed values of a row: exactly those are taken *)
Definition judged {D} (t : opt D) (good : list Z -> Prop) : Prop :=
  forall v, v <> [] -> plain v ->
    (good v /\ forall d, exists d', o_parse t v d = Ok (0, d')) \/ (~ good v /\ forall d, exists e d', o_parse t v d = Ok (e, d') /\ e < 0).
(* what is wrong with a section: a required key is missing or a value is malformed *)
Definition wrong {D} (lk : lookup_fn) (tg : opt D * (list Z -> Prop)) : Prop :=
  match lk (o_key (fst tg)) with
  | None => o_req (fst tg) = true
  | Some v => ~ snd tg v
  end.

(* For every table: extraction fails iff something is wrong. *)
Theorem C68_fails : forall D (table : list (opt D)) goods s d, Forall2 judged table goods -> sound s ->
  (exists e d', extract_section s table d = Ok (e, d') /\ e < 0) /\ Exists (wrong (lookup s)) (combine table goods) \/
  (exists d', extract_section s table d = Ok (0, d')) /\ ~ Exists (wrong (lookup s)) (combine table goods).
Proof.
  intros D table goods s d J S. revert d. induction J as [|t good table goods H J IH]; intros d; cbn [combine].
  - right. split; [exists d; reflexivity|]. intros E. inversion E.
  - rewrite extract_cons. destruct (lookup s (o_key t)) as [v|] eqn:L.
    + destruct (lookup_sound s _ v S L) as [NE P]. destruct (H v NE P) as [[G Q]|[G Q]].
      * destruct (Q d) as [d1 ->]. cbn [bind]. change (0 <? 0) with false. cbv iota. destruct (IH d1) as [[A B]|[A B]].
        -- left. split; auto.
        -- right. split; auto. intros E. inversion E as [? ? W|? ? W]; subst; auto. unfold wrong in W. cbn [fst snd] in W. rewrite L in W. auto.
      * destruct (Q d) as (e & d1 & -> & N). cbn [bind]. destruct (Z.ltb_spec e 0); [|lia]. left. split; [eauto|].
        left. unfold wrong. cbn [fst snd]. rewrite L. auto.
    + destruct (o_req t) eqn:R.
      * left. split; [exists (- ENOENT), d; split; [reflexivity|unfold ENOENT; lia]|]. left. unfold wrong. cbn [fst]. rewrite L. auto.
      * destruct (IH d) as [[A B]|[A B]]; [left|right]; split; auto. intros E. inversion E as [? ? W|? ? W]; subst; auto.
        unfold wrong in W. cbn [fst snd] in W. rewrite L in W. congruence.
Qed.
Print Assumptions C68_fails.

(* The program's tables: the well-formed values of each row. *)
Definition any (v : list Z) : Prop := True.
Definition a_nat (v : list Z) : Prop := exists n, reads_nat v n.
Definition an_int (v : list Z) : Prop := exists n, reads_int v n.
Definition a_bool (v : list Z) : Prop := exists b, reads_bool v b.
Definition filter_goods : list (list Z -> Prop) := repeat any 12.
Definition uart_goods : list (list Z -> Prop) := [any; any; a_bool] ++ filter_goods ++ [any].
Definition udp_goods : list (list Z -> Prop) := [any; (fun v => exists m, reads_udp_mode v m); a_nat; any] ++ filter_goods ++ [any].
Definition tcp_goods : list (list Z -> Prop) := [any; a_nat; an_int] ++ filter_goods ++ [any].
Definition log_goods : list (list Z -> Prop) :=
  [any; (fun v => exists m, reads_log_mode v m); (fun v => exists m, reads_dialect v m); a_nat; a_nat; (fun v => exists n, reads_int v n /\ 1 <= n <= 255); a_bool].
Definition global_goods : list (list Z -> Prop) := [a_nat; a_bool; (fun v => exists m, reads_level v m); a_nat; a_nat].

Lemma judged_reader : forall D A k req (p : parser D) (reads : list Z -> A -> Prop) set, reader p reads set -> judged (row k req p) (fun v => exists x, reads v x).
Proof.
  intros D A k req p reads set R v NE P. destruct (R v NE P) as [(x & X & Q)|(N & Q)]; [left|right]; cbn [row o_parse].
  - split; [eauto|]. intros d. rewrite Q. eauto.
  - split; [intros [x X]; apply (N x X)|auto].
Qed.
Lemma judged_any : forall D k req (p : parser D), (forall v d, v <> [] -> exists d', p v d = Ok (0, d')) -> judged (row k req p) any.
Proof. intros D k req p H v NE P. left. split; [exact Logic.I|]. intros d. cbn [row o_parse]. auto. Qed.
Lemma any_words : forall D (get : D -> list Z) set v d, v <> [] -> exists d', parse_u32s get set v d = Ok (0, d').
Proof. intros. unfold parse_u32s, asserted. destruct v; [congruence|eauto]. Qed.
Lemma any_octets : forall D (get : D -> list Z) set v d, v <> [] -> exists d', parse_u8s get set v d = Ok (0, d').
Proof. intros. unfold parse_u8s, asserted. destruct v; [congruence|eauto]. Qed.
Lemma any_str : forall D (set : D -> list Z -> D) v d, v <> [] -> exists d', parse_str set v d = Ok (0, d').
Proof. intros. unfold parse_str, asserted. destruct v; [congruence|eauto]. Qed.
Ltac judge := repeat (constructor; [first
  [ apply judged_any; intros; first [apply any_words|apply any_octets|apply any_str]; assumption
  | eapply judged_reader; first [apply r_nat|apply r_int|apply r_bool|apply r_udp_mode|apply r_log_mode|apply r_dialect|apply r_level|apply r_fcu] ]|]); try constructor.
Theorem C68_tables : Forall2 judged uart_table uart_goods /\ Forall2 judged udp_table udp_goods /\ Forall2 judged tcp_table tcp_goods /\
  Forall2 judged log_table log_goods /\ Forall2 judged global_table global_goods.
Proof. split; [|split; [|split; [|split]]]; unfold uart_table, udp_table, tcp_table, log_table, global_table, filter_rows; cbn [app]; judge. Qed.
Print Assumptions C68_tables.

(* A table whose section is missing altogether (no section of that name in any spelling): refused iff one of its keys is required. *)
Theorem C68_missing_section : forall D (table : list (opt D)) cs name d, plain_confs cs -> plain name -> (forall s, In s cs -> ~ same (se_name s) name) ->
  exists e, extract_options cs name table d = Ok (e, d) /\ e <= 0 /\ (e < 0 <-> exists t, In t table /\ o_req t = true).
Proof.
  intros D table cs name d PC PN NO. unfold extract_options. destruct (find_section name cs) as [s|] eqn:F.
  - exfalso. apply find_section_in in F. destruct F as [I K]. apply (NO s I). apply nkey_same in K; auto.
    + unfold same in *. auto.
    + unfold plain_confs in PC. rewrite Forall_forall in PC. exact (PC s I).
  - eexists. split; [reflexivity|]. destruct (existsb o_req table) eqn:E.
    + split; [unfold ENOENT; lia|]. split; [intros _; apply existsb_exists in E; exact E|unfold ENOENT; lia].
    + split; [lia|]. split; [lia|]. intros T. apply existsb_exists in T. congruence.
Qed.
Print Assumptions C68_missing_section.

(* Spelled out for a UDP section: it is refused iff it has no address, no or an unknown mode, or a malformed port. *)
Theorem C68_udp_fails : forall s d, sound s ->
  (exists e d', extract_section s udp_table d = Ok (e, d') /\ e < 0) <->
  (lookup s (lit "address") = None \/ lookup s (lit "mode") = None \/
   (exists v, lookup s (lit "mode") = Some v /\ forall m, ~ reads_udp_mode v m) \/
   (exists v, lookup s (lit "port") = Some v /\ forall n, ~ reads_nat v n)).
Proof.
  intros s d S. destruct C68_tables as (_ & T & _). destruct (C68_fails _ _ _ s d T S) as [[A B]|[A B]].
  - split; [intros _|auto]. clear A. unfold udp_table, udp_goods, filter_rows, filter_goods in B. cbn [app repeat combine] in B.
    repeat (apply Exists_cons in B; destruct B as [B|B];
      [unfold wrong in B; cbn [fst snd row o_key o_req] in B;
       match type of B with context [match lookup s ?k with _ => _ end] => destruct (lookup s k) as [v|] eqn:L end;
       try discriminate; try (exfalso; apply B; exact Logic.I); auto|]).
    + right. right. left. exists v. split; auto. intros m M. apply B. eauto.
    + right. right. right. exists v. split; auto. intros m M. apply B. exists m. auto.
    + inversion B.
  - split.
    + intros (e & d' & E & N). destruct A as [d1 A]. rewrite A in E. inversion E. lia.
    + intros H. exfalso. apply B. unfold udp_table, udp_goods, filter_rows, filter_goods. cbn [app repeat combine].
      destruct H as [H|[H|[(v & H & N)|(v & H & N)]]].
      * left. unfold wrong. cbn [fst row o_key o_req]. rewrite H. reflexivity.
      * right. left. unfold wrong. cbn [fst row o_key o_req]. rewrite H. reflexivity.
      * right. left. unfold wrong. cbn [fst snd row o_key o_req]. rewrite H. intros [m M]. eapply N; eauto.
      * right. right. left. unfold wrong. cbn [fst snd row o_key o_req]. rewrite H. intros [m M]. eapply N; eauto.
Qed.
Print Assumptions C68_udp_fails.

(* On success every field has the value of its key, or its default. *)
Theorem C68_fields : forall s, sound s ->
  (forall name u auto, extract_section s udp_table (mkUd name [] 18446744073709551615 UUndefined no_filters []) = Ok (0, u) ->
     udp_says name (lookup s) auto
       (match ud_mode u with
        | UClient => if ud_port u =? 18446744073709551615 then mkUd (ud_name u) (ud_address u) auto (ud_mode u) (ud_filters u) (ud_group u) else u
        | _ => u
        end)) /\
  (forall name u, extract_section s tcp_table (mkTc name [] 18446744073709551615 5 no_filters []) = Ok (0, u) -> tcp_says name (lookup s) u) /\
  (forall name u, extract_section s uart_table (mkUa name [] [] false no_filters []) = Ok (0, u) ->
     uart_says name (lookup s) (if is_empty (ua_bauds u) then mkUa (ua_name u) (ua_device u) [115200] (ua_flow u) (ua_filters u) (ua_group u) else u)) /\
  (forall l l', extract_section s log_table l = Ok (0, l') -> log_says (lookup s) l l') /\
  (forall g g', extract_section s global_table g = Ok (0, g') -> global_says (lookup s) g g').
Proof.
  intros s S. split; [|split; [|split; [|split]]].
  - intros. apply udp_extract; auto.
  - intros. apply tcp_extract; auto.
  - intros. apply uart_extract; auto.
  - intros. apply log_extract; auto.
  - intros. eapply global_extract; eauto.
Qed.
Print Assumptions C68_fields.
Definition ex_sect : sect := mkSe 0 (lit "UdpEndpoint a") [mkCe (lit "Port") (lit "14560"); mkCe (lit "MODE") (lit "Server"); mkCe (lit "Address") (lit "0.0.0.0")].
Example C68_nonvacuous : sound ex_sect /\ exists u, extract_section ex_sect udp_table (mkUd [] [] 18446744073709551615 UUndefined no_filters []) = Ok (0, u) /\ ud_port u = 14560.
Proof.
  split.
  - intros c I. cbn [ex_sect se_confs In] in I. repeat (destruct I as [<-|I]; [split; [discriminate|cbn [ce_val]; lit_plain]|]). destruct I.
  - eexists. split; vm_compute; reflexivity.
Qed.
Example C68_missing_nonvacuous : exists d,
  extract_options [ex_sect] (lit "udpendpoint b") udp_table d = Ok (- ENOENT, d) /\ exists g, extract_options [ex_sect] (lit "general") global_table g = Ok (0, g).
Proof. exists (mkUd [] [] 18446744073709551615 UUndefined no_filters []). split; [vm_compute; reflexivity|]. exists g_default. vm_compute. reflexivity. Qed.

(* ==== C77: the endpoints of a configuration ==== *)

Ltac rw_keys H := repeat (rewrite <- H by lit_plain).
Lemma filters_ext : forall lk lk' l, (forall k, plain k -> lk k = lk' k) -> section_filters lk l = section_filters lk' l.
Proof. intros lk lk' l H. unfold section_filters. rw_keys H. reflexivity. Qed.
Lemma uart_ext : forall n lk lk' u, (forall k, plain k -> lk k = lk' k) -> uart_says n lk u -> uart_says n lk' u.
Proof. intros n lk lk' u H. unfold uart_says. rewrite (filters_ext lk lk' [] H). rw_keys H. auto. Qed.
Lemma tcp_ext : forall n lk lk' u, (forall k, plain k -> lk k = lk' k) -> tcp_says n lk u -> tcp_says n lk' u.
Proof. intros n lk lk' u H. unfold tcp_says. rewrite (filters_ext lk lk' [] H). rw_keys H. auto. Qed.
Lemma udp_ext : forall n lk lk' a u, (forall k, plain k -> lk k = lk' k) -> udp_says n lk a u -> udp_says n lk' a u.
Proof.
  intros n lk lk' a u H. unfold udp_says. rewrite (filters_ext lk lk' _ H). rw_keys H. auto.
Qed.
Lemma log_ext : forall lk lk' a b, (forall k, plain k -> lk k = lk' k) -> log_says lk a b -> log_says lk' a b.
Proof. intros lk lk' a b H. unfold log_says. rw_keys H. auto. Qed.
Lemma global_ext : forall lk lk' a b, (forall k, plain k -> lk k = lk' k) -> global_says lk a b -> global_says lk' a b.
Proof. intros lk lk' a b H. unfold global_says. rw_keys H. auto. Qed.

(* the name begins with a word, up to case *)
Definition begins (prefix name : list Z) : bool := if same_dec prefix (firstn (length prefix) name) then true else false.
Lemma fnstar_begins : forall prefix name, fnstar prefix name = begins prefix name.
Proof.
  intros. unfold begins. destruct (same_dec prefix (firstn (length prefix) name)) as [S|S].
  - apply fnstar_starts. exists (firstn (length prefix) name), (skipn (length prefix) name). rewrite firstn_skipn. auto.
  - destruct (fnstar prefix name) eqn:E; auto. apply fnstar_starts in E. destruct E as (p & r & -> & S2). exfalso. apply S.
    rewrite (same_length _ _ S2), firstn_app, Nat.sub_diag, firstn_O, app_nil_r, firstn_all. exact S2.
Qed.

Lemma filter_names : forall prefix cs, plain_confs cs ->
  map se_name (filter (pick prefix) cs) = filter (begins prefix) (map se_name cs).
Proof.
  intros prefix cs P. induction P as [|s cs PS P IH]; cbn [filter map]; auto.
  unfold pick at 1. rewrite cstr_id, fnstar_begins by exact PS. destruct (begins prefix (se_name s)); cbn [map]; rewrite IH; auto.
Qed.
Lemma Forall2_map_l : forall A B C (f : A -> B) (P : B -> C -> Prop) l m, Forall2 (fun a c => P (f a) c) l m <-> Forall2 P (map f l) m.
Proof.
  intros. split.
  - induction 1; cbn [map]; constructor; auto.
  - revert m. induction l as [|a l IH]; intros m H; inversion H; subst; constructor; auto.
Qed.
Lemma Forall2_weak_in : forall A B (P Q : A -> B -> Prop) l m, (forall a b, In a l -> P a b -> Q a b) -> Forall2 P l m -> Forall2 Q l m.
Proof. intros A B P Q l m H F. induction F; constructor; auto; [apply H; auto; left; auto|apply IHF; intros; apply H; auto; right; auto]. Qed.
Lemma udp_list_names : forall (P : list Z -> Z -> udpc -> Prop) (Q : sect -> Z -> udpc -> Prop) l earlier us,
  (forall s a u, In s l -> Q s a u -> P (se_name s) a u) -> udp_list Q earlier l us -> udp_list P earlier (map se_name l) us.
Proof. intros P Q l earlier us H U. induction U; cbn [map]; constructor; auto; [apply H; auto; left; auto|apply IHU; intros; apply H; auto; right; auto]. Qed.

Lemma fold_uart : forall us g, fold_left add_uart us g = mkG (g_tcp_port g) (g_stats g) (g_level g) (g_dedup g) (g_log g) (g_uarts g ++ us) (g_udps g) (g_tcps g) (g_sniffer g).
Proof. induction us as [|u us IH]; intros g; cbn [fold_left]; [rewrite app_nil_r; destruct g; reflexivity|]. rewrite IH. unfold add_uart. g_cbn. rewrite <- app_assoc. reflexivity. Qed.
Lemma fold_udp : forall us g, fold_left add_udp us g = mkG (g_tcp_port g) (g_stats g) (g_level g) (g_dedup g) (g_log g) (g_uarts g) (g_udps g ++ us) (g_tcps g) (g_sniffer g).
Proof. induction us as [|u us IH]; intros g; cbn [fold_left]; [rewrite app_nil_r; destruct g; reflexivity|]. rewrite IH. unfold add_udp. g_cbn. rewrite <- app_assoc. reflexivity. Qed.
Lemma fold_tcp : forall us g, fold_left add_tcp us g = mkG (g_tcp_port g) (g_stats g) (g_level g) (g_dedup g) (g_log g) (g_uarts g) (g_udps g) (g_tcps g ++ us) (g_sniffer g).
Proof. induction us as [|u us IH]; intros g; cbn [fold_left]; [rewrite app_nil_r; destruct g; reflexivity|]. rewrite IH. unfold add_tcp. g_cbn. rewrite <- app_assoc. reflexivity. Qed.

Lemma general_says : forall D (table : list (opt D)) cs its d r d', read_from cs its -> Forall (fun t => o_req t = false) table ->
  extract_options cs general table d = Ok (r, d') -> (0 <= r) ->
  exists s, sound s /\ (forall k, plain k -> lookup s k = in_force general k its) /\ extract_section s table d = Ok (r, d').
Proof.
  intros D table cs its d r d' R NR E P. unfold extract_options in E.
  destruct (find_section general cs) as [s|] eqn:F.
  - exists s. destruct (find_section_in _ _ _ F) as [I K]. split; [apply (rf_sound _ _ R); auto|]. split; auto.
    intros k PK. rewrite <- (rf_value _ _ R); auto; [|unfold general; lit_plain]. unfold value_of. rewrite F. reflexivity.
  - assert (X : existsb o_req table = false).
    { clear - NR. induction NR; cbn [existsb]; auto. rewrite H. auto. }
    rewrite X in E. inversion E; subst. exists (mkSe 0 [] []). split; [intros c []|]. split.
    + intros k PK. rewrite <- (rf_value _ _ R); auto; [|unfold general; lit_plain]. unfold value_of. rewrite F. reflexivity.
    + clear - NR. induction NR; cbn [extract_section se_confs find_config]; auto. rewrite H. auto.
Qed.

Lemma extract_le : forall D (table : list (opt D)) goods s d r d', Forall2 judged table goods -> sound s -> extract_section s table d = Ok (r, d') -> r <= 0.
Proof. intros D table goods s d r d' J S E. destruct (C68_fails _ _ _ s d J S) as [[(e & d1 & A & L) _]|[(d1 & A) _]]; rewrite A in E; inversion E; lia. Qed.

(* The configuration built from the items of the configuration files: the General section gives the global settings;
   each UART, UDP and TCP section gives one endpoint with the settings of that section, and there are no others.
   (Sections are visited last first.) *)
Theorem C77_files : forall fsys files cs g,
  Forall plain_node (map fsys files) -> parse_each fsys files [] = Ok (0, cs) ->
  Forall (fun s => (length (se_name s) < 100)%nat) cs ->
  parse_confs cs g_default = Ok (0, g) ->
  exists itss, Forall2 (fun f its => exists t, fsys f = NData t /\ meaning t = Some its) files itss /\
  let its := concat itss in
  let sections kind := filter (begins (lit kind)) (rev (named [] its)) in
  let value name key := in_force name key its in
  global_says (value (lit "General")) g_default g /\ log_says (value (lit "General")) (g_log g_default) (g_log g) /\
  Forall2 (fun name u => uart_says (skipn 13 name) (value name) u) (sections "UartEndpoint ") (g_uarts g) /\
  udp_list (fun name auto u => udp_says (skipn 12 name) (value name) auto u) [] (sections "UdpEndpoint ") (g_udps g) /\
  Forall2 (fun name u => tcp_says (skipn 12 name) (value name) u) (sections "TcpEndpoint ") (g_tcps g).
Proof.
  intros fsys files cs g PF PE SH E. destruct (files_read _ _ _ PF PE) as (itss & T & R). exists itss. split; [exact T|].
  intros its sections value. fold its in R. unfold parse_confs in E.
  destruct (extract_options cs general global_table g_default) as [[r1 g1]| |] eqn:E1; cbn [bind] in E; try discriminate.
  destruct (Z.ltb_spec r1 0); [inversion E; lia|].
  destruct (general_says _ global_table _ _ _ _ _ R ltac:(repeat constructor) E1 H) as (s1 & S1 & L1 & X1).
  destruct C68_tables as (_ & _ & _ & TL & TG). pose proof (extract_le _ _ _ _ _ _ _ TG S1 X1). assert (r1 = 0) by lia. subst r1.
  destruct (global_extract s1 _ _ S1 X1) as (G1 & G2 & G3 & G4 & G5).
  destruct (extract_options cs general log_table (g_log g1)) as [[r2 l2]| |] eqn:E2; cbn [bind] in E; try discriminate.
  destruct (Z.ltb_spec r2 0); [inversion E; lia|].
  destruct (general_says _ log_table _ _ _ _ _ R ltac:(repeat constructor) E2 H1) as (s2 & S2 & L2 & X2).
  pose proof (extract_le _ _ _ _ _ _ _ TL S2 X2). assert (r2 = 0) by lia. subst r2.
  pose proof (log_extract s2 _ _ S2 X2) as LG.
  assert (SO : forall s, In s cs -> sound s) by (apply (rf_sound _ _ R)).
  destruct (conf_uarts (Datatypes.S (length cs)) cs (with_log g1 l2)) as [[r3 g3]| |] eqn:E3; cbn [bind] in E; try discriminate.
  destruct (Z.eqb_spec r3 0) as [->|]; cbn [negb] in E; [|inversion E; congruence].
  destruct (uarts_spec _ _ _ _ (Nat.lt_succ_diag_r _) SH SO E3) as (us & -> & FU).
  destruct (conf_udps (Datatypes.S (length cs)) cs (fold_left add_uart us (with_log g1 l2))) as [[r4 g4]| |] eqn:E4; cbn [bind] in E; try discriminate.
  destruct (Z.eqb_spec r4 0) as [->|]; cbn [negb] in E; [|inversion E; congruence].
  destruct (udps_spec _ _ _ _ (Nat.lt_succ_diag_r _) SH SO E4) as (ds & -> & FD).
  destruct (tcps_spec _ _ _ _ (Nat.lt_succ_diag_r _) SH SO E) as (ts & -> & FT). clear E E3 E4.
  rewrite fold_tcp, fold_udp, fold_uart in *. unfold with_log in *. g_cbn. rewrite G3, G4, G5 in *. g_cbn.
  assert (NM : map se_name cs = rev (named [] its)).
  { rewrite <- (rf_names _ _ R). unfold names_of. rewrite map_rev, rev_involutive. reflexivity. }
  assert (LU : forall s, In s cs -> forall k, plain k -> lookup s k = value (se_name s) k).
  { intros s I k P. apply rf_lookup with (cs := cs); auto. }
  assert (SEC : forall kind p, pick p = pick (lit kind) -> map se_name (filter (pick p) cs) = sections kind).
  { intros kind p ->. unfold sections. rewrite <- NM. apply filter_names. apply (rf_plain _ _ R). }
  assert (PK : forall kind p, map lower (lit kind) = map lower p -> forall s, pick p s = pick (lit kind) s).
  { intros kind p HL s. unfold pick. revert p HL. generalize (cstr (se_name s)). generalize (lit kind).
    induction l as [|x l IHl]; intros q [|y p] HL; try discriminate; auto. cbn [fnstar]. destruct q; auto. cbn [map] in HL. inversion HL. rewrite (IHl q p); auto. }
  assert (PF2 : forall kind p, map lower (lit kind) = map lower p -> map se_name (filter (pick p) cs) = sections kind).
  { intros kind p HL. rewrite <- (SEC kind (lit kind) eq_refl). f_equal. apply filter_ext. apply PK; auto. }
  split; [|split; [|split; [|split]]].
  - eapply global_ext; [exact L1|]. destruct G1 as (A & B & C & D & F). unfold global_says. g_cbn. auto.
  - eapply log_ext; [exact L2|]. rewrite <- G2. exact LG.
  - rewrite <- (PF2 "UartEndpoint " uart_prefix) by reflexivity. apply Forall2_map_l. eapply Forall2_weak_in; [|exact FU].
    intros s u I [A _]. apply filter_In in I. eapply uart_ext; [|exact A]. apply LU. tauto.
  - rewrite <- (PF2 "UdpEndpoint " udp_prefix) by reflexivity. eapply udp_list_names; [|exact FD].
    intros s a u I A. apply filter_In in I. eapply udp_ext; [|exact A]. apply LU. tauto.
  - rewrite <- (PF2 "TcpEndpoint " tcp_prefix) by reflexivity. apply Forall2_map_l. eapply Forall2_weak_in; [|exact FT].
    intros s u I [A _]. apply filter_In in I. eapply tcp_ext; [|exact A]. apply LU. tauto.
Qed.
Print Assumptions C77_files.
