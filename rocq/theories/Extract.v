(* Extracting the options of a section: what success and failure mean. *)
From Coq Require Import String.
From Verif Require Import Base Names Num SpecNum NumProofs Conf SpecConf ConfProofs ConfLook Accept LogFile RouterSetup Opts SpecSection Prop_Opts.
Local Open Scope string_scope.
Local Open Scope list_scope.
Local Open Scope Z_scope.

(* the value a section holds for a key *)
Definition lookup (s : sect) : lookup_fn := fun key => option_map ce_val (find_config key (se_confs s)).
(* no empty values, no NUL characters *)
Definition sound (s : sect) : Prop := forall c, In c (se_confs s) -> ce_val c <> [] /\ plain (ce_val c).
Lemma lookup_sound : forall s k v, sound s -> lookup s k = Some v -> v <> [] /\ plain v.
Proof.
  intros s k v S L. unfold lookup in L. destruct (find_config k (se_confs s)) as [c|] eqn:E; [|discriminate]. inversion L; subst. apply S.
  clear - E. induction (se_confs s) as [|x l IH]; [discriminate|]. rewrite find_config_cons in E. destruct (cmatch k x); [inversion E; left; auto|right; auto].
Qed.

Lemma extract_cons : forall D s (t : opt D) r d,
  extract_section s (t :: r) d =
  match lookup s (o_key t) with
  | None => if o_req t then Ok (- ENOENT, d) else extract_section s r d
  | Some v => let* (ret, d) := o_parse t v d in if ret <? 0 then Ok (ret, d) else extract_section s r d
  end.
Proof. intros. cbn [extract_section]. unfold lookup. destruct (find_config (o_key t) (se_confs s)); reflexivity. Qed.

(* ---- readings are decided by the parsers ---- *)

(* [p] takes exactly the values with a reading and stores it *)
Definition reader {D A} (p : parser D) (reads : list Z -> A -> Prop) (set : D -> A -> D) : Prop :=
  forall v, v <> [] -> plain v ->
    (exists x, reads v x /\ forall d, p v d = Ok (0, set d x)) \/
    ((forall x, ~ reads v x) /\ forall d, exists e d', p v d = Ok (e, d') /\ e < 0).

(* decidability from the parsers themselves *)
Lemma int_dec : forall v, (exists n, reads_int v n) \/ (forall n, ~ reads_int v n).
Proof.
  intros v. unfold reads_int. destruct (safe_atoi_spec v) as [A B].
  destruct (strto 0 v) as [[[neg m] r]|] eqn:E.
  - destruct r as [|c r].
    + set (x := if neg then - m else m). assert (I : integer v x) by (apply strto_integer; eauto).
      assert (U : forall n, integer v n -> n = x).
      { intros n J. apply strto_integer in J. destruct J as (neg' & m' & E' & ->). rewrite E in E'. inversion E'; subst. reflexivity. }
      destruct (Z_le_dec (- 2147483648) x) as [L1|L1]; [destruct (Z_lt_dec x 2147483648) as [L2|L2]|].
      * left. exists x. auto.
      * right. intros n [J R]. apply U in J. lia.
      * right. intros n [J R]. apply U in J. lia.
    + right. intros n [J R]. apply strto_integer in J. destruct J as (neg' & m' & E' & _). congruence.
  - right. intros n [J R]. apply strto_integer in J. destruct J as (neg' & m' & E' & _). congruence.
Qed.
Lemma nat_dec : forall v, (exists n, reads_nat v n) \/ (forall n, ~ reads_nat v n).
Proof.
  intros v. unfold reads_nat.
  destruct (strto 0 v) as [[[neg m] r]|] eqn:E.
  - destruct r as [|c r].
    + set (x := if neg then - m else m). assert (I : integer v x) by (apply strto_integer; eauto).
      assert (U : forall n, integer v n -> n = x).
      { intros n J. apply strto_integer in J. destruct J as (neg' & m' & E' & ->). rewrite E in E'. inversion E'; subst. reflexivity. }
      destruct (Z_lt_dec (- 18446744073709551616) x) as [L1|L1]; [destruct (Z_lt_dec x 18446744073709551616) as [L2|L2]|].
      * left. exists (x mod 18446744073709551616), x. auto.
      * right. intros n (k & J & R & _). apply U in J. lia.
      * right. intros n (k & J & R & _). apply U in J. lia.
    + right. intros n (k & J & R & _). apply strto_integer in J. destruct J as (neg' & m' & E' & _). congruence.
  - right. intros n (k & J & R & _). apply strto_integer in J. destruct J as (neg' & m' & E' & _). congruence.
Qed.

Lemma r_int : forall D (set : D -> Z -> D), reader (parse_i set) reads_int set.
Proof.
  intros D set v NE P. destruct (int_dec v) as [[n R]|N].
  - left. exists n. split; auto. intros d. destruct R. apply C69_signed; auto.
  - right. split; auto. intros d. destruct (C69_signed D set v d NE P) as [_ B]. destruct B as (e & B & L); [intros n I R; apply (N n); split; auto|]. eauto.
Qed.
Lemma r_nat : forall D (set : D -> Z -> D), reader (parse_ul set) reads_nat set.
Proof.
  intros D set v NE P. destruct (nat_dec v) as [[n R]|N].
  - left. exists n. split; auto. intros d. destruct R as (m & I & R & ->). apply C69_unsigned_partial; auto.
  - right. split; auto. intros d. destruct (C69_unsigned_partial D set v d NE P) as [_ B].
    destruct B as (e & B & L); [intros n I R; apply (N (n mod 18446744073709551616)); exists n; auto|]. eauto.
Qed.
Lemma r_bool : forall D (set : D -> bool -> D), reader (parse_bool set) reads_bool set.
Proof.
  intros D set v NE P. pose proof (fun d => C71_bool_partial D set v d NE P) as H. unfold reads_bool.
  destruct (same_dec v (lit "true")) as [S1|S1]; [left; exists true; split; [auto|intros; apply H; auto]|].
  destruct (same_dec v (lit "false")) as [S2|S2]; [left; exists false; split; [auto|intros; apply H; auto]|].
  destruct (int_dec v) as [[n R]|N].
  - left. exists (negb (n =? 0)). split; [right; right; exists n; auto|]. intros d. destruct R. apply H; auto.
  - right. split.
    + intros x [[A _]|[[A _]|(n & A & _)]]; [auto|auto|]. apply (N n A).
    + intros d. destruct (H d) as (_ & _ & _ & B). destruct B as (e & B & L); auto; [intros n I R; apply (N n); split; auto|]. eauto.
Qed.
Lemma r_spelled : forall D A (p : parser D) (set : D -> A -> D) (reads : list Z -> A -> Prop) table,
  spelled p set table -> (forall v x, reads v x <-> exists w, In (w, x) table /\ same v (lit w)) -> reader p reads set.
Proof.
  intros D A p set reads table SP RD v NE P.
  assert (DEC : (exists w x, In (w, x) table /\ same v (lit w)) \/ (forall w x, In (w, x) table -> ~ same v (lit w))).
  { clear. induction table as [|[w x] t IH]; [right; intros ? ? []|]. destruct (same_dec v (lit w)) as [S|S].
    - left. exists w, x. split; [left; auto|auto].
    - destruct IH as [(w' & x' & I & S')|N].
      + left. exists w', x'. split; [right; auto|auto].
      + right. intros w' x' [E|I]; [inversion E; subst; auto|eauto]. }
  destruct DEC as [(w & x & I & S)|N].
  - left. exists x. split; [apply RD; eauto|]. intros d. destruct (SP v d NE P) as [A0 _]. eapply A0; eauto.
  - right. split.
    + intros x R. apply RD in R. destruct R as (w & I & S). eapply N; eauto.
    + intros d. destruct (SP v d NE P) as [_ B]. destruct (B N) as (e & E & L). eauto.
Qed.
Ltac table_iff := intros v x; cbn [In]; split;
  [intros H; repeat (destruct H as [H|H]); destruct H as [H ->]; eexists; (split; [|exact H]); auto 10
  |intros (w & I & S); repeat (destruct I as [I|I]; [inversion I; subst; tauto|]); destruct I].
Lemma r_udp_mode : forall D (set : D -> udpmode -> D), reader (parse_udp_mode set) reads_udp_mode set.
Proof. intros. eapply r_spelled; [apply C71_udp_mode|]. unfold reads_udp_mode. table_iff. Qed.
Lemma r_log_mode : forall D (set : D -> lmode -> D), reader (parse_log_mode set) reads_log_mode set.
Proof. intros. eapply r_spelled; [apply C71_log_mode|]. unfold reads_log_mode. table_iff. Qed.
Lemma r_dialect : forall D (set : D -> dialect -> D), reader (parse_dialect set) reads_dialect set.
Proof. intros. eapply r_spelled; [apply C71_dialect|]. unfold reads_dialect. table_iff. Qed.
Lemma r_level : forall D (set : D -> level -> D), reader (parse_log_level set) reads_level set.
Proof. intros. eapply r_spelled; [apply C71_log_level|]. unfold reads_level. table_iff. Qed.
Lemma r_str : forall D (set : D -> list Z -> D), reader (parse_str set) (fun v x => x = v) set.
Proof. intros D set v NE P. left. exists v. split; auto. intros d. unfold parse_str, asserted. destruct v; [congruence|reflexivity]. Qed.

(* ---- success, row by row ---- *)

Lemma ok_opt : forall D A s k (p : parser D) reads (get : D -> A) set r d d', reader p reads set -> sound s ->
  (forall d, set d (get d) = d) ->
  extract_section s (row k false p :: r) d = Ok (0, d') ->
  exists x, optional reads (lookup s (lit k)) (get d) x /\ extract_section s r (set d x) = Ok (0, d').
Proof.
  intros D A s k p reads get set r d d' R S G E. rewrite extract_cons in E. cbn [row o_key o_req o_parse] in E.
  destruct (lookup s (lit k)) as [v|] eqn:L.
  - destruct (lookup_sound s _ v S L) as [NE P]. destruct (R v NE P) as [(x & X & Q)|(_ & Q)].
    + rewrite Q in E. cbn [bind] in E. change (0 <? 0) with false in E. exists x. split; auto.
    + destruct (Q d) as (e & d1 & Q' & N). rewrite Q' in E. cbn [bind] in E. destruct (Z.ltb_spec e 0); [|lia]. inversion E; lia.
  - exists (get d). split; [reflexivity|]. rewrite G. exact E.
Qed.
Lemma ok_req : forall D A s k (p : parser D) reads (set : D -> A -> D) r d d', reader p reads set -> sound s ->
  extract_section s (row k true p :: r) d = Ok (0, d') ->
  exists v x, lookup s (lit k) = Some v /\ reads v x /\ extract_section s r (set d x) = Ok (0, d').
Proof.
  intros D A s k p reads set r d d' R S E. rewrite extract_cons in E. cbn [row o_key o_req o_parse] in E.
  destruct (lookup s (lit k)) as [v|] eqn:L; [|inversion E].
  destruct (lookup_sound s _ v S L) as [NE P]. destruct (R v NE P) as [(x & X & Q)|(_ & Q)].
  - rewrite Q in E. cbn [bind] in E. change (0 <? 0) with false in E. exists v, x. auto.
  - destruct (Q d) as (e & d1 & Q' & N). rewrite Q' in E. cbn [bind] in E. destruct (Z.ltb_spec e 0); [|lia]. inversion E; lia.
Qed.
Lemma ok_words : forall D s k (get : D -> list Z) set r d, sound s -> set d (get d) = d ->
  extract_section s (row k false (parse_u32s get set) :: r) d = extract_section s r (set d (get d ++ listed words (lookup s (lit k)))).
Proof.
  intros D s k get set r d S G. rewrite extract_cons. cbn [row o_key o_req o_parse].
  destruct (lookup s (lit k)) as [v|] eqn:L; cbn [listed].
  - destruct (lookup_sound s _ v S L) as [NE P]. unfold parse_u32s, asserted. destruct v; [congruence|]. reflexivity.
  - rewrite app_nil_r, G. reflexivity.
Qed.
Lemma ok_octets : forall D s k (get : D -> list Z) set r d, sound s -> set d (get d) = d ->
  extract_section s (row k false (parse_u8s get set) :: r) d = extract_section s r (set d (get d ++ listed octets (lookup s (lit k)))).
Proof.
  intros D s k get set r d S G. rewrite extract_cons. cbn [row o_key o_req o_parse].
  destruct (lookup s (lit k)) as [v|] eqn:L; cbn [listed].
  - destruct (lookup_sound s _ v S L) as [NE P]. unfold parse_u8s, asserted. destruct v; [congruence|]. reflexivity.
  - rewrite app_nil_r, G. reflexivity.
Qed.

(* the twelve filter rows *)
Lemma ok_filters : forall D (get : D -> filters) set s r d,
  (forall d f, get (set d f) = f) -> (forall d f g, set (set d f) g = set d g) -> (forall d, set d (get d) = d) ->
  sound s -> get d = mkFilters (f_allow_msg_out (get d)) [] [] [] [] [] [] [] [] [] [] [] ->
  extract_section s (filter_rows get set ++ r) d = extract_section s r (set d (section_filters (lookup s) (f_allow_msg_out (get d)))).
Proof.
  intros D get set s r d G1 G2 G3 S E. unfold filter_rows. cbn [app].
  assert (ED : exists f0, f0 = get d /\ d = set d f0) by (exists (get d); auto). destruct ED as (f0 & EF & ED).
  rewrite <- EF in *. clear EF.
  destruct f0 as [a b c e f g h i j k l m]. cbn [f_allow_msg_out] in *. inversion E; subst b c e f g h i j k l m. clear E.
  rewrite ED at 1.
  do 2 (rewrite ok_words by (auto; rewrite ?G1; cbn [sf_amo sf_bmo f_allow_msg_out f_block_msg_out]; rewrite G2; reflexivity);
        rewrite !G1; cbn [sf_amo sf_bmo f_allow_msg_out f_block_msg_out app]; rewrite G2).
  do 4 (rewrite ok_octets by (auto; rewrite ?G1; cbn [sf_aco sf_bco sf_aso sf_bso f_allow_comp_out f_block_comp_out f_allow_sys_out f_block_sys_out]; rewrite G2; reflexivity);
        rewrite !G1; cbn [sf_aco sf_bco sf_aso sf_bso f_allow_comp_out f_block_comp_out f_allow_sys_out f_block_sys_out app]; rewrite G2).
  do 2 (rewrite ok_words by (auto; rewrite ?G1; cbn [sf_ami sf_bmi f_allow_msg_in f_block_msg_in]; rewrite G2; reflexivity);
        rewrite !G1; cbn [sf_ami sf_bmi f_allow_msg_in f_block_msg_in app]; rewrite G2).
  do 4 (rewrite ok_octets by (auto; rewrite ?G1; cbn [sf_aci sf_bci sf_asi sf_bsi f_allow_comp_in f_block_comp_in f_allow_sys_in f_block_sys_in]; rewrite G2; reflexivity);
        rewrite !G1; cbn [sf_aci sf_bci sf_asi sf_bsi f_allow_comp_in f_block_comp_in f_allow_sys_in f_block_sys_in app]; rewrite G2).
  reflexivity.
Qed.

Lemma opt_text : forall lk dflt x, optional (fun v x => x = v) lk dflt x -> x = text lk dflt.
Proof. intros [v|] dflt x H; exact H. Qed.

Lemma uart_extract : forall s name u, sound s ->
  extract_section s uart_table (mkUa name [] [] false no_filters []) = Ok (0, u) ->
  uart_says name (lookup s) (if is_empty (ua_bauds u) then mkUa (ua_name u) (ua_device u) [115200] (ua_flow u) (ua_filters u) (ua_group u) else u).
Proof.
  intros s name u S E. unfold uart_table in E. cbn [app] in E.
  rewrite ok_words in E by auto. cbn [ua_name ua_device ua_bauds ua_flow ua_filters ua_group app] in E.
  apply (ok_req _ _ _ _ _ _ _ _ _ _ (r_str _ _) S) in E. destruct E as (v & dev & LD & -> & E).
  cbn [ua_name ua_device ua_bauds ua_flow ua_filters ua_group app] in E.
  apply (ok_opt _ _ _ _ _ _ ua_flow _ _ _ _ (r_bool _ _) S) in E; [|intros []; reflexivity]. destruct E as (fl & FL & E).
  cbn [ua_name ua_device ua_bauds ua_flow ua_filters ua_group app] in *.
  rewrite (ok_filters _ ua_filters ua_sf) in E; auto; [|intros []; reflexivity].
  unfold ua_sf in E. cbn [ua_name ua_device ua_bauds ua_flow ua_filters ua_group f_allow_msg_out no_filters app] in E.
  apply (ok_opt _ _ _ _ _ _ ua_group _ _ _ _ (r_str _ _) S) in E; [|intros []; reflexivity]. destruct E as (gr & GR & E).
  cbn [ua_name ua_device ua_bauds ua_flow ua_filters ua_group extract_section] in *. apply opt_text in GR. inversion E; subst u.
  cbn [ua_name ua_device ua_bauds ua_flow ua_filters ua_group]. unfold uart_says.
  destruct (listed words (lookup s (lit "baud"))) as [|b bs] eqn:B; cbn [is_empty ua_name ua_device ua_bauds ua_flow ua_filters ua_group]; auto 10.
Qed.

Ltac tc_cbn := cbn [tc_name tc_address tc_port tc_retry tc_filters tc_group f_allow_msg_out no_filters app] in *.
Lemma tcp_extract : forall s name u, sound s ->
  extract_section s tcp_table (mkTc name [] ULONG_MAX 5 no_filters []) = Ok (0, u) -> tcp_says name (lookup s) u.
Proof.
  intros s name u S E. unfold tcp_table in E. cbn [app] in E.
  apply (ok_req _ _ _ _ _ _ _ _ _ _ (r_str _ _) S) in E. destruct E as (v & ad & LA & -> & E). tc_cbn.
  apply (ok_req _ _ _ _ _ _ _ _ _ _ (r_nat _ _) S) in E. destruct E as (pv & p & LP & RP & E). tc_cbn.
  apply (ok_opt _ _ _ _ _ _ tc_retry _ _ _ _ (r_int _ _) S) in E; [|intros []; reflexivity]. destruct E as (rt & RT & E). tc_cbn.
  rewrite (ok_filters _ tc_filters tc_sf) in E; auto; [|intros []; reflexivity]. unfold tc_sf in E. tc_cbn.
  apply (ok_opt _ _ _ _ _ _ tc_group _ _ _ _ (r_str _ _) S) in E; [|intros []; reflexivity]. destruct E as (gr & GR & E). tc_cbn.
  cbn [extract_section] in E. apply opt_text in GR. inversion E; subst u. unfold tcp_says. tc_cbn. eauto 12.
Qed.

Ltac ud_cbn := cbn [ud_name ud_address ud_port ud_mode ud_filters ud_group f_allow_msg_out no_filters app sf_amo ud_sf] in *.
Lemma udp_extract : forall s name u auto, sound s ->
  extract_section s udp_table (mkUd name [] ULONG_MAX UUndefined no_filters []) = Ok (0, u) ->
  udp_says name (lookup s) auto
    (match ud_mode u with
     | UClient => if ud_port u =? ULONG_MAX then mkUd (ud_name u) (ud_address u) auto (ud_mode u) (ud_filters u) (ud_group u) else u
     | _ => u
     end).
Proof.
  intros s name u auto S E. unfold udp_table in E. cbn [app] in E.
  apply (ok_req _ _ _ _ _ _ _ _ _ _ (r_str _ _) S) in E. destruct E as (v & ad & LA & -> & E). ud_cbn.
  apply (ok_req _ _ _ _ _ _ _ _ _ _ (r_udp_mode _ _) S) in E. destruct E as (mv & m & LM & RM & E). ud_cbn.
  apply (ok_opt _ _ _ _ _ _ ud_port _ _ _ _ (r_nat _ _) S) in E; [|intros []; reflexivity]. destruct E as (p & RP & E). ud_cbn.
  rewrite ok_words in E by auto. ud_cbn.
  rewrite (ok_filters _ ud_filters ud_sf) in E; auto; [|intros []; reflexivity]. ud_cbn.
  apply (ok_opt _ _ _ _ _ _ ud_group _ _ _ _ (r_str _ _) S) in E; [|intros []; reflexivity]. destruct E as (gr & GR & E). ud_cbn.
  cbn [extract_section] in E. apply opt_text in GR. inversion E; subst u. unfold udp_says. ud_cbn.
  destruct m; ud_cbn.
  - split; auto. split; auto. split; [eauto|]. split; [exists p; split; auto; rewrite Bool.andb_false_r; auto|auto].
  - split; auto. split; auto. split; [eauto|]. split; [exists p; split; auto; rewrite Bool.andb_false_r; auto|auto].
  - unfold ULONG_MAX. destruct (Z.eqb_spec p 18446744073709551615) as [->|NE]; ud_cbn.
    + split; auto. split; auto. split; [eauto|]. split; [exists 18446744073709551615; auto|auto].
    + split; auto. split; auto. split; [eauto|]. split; [exists p; split; auto; destruct (Z.eqb_spec p 18446744073709551615); [contradiction|auto]|auto].
Qed.

Lemma r_fcu : reader (parse_fcu_id lo_fcu s_fcu) (fun v x => reads_int v x /\ 1 <= x <= 255) s_fcu.
Proof.
  intros v NE P. unfold parse_fcu_id. destruct (r_int _ s_fcu v NE P) as [(x & R & Q)|(N & Q)].
  - destruct ((255 <? x) || (x <=? 0)) eqn:E.
    + right. split.
      * intros y [R2 L]. assert (x = y).
        { destruct R as [R _]. destruct R2 as [R2 _]. apply strto_integer in R. apply strto_integer in R2.
          destruct R as (? & ? & R & ->). destruct R2 as (? & ? & R2 & ->). rewrite R in R2. inversion R2. reflexivity. }
        lia.
      * intros d. rewrite Q. cbn [bind]. change (negb (0 =? 0)) with false. cbv iota. cbn [s_fcu lo_fcu]. rewrite E.
        eexists _, _. split; [reflexivity|unfold EINVAL; lia].
    + left. exists x. split; [split; auto; lia|]. intros d. rewrite Q. cbn [bind]. change (negb (0 =? 0)) with false. cbv iota.
      cbn [s_fcu lo_fcu]. rewrite E. reflexivity.
  - right. split; [intros x [R _]; apply (N x R)|]. intros d. destruct (Q d) as (e & d' & Q' & L). rewrite Q'. cbn [bind].
    destruct (Z.eqb_spec e 0); [lia|]. cbn [negb]. eauto.
Qed.

Ltac lo_cbn := cbn [lo_dir lo_mode lo_dialect lo_minfree lo_maxlogs lo_fcu lo_tlog s_dir s_mode s_dialect s_minfree s_maxlogs s_fcu s_tlog] in *.
Lemma log_extract : forall s l l', sound s -> extract_section s log_table l = Ok (0, l') -> log_says (lookup s) l l'.
Proof.
  intros s l l' S E. unfold log_table in E.
  apply (ok_opt _ _ _ _ _ _ lo_dir _ _ _ _ (r_str _ _) S) in E; [|intros []; reflexivity]. destruct E as (x1 & R1 & E). lo_cbn.
  apply (ok_opt _ _ _ _ _ _ lo_mode _ _ _ _ (r_log_mode _ _) S) in E; [|intros []; reflexivity]. destruct E as (x2 & R2 & E). lo_cbn.
  apply (ok_opt _ _ _ _ _ _ lo_dialect _ _ _ _ (r_dialect _ _) S) in E; [|intros []; reflexivity]. destruct E as (x3 & R3 & E). lo_cbn.
  apply (ok_opt _ _ _ _ _ _ lo_minfree _ _ _ _ (r_nat _ _) S) in E; [|intros []; reflexivity]. destruct E as (x4 & R4 & E). lo_cbn.
  apply (ok_opt _ _ _ _ _ _ lo_maxlogs _ _ _ _ (r_nat _ _) S) in E; [|intros []; reflexivity]. destruct E as (x5 & R5 & E). lo_cbn.
  apply (ok_opt _ _ _ _ _ _ lo_fcu _ _ _ _ r_fcu S) in E; [|intros []; reflexivity]. destruct E as (x6 & R6 & E). lo_cbn.
  apply (ok_opt _ _ _ _ _ _ lo_tlog _ _ _ _ (r_bool _ _) S) in E; [|intros []; reflexivity]. destruct E as (x7 & R7 & E). lo_cbn.
  cbn [extract_section] in E. apply opt_text in R1. inversion E; subst l'. unfold log_says. lo_cbn. auto 10.
Qed.

Ltac g_cbn := cbn [g_tcp_port g_stats g_level g_dedup g_log g_uarts g_udps g_tcps g_sniffer s_tcp_port s_stats s_level s_dedup s_sniffer] in *.
Lemma global_extract : forall s g g', sound s -> extract_section s global_table g = Ok (0, g') ->
  global_says (lookup s) g g' /\ g_log g' = g_log g /\ g_uarts g' = g_uarts g /\ g_udps g' = g_udps g /\ g_tcps g' = g_tcps g.
Proof.
  intros s g g' S E. unfold global_table in E.
  apply (ok_opt _ _ _ _ _ _ g_tcp_port _ _ _ _ (r_nat _ _) S) in E; [|intros []; reflexivity]. destruct E as (x1 & R1 & E). g_cbn.
  apply (ok_opt _ _ _ _ _ _ g_stats _ _ _ _ (r_bool _ _) S) in E; [|intros []; reflexivity]. destruct E as (x2 & R2 & E). g_cbn.
  apply (ok_opt _ _ _ _ _ _ g_level _ _ _ _ (r_level _ _) S) in E; [|intros []; reflexivity]. destruct E as (x3 & R3 & E). g_cbn.
  apply (ok_opt _ _ _ _ _ _ g_dedup _ _ _ _ (r_nat _ _) S) in E; [|intros []; reflexivity]. destruct E as (x4 & R4 & E). g_cbn.
  apply (ok_opt _ _ _ _ _ _ g_sniffer _ _ _ _ (r_nat _ _) S) in E; [|intros []; reflexivity]. destruct E as (x5 & R5 & E). g_cbn.
  cbn [extract_section] in E. inversion E; subst g'. unfold global_says. g_cbn. auto 10.
Qed.
