(* From the items of the configuration files to the structures of the endpoints. *)
From Coq Require Import String.
From Verif Require Import Base Names Num SpecNum NumProofs Conf SpecConf ConfProofs ConfRun ConfLook Accept LogFile RouterSetup Opts Regex Main ConfFiles SpecSection Prop_Opts Extract Prop_Conf.
Local Open Scope string_scope.
Local Open Scope list_scope.
Local Open Scope Z_scope.

(* ---- values of sections ---- *)

Lemma put_config_vals : forall (P : list Z -> Prop) k v l, P v -> (forall c, In c l -> P (ce_val c)) -> forall c, In c (put_config k v l) -> P (ce_val c).
Proof.
  intros P k v l V F c. unfold put_config. destruct (find_config k l); [|intros [<-|I]; auto].
  induction l as [|x l IH]; intros I; [destruct I|]. rewrite set_config_cons in I. destruct (cmatch k x).
  - destruct I as [<-|I]; [auto|apply F; right; auto].
  - destruct I as [<-|I]; [apply F; left; auto|]. apply IH; auto. intros; apply F; right; auto.
Qed.
Lemma apply_vals : forall (P : list Z -> Prop) its cs, (forall s c, In s cs -> In c (se_confs s) -> P (ce_val c)) ->
  (forall n k v, In (Set_ n k v) its -> P v) -> forall s c, In s (apply its cs) -> In c (se_confs s) -> P (ce_val c).
Proof.
  intros P. induction its as [|i its IH]; intros cs F H; cbn [apply]; auto. destruct i as [n|s k v].
  - apply IH; [|intros; eapply H; right; eauto]. unfold enter. destruct (find_section n cs); cbn [snd]; auto.
    intros s c [<-|I] J; [destruct J|eauto].
  - destruct (find_section s cs) as [x|]; [|apply IH; auto; intros; eapply H; right; eauto].
    apply IH; [|intros; eapply H; right; eauto]. intros y c I J. unfold upd_section in I. apply in_map_iff in I. destruct I as (z & <- & I).
    destruct (Nat.eqb (se_id z) (se_id x)); cbn [se_confs] in J; [|eauto].
    eapply put_config_vals; [|intros; eapply F; eauto|exact J]. eapply H. left; reflexivity.
Qed.

Lemma self_section : forall cs s, CI cs -> In s cs -> find_section (se_name s) cs = Some s.
Proof.
  intros cs s C I. destruct (find_section (se_name s) cs) as [x|] eqn:E.
  - destruct (find_section_in _ _ _ E) as [J K]. f_equal. pose proof (ci_names cs C) as ND. clear - I J K ND.
    induction cs as [|y cs IH]; [destruct I|]. inversion ND as [|? ? N1 N2]; subst. destruct I as [<-|I], J as [<-|J]; auto.
    + exfalso. apply N1. apply in_map_iff. exists x. auto.
    + exfalso. apply N1. apply in_map_iff. exists s. split; auto.
  - exfalso. eapply find_section_none; eauto.
Qed.

(* everything known about the sections after reading the files *)
Record read_from (cs : confs) (its : list item) : Prop := mkRf {
  rf_ci : CI cs;
  rf_sound : forall s, In s cs -> sound s;
  rf_plain : plain_confs cs;
  rf_names : names_of cs = named [] its;
  rf_value : forall sec key, plain sec -> plain key -> value_of cs sec key = in_force sec key its }.
Lemma rf_lookup : forall cs its s key, read_from cs its -> In s cs -> plain key -> lookup s key = in_force (se_name s) key its.
Proof.
  intros cs its s key R I P. pose proof (rf_plain _ _ R) as PC. unfold plain_confs in PC. rewrite Forall_forall in PC.
  rewrite <- (rf_value _ _ R) by auto. unfold value_of. rewrite (self_section cs s (rf_ci _ _ R) I). reflexivity.
Qed.

Lemma apply_read : forall its, Forall plain_item its -> homed its [] -> (forall n, In (Sec n) its -> (length n <= 100)%nat) ->
  (forall n k v, In (Set_ n k v) its -> k <> [] /\ v <> []) -> CI (apply its []) -> read_from (apply its []) its.
Proof.
  intros its P H L F C. constructor; auto.
  - intros s I c J. split.
    + eapply (apply_vals (fun v => v <> [])); [|intros n k v K; eapply F; exact K|exact I|exact J]. intros ? ? [].
    + eapply (apply_vals plain); [|intros n k v K|exact I|exact J]; [intros ? ? []|].
      rewrite Forall_forall in P. apply P in K. destruct K as (_ & _ & K). exact K.
  - assert (G : forall its cs, Forall plain_item its -> plain_confs cs -> plain_confs (apply its cs)).
    { clear. induction its as [|i its IH]; intros cs P PC; cbn [apply]; auto. inversion P; subst. destruct i as [n|s k v].
      - apply IH; auto. apply enter_plain; auto.
      - destruct (find_section s cs); apply IH; auto using upd_plain. }
    apply G; auto. constructor.
  - rewrite apply_names; auto. constructor.
  - intros sec key P1 P2. rewrite apply_value; auto using CI_nil; [|constructor]. unfold value_of. cbn [find_section].
    destruct (in_force sec key its); auto.
Qed.

Lemma files_read : forall fsys files cs, Forall plain_node (map fsys files) -> parse_each fsys files [] = Ok (0, cs) ->
  exists itss, Forall2 (fun f its => exists t, fsys f = NData t /\ meaning t = Some its) files itss /\ read_from cs (concat itss).
Proof.
  intros fsys files cs PF P. destruct (parse_each_ok _ _ _ _ _ CI_nil P) as (itss & T & -> & C & _); [lia|].
  exists itss. split.
  - clear - T. induction T as [|f its fs itss (t & A & _ & B) T IH]; constructor; eauto.
  - assert (T' : Forall2 tells (map fsys files) itss).
    { clear - T. induction T; cbn [map]; constructor; auto. }
    destruct (tells_all _ _ T' PF []) as (A & B & H). apply apply_read; auto.
    intros n k v I. apply in_concat in I. destruct I as (its & I1 & I2). clear - T I1 I2. induction T; [destruct I1|]; destruct I1 as [<-|I1]; auto.
    destruct H as (t & _ & _ & M). eapply says_nonempty; [exact M|exact I2].
Qed.

(* ---- the loops ---- *)

Lemma filter_none : forall A (f : A -> bool) l, Forall (fun x => f x = false) l -> filter f l = [].
Proof. induction 1; cbn [filter]; auto. rewrite H. auto. Qed.

Lemma uarts_spec : forall fuel it g g', (length it < fuel)%nat -> Forall (fun s => (length (se_name s) < 100)%nat) it -> (forall s, In s it -> sound s) ->
  conf_uarts fuel it g = Ok (0, g') ->
  exists us, g' = fold_left add_uart us g /\
    Forall2 (fun s u => uart_says (skipn 13 (se_name s)) (lookup s) u /\ validate_uart u = true) (filter (pick uart_prefix) it) us.
Proof.
  induction fuel as [|fuel IH]; intros it g g' L F S E; [lia|]. cbn [conf_uarts] in E.
  destruct (get_sections_spec uart_prefix it F) as (skip & r & -> & K & G & PK). rewrite G in E. cbn [bind] in E.
  rewrite filter_app, (filter_none _ _ skip K). cbn [app].
  destruct r as [|s r]; [inversion E; subst; exists []; split; constructor|]. cbn [filter]. rewrite PK.
  destruct (extract_section s uart_table (mkUa (skipn (length uart_prefix) (se_name s)) [] [] false no_filters [])) as [[ret u]| |] eqn:X; cbn [bind] in E; try discriminate.
  destruct (Z.eqb_spec ret 0) as [->|NZ]; cbn [negb] in E; [|inversion E; congruence].
  assert (SS : sound s) by (apply S; apply in_or_app; right; left; auto).
  apply uart_extract in X; auto. change (length uart_prefix) with 13%nat in X.
  unfold DEFAULT_BAUD in E.
  remember (if is_empty (ua_bauds u) then mkUa (ua_name u) (ua_device u) [115200] (ua_flow u) (ua_filters u) (ua_group u) else u) as u' eqn:U. clear U.
  destruct (validate_uart u') eqn:V; cbn [negb] in E; [|inversion E].
  rewrite app_length in L. cbn [length] in L. apply Forall_app in F. destruct F as [_ F]. inversion F; subst.
  apply IH in E; auto; [|lia|intros; apply S; apply in_or_app; right; right; auto]. destruct E as (us & -> & FU).
  exists (u' :: us). split; [reflexivity|]. constructor; auto.
Qed.

Lemma tcps_spec : forall fuel it g g', (length it < fuel)%nat -> Forall (fun s => (length (se_name s) < 100)%nat) it -> (forall s, In s it -> sound s) ->
  conf_tcps fuel it g = Ok (0, g') ->
  exists us, g' = fold_left add_tcp us g /\
    Forall2 (fun s u => tcp_says (skipn 12 (se_name s)) (lookup s) u /\ validate_tcp u = true) (filter (pick tcp_prefix) it) us.
Proof.
  induction fuel as [|fuel IH]; intros it g g' L F S E; [lia|]. cbn [conf_tcps] in E.
  destruct (get_sections_spec tcp_prefix it F) as (skip & r & -> & K & G & PK). rewrite G in E. cbn [bind] in E.
  rewrite filter_app, (filter_none _ _ skip K). cbn [app].
  destruct r as [|s r]; [inversion E; subst; exists []; split; constructor|]. cbn [filter]. rewrite PK.
  change UNSET with ULONG_MAX in E.
  destruct (extract_section s tcp_table (mkTc (skipn (length tcp_prefix) (se_name s)) [] ULONG_MAX 5 no_filters [])) as [[ret u]| |] eqn:X; cbn [bind] in E; try discriminate.
  destruct (Z.eqb_spec ret 0) as [->|NZ]; cbn [negb] in E; [|inversion E; congruence].
  assert (SS : sound s) by (apply S; apply in_or_app; right; left; auto).
  apply tcp_extract in X; auto. change (length tcp_prefix) with 12%nat in X.
  destruct (validate_tcp u) eqn:V; cbn [negb] in E; [|inversion E].
  rewrite app_length in L. cbn [length] in L. apply Forall_app in F. destruct F as [_ F]. inversion F; subst.
  apply IH in E; auto; [|lia|intros; apply S; apply in_or_app; right; right; auto]. destruct E as (us & -> & FU).
  exists (u :: us). split; [reflexivity|]. constructor; auto.
Qed.

(* the UDP endpoints in the order of the sections, each with the automatic port that the earlier ones leave *)
Inductive udp_list {S} (says : S -> Z -> udpc -> Prop) : list udpc -> list S -> list udpc -> Prop :=
| ul_nil : forall earlier, udp_list says earlier [] []
| ul_cons : forall earlier s ss u us, says s (find_next_udp_port (ud_address u) earlier) u -> validate_udp u = true ->
    udp_list says (earlier ++ [u]) ss us -> udp_list says earlier (s :: ss) (u :: us).

Lemma udps_spec : forall fuel it g g', (length it < fuel)%nat -> Forall (fun s => (length (se_name s) < 100)%nat) it -> (forall s, In s it -> sound s) ->
  conf_udps fuel it g = Ok (0, g') ->
  exists us, g' = fold_left add_udp us g /\
    udp_list (fun s auto u => udp_says (skipn 12 (se_name s)) (lookup s) auto u) (g_udps g) (filter (pick udp_prefix) it) us.
Proof.
  induction fuel as [|fuel IH]; intros it g g' L F S E; [lia|]. cbn [conf_udps] in E.
  destruct (get_sections_spec udp_prefix it F) as (skip & r & -> & K & G & PK). rewrite G in E. cbn [bind] in E.
  rewrite filter_app, (filter_none _ _ skip K). cbn [app].
  destruct r as [|s r]; [inversion E; subst; exists []; split; constructor|]. cbn [filter]. rewrite PK.
  change UNSET with ULONG_MAX in E.
  destruct (extract_section s udp_table (mkUd (skipn (length udp_prefix) (se_name s)) [] ULONG_MAX UUndefined no_filters [])) as [[ret u]| |] eqn:X; cbn [bind] in E; try discriminate.
  destruct (Z.eqb_spec ret 0) as [->|NZ]; cbn [negb] in E; [|inversion E; congruence].
  assert (SS : sound s) by (apply S; apply in_or_app; right; left; auto).
  apply (udp_extract _ _ _ (find_next_udp_port (ud_address u) (g_udps g))) in X; auto. change (length udp_prefix) with 12%nat in X.
  remember (match ud_mode u with
            | UClient => if ud_port u =? ULONG_MAX then mkUd (ud_name u) (ud_address u) (find_next_udp_port (ud_address u) (g_udps g)) (ud_mode u) (ud_filters u) (ud_group u) else u
            | _ => u end) as u' eqn:U.
  assert (AD : ud_address u' = ud_address u).
  { rewrite U. destruct (ud_mode u); auto. destruct (ud_port u =? ULONG_MAX); reflexivity. }
  destruct (validate_udp u') eqn:V; cbn [negb] in E; [|inversion E].
  rewrite app_length in L. cbn [length] in L. apply Forall_app in F. destruct F as [_ F]. clear U. inversion F; subst.
  apply IH in E; auto; [|lia|intros; apply S; apply in_or_app; right; right; auto]. destruct E as (us & -> & FU).
  exists (u' :: us). split; [reflexivity|]. constructor; auto. rewrite AD. exact X.
Qed.
