(* Whole files: the reader's state after a file is the one obtained from the file's items. *)
From Verif Require Import Base Names Num Conf SpecConf ConfProofs.
Local Open Scope nat_scope.

Fixpoint apply (its : list item) (cs : confs) : confs :=
  match its with
  | [] => cs
  | Sec n :: r => apply r (snd (enter n cs))
  | Set_ s k v :: r => apply r (match find_section s cs with
                               | Some x => upd_section (se_id x) (put_config k v) cs
                               | None => cs
                               end)
  end.

Record CI (cs : confs) : Prop := mkCI {
  ci_short : names_short cs;
  ci_ids : map se_id cs = rev (seq 0 (length cs));
  ci_names : NoDup (map (fun s => nkey (se_name s)) cs) }.

Lemma CI_nil : CI [].
Proof. constructor; [constructor|reflexivity|constructor]. Qed.

Lemma find_section_none : forall name cs, find_section name cs = None ->
  forall s, In s cs -> nkey name <> nkey (se_name s).
Proof.
  induction cs as [|x cs IH]; intros H s I K; cbn [find_section] in H; [destruct I|].
  destruct (memcaseeq name (se_name x)) eqn:M; [discriminate|].
  destruct I as [->|I]; [|eapply IH; eauto]. apply memcaseeq_key in K. congruence.
Qed.
Lemma find_section_key : forall a b cs, nkey a = nkey b -> find_section a cs = find_section b cs.
Proof.
  intros a b cs K. induction cs as [|x cs IH]; cbn [find_section]; auto.
  assert (memcaseeq a (se_name x) = memcaseeq b (se_name x)).
  { apply Bool.eq_iff_eq_true. rewrite !memcaseeq_key. rewrite K. tauto. }
  rewrite H, IH. reflexivity.
Qed.

Lemma enter_CI : forall name cs, CI cs -> length name <= 100 -> CI (snd (enter name cs)).
Proof.
  intros name cs C L. unfold enter. destruct (find_section name cs) eqn:F; cbn [snd]; auto.
  constructor.
  - constructor; [auto|apply C].
  - cbn [map length se_id]. rewrite (ci_ids cs C), seq_S, rev_app_distr. reflexivity.
  - cbn [map]. constructor; [|apply C]. intros I. apply in_map_iff in I. destruct I as (s & E & I).
    eapply find_section_none in F; eauto.
Qed.
Lemma enter_find : forall name cs, exists s, find_section name (snd (enter name cs)) = Some s /\ se_id s = fst (enter name cs).
Proof.
  intros. unfold enter. destruct (find_section name cs) eqn:F; cbn [fst snd].
  - eauto.
  - cbn [find_section se_name]. assert (memcaseeq name name = true) by (apply memcaseeq_key; auto). rewrite H. eauto.
Qed.

Lemma upd_CI : forall id f cs, CI cs -> CI (upd_section id f cs).
Proof.
  intros id f cs C. unfold upd_section. constructor.
  - unfold names_short. rewrite Forall_map. eapply Forall_impl; [|apply C]. intros s H. cbn. destruct (se_id s =? id); auto.
  - rewrite map_map, map_length, <- (ci_ids cs C). apply map_ext. intros s. destruct (se_id s =? id); auto.
  - rewrite map_map. erewrite map_ext; [apply C|]. intros s. cbn. destruct (se_id s =? id); auto.
Qed.
Lemma upd_find : forall name id f cs,
  find_section name (upd_section id f cs) =
  match find_section name cs with
  | Some s => Some (if se_id s =? id then mkSe (se_id s) (se_name s) (f (se_confs s)) else s)
  | None => None
  end.
Proof.
  intros. induction cs as [|x cs IH]; cbn [find_section upd_section map]; auto.
  destruct (se_id x =? id) eqn:E; cbn [se_name]; destruct (memcaseeq name (se_name x)); rewrite ?E; auto.
Qed.

Lemma ids_inj : forall cs s t, CI cs -> In s cs -> In t cs -> se_id s = se_id t -> s = t.
Proof.
  intros cs s t C. assert (ND : NoDup (map se_id cs)).
  { rewrite (ci_ids cs C). apply NoDup_rev, seq_NoDup. }
  clear C. induction cs as [|x cs IH]; intros I J E; [destruct I|].
  cbn [map] in ND. inversion ND; subst.
  destruct I as [->|I], J as [->|J]; auto.
  - exfalso. apply H1. apply in_map_iff. eauto.
  - exfalso. apply H1. apply in_map_iff. eauto.
Qed.

(* ---- lines ---- *)

Lemma lines_acc : forall text acc, ~ In 10%Z acc ->
  lines acc text = match cut 10 text with
                   | Some (l, r) => (rev acc ++ l) :: lines [] r
                   | None => []
                   end.
Proof.
  induction text as [|c text IH]; intros acc N; cbn [lines cut]; auto.
  destruct (Z.eqb_spec c 10).
  - rewrite app_nil_r. reflexivity.
  - rewrite IH by (intros [E|E]; [congruence|auto]). destruct (cut 10 text) as [[l r]|]; auto.
    cbn [rev]. rewrite <- app_assoc. reflexivity.
Qed.
Lemma lines_cut : forall text,
  lines_of text = match cut 10 text with Some (l, r) => l :: lines_of r | None => [] end.
Proof. intros. unfold lines_of. rewrite lines_acc by auto. reflexivity. Qed.

Definition cur_ok (cs : confs) (name : option (list Z)) (cur : option nat) : Prop :=
  match name, cur with
  | None, None => True
  | Some nm, Some id => exists s, find_section nm cs = Some s /\ se_id s = id
  | _, _ => False
  end.

Lemma good_name_short : forall name, good_name name = true -> length name <= 100.
Proof. intros name H. unfold good_name in H. lia. Qed.

Lemma parse_lines_spec : forall k text pre cs name cur fuel, length text <= k -> length text < fuel -> CI cs -> cur_ok cs name cur ->
  match says name (lines_of text) with
  | Some its => parse_lines fuel (pre ++ text) (length pre) (length text) cs cur 0 = Ok (0%Z, apply its cs) /\ CI (apply its cs)
  | None => exists e cs', parse_lines fuel (pre ++ text) (length pre) (length text) cs cur 0 = Ok (e, cs') /\ (e < 0)%Z
  end.
Proof.
  induction k as [|k IH]; intros text pre cs name cur fuel LK LF C CU.
  - destruct text; [|cbn in LK; lia]. cbn. destruct fuel; [lia|]. cbn. auto.
  - destruct fuel as [|fuel]; [lia|]. rewrite lines_cut.
    cbn [parse_lines]. pose proof (memchr_cut text pre 10 []) as MC. rewrite !app_nil_r in MC. rewrite MC. cbn [bind]. clear MC.
    destruct (cut 10 text) as [[l rest]|] eqn:E; [|cbn [says apply]; auto].
    apply cut_some in E. destruct E as [-> N].
    rewrite app_length in *. cbn [length] in *.
    replace (length pre + length l - length pre) with (length l) by lia.
    replace (length l + S (length rest) - length l - 1) with (length rest) by lia.
    assert (NX : forall cs name cur, CI cs -> cur_ok cs name cur ->
      match says name (lines_of rest) with
      | Some its => parse_lines fuel (pre ++ l ++ 10%Z :: rest) (length pre + length l + 1) (length rest) cs cur 0 = Ok (0%Z, apply its cs) /\ CI (apply its cs)
      | None => exists e cs', parse_lines fuel (pre ++ l ++ 10%Z :: rest) (length pre + length l + 1) (length rest) cs cur 0 = Ok (e, cs') /\ (e < 0)%Z
      end).
    { intros cs0 name0 cur0 C0 CU0. specialize (IH rest (pre ++ l ++ [10%Z]) cs0 name0 cur0 fuel).
      rewrite !app_length in IH. cbn [length] in IH. rewrite <- !app_assoc in IH. cbn [app] in IH.
      replace (length pre + (length l + 1)) with (length pre + length l + 1) in IH by lia. apply IH; auto; lia. }
    cbn [says]. unfold classify at 1. unfold INT_MAX, INT. change (2147483648 - 1)%Z with 2147483647%Z.
    destruct (2147483647 <? Z.of_nat (length l))%Z.
    { exists (- EINVAL)%Z, cs. split; [reflexivity|]. unfold EINVAL; lia. }
    destruct (trim_spec l pre 10%Z rest) as (l1 & l2 & EL & _ & _ & T). rewrite T. cbn [bind].
    pose proof (strip_head l) as SH. pose proof (strip_last l) as SL.
    destruct (strip l) as [|c r] eqn:ST.
    { cbn [length Nat.eqb]. apply NX; auto. }
    cbn [length Nat.eqb].
    assert (M : pre ++ l ++ 10%Z :: rest = (pre ++ l1) ++ (c :: r) ++ (l2 ++ 10%Z :: rest)).
    { rewrite EL at 1. rewrite <- !app_assoc. reflexivity. }
    assert (RC : rd (pre ++ l ++ 10%Z :: rest) (length pre + length l1) = Ok c).
    { rewrite M, <- app_length. apply rd_mid. }
    rewrite RC. cbn [bind].
    destruct ((c =? 59) || (c =? 35))%Z; [apply NX; auto|].
    destruct (Z.eqb_spec c 91) as [->|NB].
    + assert (AS := add_section_spec r (pre ++ l1) (l2 ++ 10%Z :: rest) cs (ci_short cs C)).
      rewrite <- M, app_length in AS. cbn [length] in AS. rewrite AS. cbn [bind]. clear AS.
      destruct (cut 93 r) as [[nm [|? ?]]|].
      * destruct (good_name nm) eqn:G.
        -- assert (C' : CI (snd (enter nm cs))) by (apply enter_CI; [auto|apply good_name_short; auto]).
           destruct (enter_find nm cs) as (s & FS & FI).
           specialize (NX (snd (enter nm cs)) (Some nm) (Some (fst (enter nm cs))) C').
           cbn [cur_ok] in NX. specialize (NX (ex_intro _ s (conj FS FI))).
           destruct (says (Some nm) (lines_of rest)); exact NX.
        -- exists (- EINVAL)%Z, cs. split; [reflexivity|unfold EINVAL; lia].
      * exists (- EINVAL)%Z, cs. split; [reflexivity|unfold EINVAL; lia].
      * exists (- EINVAL)%Z, cs. split; [reflexivity|unfold EINVAL; lia].
    + destruct name as [nm|], cur as [id|]; cbn [cur_ok] in CU; try tauto.
      2:{ destruct (cut 61 (c :: r)) as [[[|? ?] [|? ?]]|]; exists (- EINVAL)%Z, cs; (split; [reflexivity|unfold EINVAL; lia]). }
      destruct CU as (s & FS & FI).
      assert (AC := add_config_spec (c :: r) (pre ++ l1) (l2 ++ 10%Z :: rest) id cs SH SL).
      rewrite <- M, app_length in AC. cbn [length] in AC. rewrite AC. cbn [bind]. clear AC.
      destruct (cut 61 (c :: r)) as [[[|a1 a] [|b1 b]]|]; cbn [bind];
        try (change (- EINVAL <? 0)%Z with true; cbv iota; exists (- EINVAL)%Z, cs; split; [reflexivity|unfold EINVAL; lia]).
      change (0 <? 0)%Z with false. cbv iota.
      set (cs' := upd_section id (put_config (strip (a1 :: a)) (strip (b1 :: b))) cs).
      assert (CU' : cur_ok cs' (Some nm) (Some id)).
      { cbn [cur_ok]. unfold cs'. rewrite upd_find, FS. eexists. split; [reflexivity|]. destruct (se_id s =? id); auto. }
      specialize (NX cs' (Some nm) (Some id) (upd_CI _ _ _ C) CU').
      destruct (says (Some nm) (lines_of rest)) as [its|]; [|exact NX].
      cbn [apply]. rewrite FS. rewrite FI. exact NX.
Qed.

Theorem parse_file_spec : forall text cs, CI cs ->
  match meaning text with
  | Some its => parse_file text cs = Ok (0%Z, apply its cs) /\ CI (apply its cs)
  | None => exists e cs', parse_file text cs = Ok (e, cs') /\ (e < 0)%Z
  end.
Proof.
  intros. unfold parse_file, meaning. apply (parse_lines_spec (length text) text [] cs None None); auto.
  exact Logic.I.
Qed.
