(* C42-C46: creation, retention and finalisation of log files. *)
From Verif Require Import Base Mav Frame Names NamesProofs Sys LogFile LogFileProofs.
From Coq Require Import Sorting.Permutation Sorting.Sorted.

(* ---- vocabulary -------------------------------------------------------------------------------- *)

(* "<digits>-..." : a numbered file and its index *)
Definition numbered (name : list Z) (i : Z) : Prop :=
  exists ds rest, name = ds ++ 45 :: rest /\ digit_str ds /\ ds <> [] /\ dec_val 0 ds = i /\ 0 <= i < 4294967296.

Lemma numbered_scan : forall n i, numbered n i -> scan_index n = Some i.
Proof.
  intros n i (ds & rest & -> & D & NE & V & R). unfold scan_index.
  rewrite scan_u_digits; auto; [congruence|reflexivity|lia].
Qed.

Lemma log_name_numbered : forall i t ext, 0 <= i < 4294967296 -> numbered (log_name i t ext) i.
Proof.
  intros. unfold log_name. exists (print_pad 5 i). eexists. split; [reflexivity|].
  split. { apply print_pad_digits. lia. } split. { apply print_pad_nonempty. }
  split; auto. apply print_pad_value. auto.
Qed.

(* a number as scanf's %u reads it: white space, a sign, digits; the value is taken modulo 2^32, or is 2^32-1 if it does
   not fit 64 bits *)
Definition number (s : list Z) (i : Z) : Prop :=
  exists ws sign ds, s = ws ++ sign ++ ds /\ Forall (fun c => is_space c = true) ws /\ (sign = [] \/ sign = [43] \/ sign = [45]) /\
    digit_str ds /\ ds <> [] /\
    i = if dec_val 0 ds <? 2 ^ 64 then (if list_eq_dec Z.eq_dec sign [45] then - dec_val 0 ds else dec_val 0 ds) mod 2 ^ 32 else 2 ^ 32 - 1.
(* the naming pattern of logs: <index>-<year>-<month>-<day>_<hour>-<minute>-<second> and anything behind *)
Definition log_pattern (name : list Z) (i : Z) : Prop :=
  exists a b c d e f g rest, name = a ++ 45 :: b ++ 45 :: c ++ 45 :: d ++ 95 :: e ++ 45 :: f ++ 45 :: g ++ rest /\
    number a i /\ forall s, In s [b; c; d; e; f; g] -> exists n, number s n.

Lemma scan_u_number : forall s i r, number s i -> no_digit_head r -> scan_u (s ++ r) = Some (i, r).
Proof.
  intros s i r (ws & sg & ds & -> & W & SG & D & NE & ->) N. unfold scan_u.
  assert (SK : skip_space ((ws ++ sg ++ ds) ++ r) = sg ++ ds ++ r).
  { rewrite <- !app_assoc. clear - W SG D NE. induction W as [|c ws C W IH]; cbn [app skip_space].
    - destruct SG as [-> | [-> | ->]]; cbn [app]; auto. destruct ds as [|c ds]; [congruence|]. inversion D; subst.
      destruct (digit_not_space c H1) as (S1 & _). cbn [app skip_space]. rewrite S1. auto.
    - rewrite C. auto. }
  rewrite SK. clear SK. destruct ds as [|c ds]; [congruence|]. pose proof D as D2. inversion D2; subst.
  destruct (digit_not_space c H1) as (S1 & S2 & S3). pose proof (scan_digits_app (c :: ds) 0 r D N) as SD.
  destruct SG as [-> | [-> | ->]]; cbn [app Z.eqb Pos.eqb]; rewrite ?S2, ?S3, H1; change (c :: ds ++ r) with ((c :: ds) ++ r); rewrite SD;
    change 18446744073709551616 with (2 ^ 64); unfold u32;
    destruct (Z.leb_spec (2 ^ 64) (dec_val 0 (c :: ds))), (Z.ltb_spec (dec_val 0 (c :: ds)) (2 ^ 64)); try lia; try reflexivity.
Qed.
Lemma scan_digits_split : forall s acc v r, scan_digits acc s = (v, r) -> exists ds, s = ds ++ r /\ digit_str ds /\ v = dec_val acc ds /\ no_digit_head r.
Proof.
  induction s as [|c s IH]; intros acc v r H; cbn [scan_digits] in H.
  - inversion H; subst. exists []. repeat split; auto. constructor.
  - destruct (is_digit c) eqn:C.
    + destruct (IH _ _ _ H) as (ds & -> & D & -> & N). exists (c :: ds). repeat split; auto. constructor; auto.
    + inversion H; subst. exists []. repeat split; auto. constructor.
Qed.
Lemma skip_space_split : forall s, exists ws, s = ws ++ skip_space s /\ Forall (fun c => is_space c = true) ws.
Proof.
  induction s as [|c s (ws & E & W)]; cbn [skip_space]. { exists []. auto. }
  destruct (is_space c) eqn:C; [|exists []; auto]. exists (c :: ws). cbn [app]. rewrite <- E. auto.
Qed.
Lemma scan_u_split : forall s i r, scan_u s = Some (i, r) -> exists a, s = a ++ r /\ number a i /\ no_digit_head r.
Proof.
  intros s i r H. unfold scan_u in H. destruct (skip_space_split s) as (ws & E & W). set (q := skip_space s) in *. clearbody q.
  assert (K : forall sg ds0 (neg : bool), q = sg ++ ds0 -> (sg = [] /\ neg = false \/ sg = [43] /\ neg = false \/ sg = [45] /\ neg = true) ->
    match ds0 with [] => None | c :: _ => if is_digit c then let (v, r) := scan_digits 0 ds0 in
      if 18446744073709551616 <=? v then Some (4294967295, r) else Some (u32 (if neg then - v else v), r) else None end = Some (i, r) ->
    exists a, s = a ++ r /\ number a i /\ no_digit_head r).
  { clear H. intros sg ds0 neg Q SG H. destruct ds0 as [|c ds0]; [discriminate|]. destruct (is_digit c) eqn:C; [|discriminate].
    destruct (scan_digits 0 (c :: ds0)) as [v r'] eqn:SD. destruct (scan_digits_split _ _ _ _ SD) as (ds & ED & D & -> & N).
    assert (NE : ds <> []). { intros ->. cbn [app] in ED. subst r'. cbn in N. congruence. }
    change 18446744073709551616 with (2 ^ 64) in H.
    assert (RR : r' = r) by (destruct (2 ^ 64 <=? dec_val 0 ds); inversion H; auto). subst r'.
    exists (ws ++ sg ++ ds). split. { rewrite E, Q, ED, <- !app_assoc. auto. }
    split; auto. exists ws, sg, ds. split; auto. split; auto. split. { destruct SG as [[-> _]|[[-> _]|[-> _]]]; auto. } split; auto. split; auto.
    unfold u32 in H. destruct (Z.leb_spec (2 ^ 64) (dec_val 0 ds)), (Z.ltb_spec (dec_val 0 ds) (2 ^ 64)); try lia; inversion H; auto.
    destruct SG as [[-> ->]|[[-> ->]|[-> ->]]]; reflexivity. }
  destruct q as [|c q]; [discriminate|]. destruct (Z.eqb_spec c 45) as [->|]; [|destruct (Z.eqb_spec c 43) as [->|]].
  - apply (K [45] q true); auto 10.
  - apply (K [43] q false); auto 10.
  - apply (K [] (c :: q) false); auto 10.
Qed.
Lemma scan_uc_split : forall ch s r, scan_uc ch s = Some r -> exists q a n, s = Some q /\ q = a ++ ch :: r /\ number a n.
Proof.
  intros ch [q|] r H; cbn [scan_uc] in H; [|discriminate]. destruct (scan_u q) as [[n q']|] eqn:S; [|discriminate].
  destruct (scan_u_split _ _ _ S) as (a & -> & N & _). destruct q' as [|c q']; cbn [scan_c] in H; [discriminate|]. destruct (Z.eqb_spec c ch); [|discriminate].
  inversion H; subst. exists (a ++ ch :: r), a, n. auto.
Qed.
Theorem scan_log_pattern : forall name i, scan_log name = Some i <-> log_pattern name i.
Proof.
  intros name i. split.
  - unfold scan_log. intros H. destruct (scan_u name) as [[idx r]|] eqn:S; [|discriminate].
    destruct (scan_uc 45 _) as [r7|] eqn:U6; [|discriminate]. destruct (scan_u r7) as [[n7 rest]|] eqn:S7; [|discriminate].
    inversion H; subst idx. clear H.
    destruct (scan_uc_split _ _ _ U6) as (q6 & f & nf & U5 & E6 & F6). destruct (scan_uc_split _ _ _ U5) as (q5 & e & ne & U4 & E5 & F5).
    destruct (scan_uc_split _ _ _ U4) as (q4 & d & nd & U3 & E4 & F4). destruct (scan_uc_split _ _ _ U3) as (q3 & c & nc & U2 & E3 & F3).
    destruct (scan_uc_split _ _ _ U2) as (q2 & b & nb & U1 & E2 & F2). destruct (scan_u_split _ _ _ S) as (a & E1 & F1 & _).
    destruct (scan_u_split _ _ _ S7) as (g & E7 & F7 & _).
    destruct r as [|ch r]; cbn [scan_c] in U1; [discriminate|]. destruct (Z.eqb_spec ch 45); [|discriminate]. inversion U1; subst.
    exists a, b, c, d, e, f, g, rest. split; auto. split; auto.
    intros s [<-|[<-|[<-|[<-|[<-|[<-|[]]]]]]]; eauto.
  - intros (a & b & c & d & e & f & g & rest & -> & A & N). unfold scan_log.
    assert (U : forall s ch r n, number s n -> is_digit ch = false -> scan_uc ch (Some (s ++ ch :: r)) = Some r).
    { intros s ch r n NS C. cbn [scan_uc]. rewrite (scan_u_number s n (ch :: r)); auto. unfold scan_c. rewrite Z.eqb_refl. auto. }
    rewrite (scan_u_number a i (45 :: _)); auto; [|reflexivity]. unfold scan_c at 1. rewrite Z.eqb_refl.
    destruct (N b) as (nb & NB); [cbn; auto 10|]. destruct (N c) as (nc & NC); [cbn; auto 10|]. destruct (N d) as (nd & ND); [cbn; auto 10|].
    destruct (N e) as (ne & NE); [cbn; auto 10|]. destruct (N f) as (nf & NF); [cbn; auto 10|]. destruct (N g) as (ng & NG); [cbn; auto 10|].
    cbv iota beta. rewrite (U b 45 _ nb), (U c 45 _ nc), (U d 95 _ nd), (U e 45 _ ne), (U f 45 _ nf); auto.
    destruct NG as (ws & sg & ds & -> & W & SG & D & NE' & _).
    (* digits may follow in the rest *)
    destruct (scan_digits 0 rest) as [v r'] eqn:SD. destruct (scan_digits_split _ _ _ _ SD) as (ds' & -> & D' & _ & NH).
    assert (G : exists n, number (ws ++ sg ++ ds ++ ds') n).
    { eexists. exists ws, sg, (ds ++ ds'). split; auto. split; auto. split; auto. split; [apply Forall_app; auto|]. split; [|reflexivity].
      intros X. apply app_eq_nil in X. tauto. }
    destruct G as (n & G). replace ((ws ++ sg ++ ds) ++ ds' ++ r') with ((ws ++ sg ++ ds ++ ds') ++ r') by (rewrite <- !app_assoc; auto).
    rewrite (scan_u_number _ _ _ G); auto.
Qed.
(* a name that starts with a number *)
Definition indexed (name : list Z) (i : Z) : Prop := exists a r, name = a ++ r /\ no_digit_head r /\ number a i.
Lemma scan_index_spec : forall name i, scan_index name = Some i <-> indexed name i.
Proof.
  intros name i. unfold scan_index. split.
  - intros H. destruct (scan_u name) as [[v r]|] eqn:S; inversion H; subst.
    destruct (scan_u_split _ _ _ S) as (a & E & N & D). exists a, r. auto.
  - intros (a & r & -> & D & N). rewrite (scan_u_number _ _ _ N); auto.
Qed.
Lemma log_name_pattern : forall i t ext, 0 <= i < 4294967296 -> stamp_ok t -> log_pattern (log_name i t ext) i.
Proof. intros. apply scan_log_pattern, scan_log_name; auto. Qed.

Lemma add_timer_fs : forall v y ms cb r y', add_timer v y ms cb = (r, y') ->
  y_fs y' = y_fs y.
Proof. intros v y ms cb r y' H. unfold add_timer in H. destruct (negb _); inversion H; subst; auto. Qed.
Lemma del_timer_fs : forall y id y', del_timer y id = Ok y' -> y_fs y' = y_fs y.
Proof. intros y id y' H. unfold del_timer in H. destruct (has_timer y id); inversion H; subst; auto. Qed.

(* what log_start does to the directory *)
Lemma log_start_dir : forall v y g y' g' ok, log_start v y g = Ok (y', g', ok) -> l_open g = false ->
  exists ns,
    Forall (fun n => exists e, In e (entries (y_fs y)) /\ closed_log e /\ d_name e = n) ns /\
    let l1 := without ns (entries (y_fs y)) in
    (entries (y_fs y') = l1 \/
     exists k t, 0 <= k < 11 /\ stamp_ok t /\ l_name g' = log_name (u32 (get_prefix l1 0 + k)) t (l_ext g) /\
       ~ In (l_name g') (map d_name l1) /\
       (forall q, 0 <= q < k -> In (log_name (u32 (get_prefix l1 0 + q)) t (l_ext g)) (map d_name l1)) /\
       entries (y_fs y') = l1 ++ [mkDirent (l_name g') FReg true []]) /\
    (ok = true -> In (mkDirent (l_name g') FReg true []) (entries (y_fs y'))
                  /\ ~ In (l_name g') (map d_name l1) /\ l_open g' = true).
Proof.
  intros v y g y' g' ok H O. unfold log_start in H. rewrite O in H.
  destruct (delete_old_safe v y g) as (S1 & ns & D & FA). exists ns. split; auto.
  set (y1 := delete_old_logs v y g) in *.
  assert (E1 : entries (y_fs y1) = without ns (entries (y_fs y))).
  { destruct (y_fs y); rewrite D; auto. }
  cbv zeta. rewrite <- E1. clearbody y1.
  destruct (get_file v y1 g) as [r y2] eqn:GF. destruct (get_file_spec _ _ _ _ _ GF) as (S2 & R).
  destruct r as [name|].
  2:{ inversion H; subst. split; [left|discriminate]. destruct R as [R|[R1 R2]]; [congruence|]. rewrite R1, R2. auto. }
  destruct R as (k & t & K & T & N & NI & Q & F). cbv zeta in *.
  assert (L : forall yy gg, y_fs yy = y_fs y2 -> l_name gg = name ->
     (entries (y_fs yy) = entries (y_fs y1) \/
     exists k t, 0 <= k < 11 /\ stamp_ok t /\ l_name gg = log_name (u32 (get_prefix (entries (y_fs y1)) 0 + k)) t (l_ext g) /\
       ~ In (l_name gg) (map d_name (entries (y_fs y1))) /\
       (forall q, 0 <= q < k -> In (log_name (u32 (get_prefix (entries (y_fs y1)) 0 + q)) t (l_ext g)) (map d_name (entries (y_fs y1)))) /\
       entries (y_fs yy) = entries (y_fs y1) ++ [mkDirent (l_name gg) FReg true []])).
  { intros yy gg E N'. right. exists k, t. rewrite N', E, F. cbn [entries]. auto 10. }
  destruct (add_timer v y2 1000 _) as [ts y3] eqn:A1. apply add_timer_fs in A1.
  destruct ts as [ts|].
  2:{ inversion H; subst y' g' ok. split; [|discriminate]. apply L; auto. }
  destruct (add_timer v y3 1000 _) as [tf y4] eqn:A2. apply add_timer_fs in A2.
  destruct tf as [tf|].
  2:{ destruct (del_timer y4 ts) as [y5| |] eqn:D5; cbn [bind] in H; inversion H; subst y' g' ok.
      apply del_timer_fs in D5. split; [|discriminate]. apply L; auto. congruence. }
  inversion H; subst y' g' ok. split. { apply L; auto. congruence. }
  intros _. cbn [l_name l_open set_timeouts set_file]. rewrite A2, A1, F. cbn [entries].
  split; [|split]; auto. apply in_or_app. right. left. auto.
Qed.

(* ---- C42: a new log never replaces an existing file and sorts after all of them ------------------- *)

Theorem C42_new_log_is_new_and_last : forall v y g y' g',
  log_start v y g = Ok (y', g', true) ->
  exists kept idx,
    incl kept (entries (y_fs y)) /\
    entries (y_fs y') = kept ++ [mkDirent (l_name g') FReg true []] /\
    ~ In (l_name g') (map d_name kept) /\
    numbered (l_name g') idx /\
    ((forall e i, In e kept -> indexed (d_name e) i -> i < 4294967295) ->
     forall e i, In e kept -> numbered (d_name e) i -> i < idx).
Proof.
  intros v y g y' g' H.
  assert (O : l_open g = false).
  { unfold log_start in H. destruct (l_open g); auto. inversion H. }
  destruct (log_start_dir _ _ _ _ _ _ H O) as (ns & _ & D & T). specialize (T eq_refl).
  destruct T as (T1 & T2 & _). set (l1 := without ns (entries (y_fs y))) in *.
  destruct D as [D|(k & t & K & ST & N & NI & Q & E)].
  { exfalso. apply T2. rewrite <- D. apply (in_map d_name) in T1. exact T1. }
  exists l1, (u32 (get_prefix l1 0 + k)).
  split. { intros e He. apply filter_In in He. tauto. }
  split; auto. split; auto. split. { rewrite N. apply log_name_numbered. apply u32_range. }
  intros B0 e i He Hn. apply numbered_scan in Hn.
  assert (B : forall e i, In e l1 -> scan_index (d_name e) = Some i -> i < 4294967295) by (intros; eapply B0; eauto; apply scan_index_spec; auto).
  assert (P := get_prefix_range l1 0 ltac:(lia)).
  assert (K0 : k = 0).
  { destruct (Z.eq_dec k 0); auto. exfalso. assert (Hq : 0 <= 0 < k) by lia. apply Q in Hq. rewrite Z.add_0_r, u32_small in Hq by lia.
    apply in_map_iff in Hq. destruct Hq as (e' & E' & I').
    assert (SI : scan_index (d_name e') = Some (get_prefix l1 0)) by (rewrite E'; apply scan_index_name; lia).
    pose proof (B _ _ I' SI). pose proof (get_prefix_above l1 0 e' _ I' SI). lia. }
  subst k. rewrite Z.add_0_r, u32_small by lia. eapply get_prefix_above; eauto.
Qed.

(* ---- C44: retention only ever deletes closed logs --------------------------------------------------- *)

(* Whatever the system calls return: a file that was there before opening a new log and is gone afterwards
   was a read-only non-directory whose name matches the log naming pattern, and every remaining file is
   unchanged. *)
Theorem C44_only_closed_logs_deleted : forall v y g y' g' ok,
  NoDup (map d_name (entries (y_fs y))) ->
  log_start v y g = Ok (y', g', ok) ->
  forall e, In e (entries (y_fs y)) ->
    In e (entries (y_fs y')) \/
    ((exists i, log_pattern (d_name e) i) /\ d_kind e <> FDir /\ d_w e = false).
Proof.
  intros v y g y' g' ok ND H e He.
  destruct (l_open g) eqn:O.
  { unfold log_start in H. rewrite O in H. inversion H; subst. auto. }
  destruct (log_start_dir _ _ _ _ _ _ H O) as (ns & FA & D & _).
  destruct (existsb (beqs (d_name e)) ns) eqn:X.
  - right. apply existsb_exists in X. destruct X as (n & I & E). apply beqs_eq in E. subst n.
    rewrite Forall_forall in FA. destruct (FA _ I) as (e' & I' & C & N).
    assert (e' = e).
    { clear - ND He I' N. revert ND He I'. generalize (entries (y_fs y)) as l.
      induction l as [|a l IH]; intros ND He I'; [destruct He|]. cbn in ND. inversion ND; subst.
      destruct He as [->|He], I' as [->|I']; auto.
      - exfalso. apply H1. rewrite <- N. apply in_map. auto.
      - exfalso. apply H1. rewrite N. apply in_map. auto. }
    subst e'. destruct C as (C & C'). split; auto. destruct (scan_log (d_name e)) as [i|] eqn:SL; [|congruence].
    exists i. apply scan_log_pattern. auto.
  - left. assert (IW : In e (without ns (entries (y_fs y)))).
    { apply filter_In. split; auto. rewrite X. auto. }
    destruct D as [D|(k & t & _ & _ & _ & _ & _ & D)]; rewrite D; auto. apply in_or_app. auto.
Qed.

(* ---- C43: oldest first and no more than needed ---------------------------------------------------------- *)

Definition size_of (e : dirent) : Z := Z.of_nat (length (d_data e)).
Definition sizes (l : list dirent) : Z := fold_right Z.add 0 (map size_of l).

Lemma total_rec : forall l, total (map rec_of l) = sizes l.
Proof. induction l; cbn; auto. rewrite IHl. reflexivity. Qed.

Lemma firstn_map_rec : forall k l, map (fun p => fst (snd p)) (firstn k (map rec_of l)) = map d_name (firstn k l).
Proof. induction k; intros [|e l]; cbn; auto. f_equal. auto. Qed.

Lemma sizes_perm : forall a b, Permutation a b -> sizes a = sizes b.
Proof. intros a b P. unfold sizes. induction P; cbn in *; lia. Qed.

(* the closed logs of a directory, oldest (smallest index) first *)
Definition by_age (l sorted : list dirent) : Prop :=
  Permutation sorted (filter closedb l) /\ StronglySorted Z.lt (map idx_of sorted).

(* the closed logs are the read-only files with a name in the log pattern *)
Theorem C43_closed_logs : forall e,
  (closedb e = true <-> (exists i, log_pattern (d_name e) i) /\ d_kind e <> FDir /\ d_w e = false) /\
  (forall i, log_pattern (d_name e) i -> idx_of e = i).
Proof.
  intros e. split.
  - rewrite closedb_spec. unfold closed_log. split; intros (A & B); split; auto.
    + destruct (scan_log (d_name e)) as [i|] eqn:S; [|congruence]. exists i. apply scan_log_pattern; auto.
    + destruct A as (i & A). apply scan_log_pattern in A. congruence.
  - intros i P. apply scan_log_pattern in P. unfold idx_of. rewrite P. auto.
Qed.
(* every log the program wrote is one of them once it is read-only: its name is in the pattern, with its index *)
Theorem C43_own_logs : forall v y g y' g' e,
  log_start v y g = Ok (y', g', true) -> d_name e = l_name g' -> d_kind e <> FDir -> d_w e = false ->
  closedb e = true /\ log_pattern (l_name g') (idx_of e) /\ numbered (l_name g') (idx_of e).
Proof.
  intros v y g y' g' e H N K W.
  assert (O : l_open g = false). { unfold log_start in H. destruct (l_open g); auto. inversion H. }
  destruct (log_start_dir _ _ _ _ _ _ H O) as (ns & _ & D & T). specialize (T eq_refl). destruct T as (T1 & T2 & _).
  destruct D as [D|(k & t & _ & ST & NM & _)].
  { exfalso. apply T2. cbv zeta in D. rewrite <- D. apply (in_map d_name) in T1. exact T1. }
  cbv zeta in NM. set (i := u32 _) in NM. assert (I : 0 <= i < 4294967296) by (apply u32_range). clearbody i.
  assert (P : log_pattern (l_name g') i) by (rewrite NM; apply log_name_pattern; auto).
  assert (IX : idx_of e = i) by (apply C43_closed_logs; rewrite N; auto). rewrite IX.
  split. { apply C43_closed_logs. rewrite N. eauto. } split; auto. rewrite NM. apply log_name_numbered; auto.
Qed.

Theorem C43_oldest_first_and_minimal : forall v y g l,
  y_fs y = Some l -> calls_ok v y -> NoDup (map idx_of (filter closedb l)) ->
  let free := v_orc v (y_pos y) in
  free < 4611686018427387904 -> 0 <= l_minfree g < 4611686018427387904 -> 0 <= l_maxlogs g < 4611686018427387904 ->
  sizes (filter closedb l) + free < 4611686018427387904 -> Z.of_nat (length l) < 4611686018427387904 ->
  exists sorted k, by_age l sorted /\ (k <= length sorted)%nat /\
    y_fs (delete_old_logs v y g) = Some (without (map d_name (firstn k sorted)) l) /\
    let n := Z.of_nat (length sorted) in
    (* one more deletion was needed at every step *)
    (forall j, (j < k)%nat -> free + sizes (firstn j sorted) < l_minfree g \/
                              (0 < l_maxlogs g /\ l_maxlogs g < n - Z.of_nat j)) /\
    (* afterwards both limits are met, or no closed log is left *)
    (k = length sorted \/
     (l_minfree g <= free + sizes (firstn k sorted) /\ (0 < l_maxlogs g -> n - Z.of_nat k <= l_maxlogs g))).
Proof.
  intros v y g l F K ND free FR MF ML SZ LN. unfold delete_old_logs, ask. fold free.
  assert (F0 : 0 <= free) by (apply K; lia).
  set (y0 := set_pos y (Datatypes.S (y_pos y))). set (y1 := set_pos y0 (Datatypes.S (y_pos y0))).
  destruct (Z.eqb_spec free (-2)); [lia|].
  destruct (Z.leb_spec 0 free); [|lia]. rewrite u64_small by lia.
  assert (SORT : forall m y2, collect v y1 l [] = (m, y2) -> exists sorted, m = map rec_of sorted /\ by_age l sorted).
  { intros m y2 CL.
    assert (P := collect_all v l y1 [] m y2 CL). cbn [app map] in P. 
    assert (Pm : Permutation m (map rec_of (filter closedb l))).
    { apply P; auto. eapply calls_ok_step; eauto. cbn. lia. }
    apply Permutation_map_inv in Pm. destruct Pm as (sorted & -> & PS). exists sorted. split; auto. split; auto. { symmetry; auto. }
    destruct (collect_spec v l l y1 [] _ y2 CL) as (_ & _ & _ & KS); [apply incl_refl|constructor|constructor|].
    unfold keys_sorted in KS. rewrite map_map in KS. cbn [rec_of fst] in KS. exact KS. }
  assert (K1 : calls_ok v y1) by (eapply calls_ok_step; eauto; cbn; lia).
  destruct ((l_minfree g <? free) && (l_maxlogs g =? 0)) eqn:EARLY.
  { destruct (collect v y1 l []) as [m y2] eqn:CL. destruct (SORT _ _ eq_refl) as (sorted & _ & BA).
    exists sorted, O. split; auto. split; [lia|]. cbn [firstn map]. rewrite without_nil. split; auto.
    cbv zeta. split; [intros j Hj; lia|]. right. unfold sizes. cbn [map fold_right]. lia. }
  change (y_fs y1) with (y_fs y). rewrite F.
  destruct (Z.ltb_spec (v_orc v (y_pos y0)) 0) as [X|_]; [pose proof (K (y_pos y0)); cbn in *; lia|].
  destruct (collect v y1 l []) as [m y2] eqn:CL. destruct (SORT _ _ eq_refl) as (sorted & -> & BA).
  destruct (collect_spec v l l y1 [] _ y2 CL) as (S2 & F2 & _ & _); [apply incl_refl|constructor|constructor|].
  change (y_fs y1) with (y_fs y) in F2. rewrite F in F2.
  assert (LS : (length sorted <= length l)%nat).
  { destruct BA as [P _]. rewrite (Permutation_length P). clear. induction l; cbn; auto. destruct (closedb a); cbn; lia. }
  assert (SS : sizes sorted = sizes (filter closedb l)) by (apply sizes_perm; apply BA).
  assert (NN : 0 <= sizes sorted).
  { clear. induction sorted as [|a q IH]; [cbn; lia|]. unfold sizes in *. cbn [map fold_right]. unfold size_of at 1. lia. }
  rewrite !s64_small by (rewrite ?map_length; lia).
  rewrite map_length.
  set (ftd := if 0 <? l_maxlogs g then Z.of_nat (length sorted) - l_maxlogs g else -1).
  assert (FT : (if 0 <? l_maxlogs g then s64 (Z.of_nat (length sorted) - l_maxlogs g) else -1) = ftd).
  { unfold ftd. destruct (0 <? l_maxlogs g); auto. apply s64_small. lia. }
  destruct (delete_loop_exact v (map rec_of sorted) y2 (l_minfree g - free) ftd l) as (k & A & B & C & D); auto.
  { eapply calls_ok_step; eauto. apply S2. }
  { apply Forall_forall. intros p Hp. apply in_map_iff in Hp. destruct Hp as (e & <- & _). cbn. lia. }
  { rewrite total_rec. lia. }
  { lia. }
  rewrite map_length in A, D.
  exists sorted, k. split; auto. split; auto. split.
  { rewrite <- firstn_map_rec. rewrite <- B. unfold ftd. destruct (0 <? l_maxlogs g); auto. }
  assert (FM : forall j, total (firstn j (map rec_of sorted)) = sizes (firstn j sorted)).
  { intros j. rewrite firstn_map, total_rec. auto. }
  cbv zeta. split.
  - intros j Hj. specialize (C j Hj). rewrite FM in C. unfold ftd in C. destruct (Z.ltb_spec 0 (l_maxlogs g)); lia.
  - destruct D as [D|[D1 D2]]; [left; auto|right]. rewrite FM in D1. unfold ftd in D2. destruct (Z.ltb_spec 0 (l_maxlogs g)); lia.
Qed.

(* at most MaxLogFiles closed logs remain *)
Theorem C43_count_limit : forall v y g l,
  y_fs y = Some l -> calls_ok v y -> NoDup (map idx_of (filter closedb l)) -> NoDup (map d_name l) ->
  let free := v_orc v (y_pos y) in
  free < 4611686018427387904 -> 0 <= l_minfree g < 4611686018427387904 -> 0 < l_maxlogs g < 4611686018427387904 ->
  sizes (filter closedb l) + free < 4611686018427387904 -> Z.of_nat (length l) < 4611686018427387904 ->
  Z.of_nat (length (filter closedb (entries (y_fs (delete_old_logs v y g))))) <= l_maxlogs g.
Proof.
  intros v y g l F K ND NN free FR MF ML SZ LN.
  destruct (C43_oldest_first_and_minimal v y g l F K ND) as (sorted & k & (P & S) & KL & E & _ & D); auto; try (fold free; lia).
  rewrite E. cbn [entries].
  assert (LEN : (length (filter closedb (without (map d_name (firstn k sorted)) l)) + k <= length sorted)%nat).
  { rewrite (Permutation_length P).
    set (ns := map d_name (firstn k sorted)).
    assert (ND2 : NoDup ns).
    { unfold ns. assert (NoDup (map d_name sorted)).
      { apply (Permutation_NoDup (l := map d_name (filter closedb l))). { symmetry. apply Permutation_map; auto. }
        clear - NN. induction l as [|a l IH]; cbn in *; [constructor|]. inversion NN; subst. destruct (closedb a); auto. cbn. constructor; auto.
        intros X. apply H1. apply in_map_iff in X. destruct X as (b & <- & X). apply filter_In in X. apply in_map. tauto. }
      rewrite <- (firstn_skipn k sorted) in H. rewrite map_app in H. clear - H.
      induction (map d_name (firstn k sorted)) as [|a q IH]; [constructor|]. cbn in H. inversion H; subst. constructor; auto.
      intros X. apply H2. apply in_or_app; auto. }
    assert (LK : length ns = k) by (unfold ns; rewrite map_length, firstn_length; lia).
    assert (IN : incl ns (map d_name (filter closedb l))).
    { unfold ns. intros n Hn. apply in_map_iff in Hn. destruct Hn as (e & <- & He).
      apply in_map. apply (Permutation_in _ P). rewrite <- (firstn_skipn k sorted). apply in_or_app; auto. }
    rewrite <- LK. rewrite <- (map_length d_name (filter closedb l)).
    rewrite <- (map_length d_name (filter closedb (without ns l))). rewrite <- app_length.
    apply NoDup_incl_length.
    - assert (NDW : NoDup (map d_name (filter closedb (without ns l)))).
      { clear - NN. induction l as [|a l IH]; cbn in *; [constructor|]. inversion NN; subst.
        destruct (existsb (beqs (d_name a)) ns); cbn; auto. destruct (closedb a); cbn; auto. constructor; auto.
        intros X. apply H1. apply in_map_iff in X. destruct X as (b & <- & X). apply filter_In in X. destruct X as [X _].
        apply filter_In in X. apply in_map. tauto. }
      assert (DIS : forall n, In n (map d_name (filter closedb (without ns l))) -> ~ In n ns).
      { intros n Hn X. apply in_map_iff in Hn. destruct Hn as (e & <- & He). apply filter_In in He. destruct He as [He _].
        apply filter_In in He. destruct He as [_ He]. rewrite negb_true_iff in He.
        assert (existsb (beqs (d_name e)) ns = true); [|congruence]. apply existsb_exists. exists (d_name e). split; auto. apply beqs_refl. }
      clear - NDW DIS ND2. induction (map d_name (filter closedb (without ns l))) as [|a q IH]; cbn; auto.
      inversion NDW; subst. constructor.
      + intros X. apply in_app_or in X. destruct X; auto. apply (DIS a); cbn; auto.
      + apply IH; auto. intros n Hn. apply DIS. right; auto.
    - intros n Hn. apply in_app_or in Hn. destruct Hn as [Hn|Hn]; [|apply IN; auto].
      apply in_map_iff in Hn. destruct Hn as (e & <- & He). apply in_map. apply filter_In in He. apply filter_In. split; [|tauto].
      destruct He as [He _]. apply filter_In in He. tauto. }
  destruct D as [D|[_ D]].
  - lia.
  - specialize (D ltac:(lia)). lia.
Qed.

(* ---- C45: a failing free-space query does not delete logs: refuted ------------------------------------- *)

Definition ex_stamp : stamp := mkStamp 2024 5 17 12 30 59.
Definition ex_log (i : Z) (w : bool) (data : list Z) : dirent := mkDirent (log_name i ex_stamp [98; 105; 110]) FReg w data.
Definition ex_dir : list dirent := [ex_log 3 false [1; 2; 3]; ex_log 1 false [1; 2]; ex_log 2 false [7];
  mkDirent [110; 111; 116; 101; 115] FReg false [0]; ex_log 4 true []].
Definition ex_sys (l : list dirent) : sys := mkSys 0 [] 0 (Some l) 0.
Definition ex_lg (minfree maxlogs : Z) : lg := lg_new 0 [98; 105; 110] minfree maxlogs MAlways (-1).
Definition ex_env (orc : nat -> Z) : env := mkEnv (fun _ => None) (fun _ => 0) orc (fun _ => true).

(* statvfs fails with EIO (-5), everything else works; three closed logs, ten allowed *)
Theorem C45_query_failure_refuted : exists v y g,
  v_orc v (y_pos y) = -5 /\ (forall n, (y_pos y < n)%nat -> 0 <= v_orc v n) /\
  0 < l_maxlogs g /\ Z.of_nat (length (filter closedb (entries (y_fs y)))) <= l_maxlogs g /\
  (length (entries (y_fs (delete_old_logs v y g))) < length (entries (y_fs y)))%nat.
Proof.
  exists (ex_env (fun n => match n with O => -5 | _ => 1 end)), (ex_sys ex_dir), (ex_lg 4 10).
  split; [reflexivity|]. split. { intros [|n] H; cbn in *; lia. }
  split; [cbn; lia|]. vm_compute. split; [discriminate|]. repeat constructor.
Qed.

(* without a file-count limit nothing is deleted when the query fails *)
Theorem C45_query_failure_partial : forall v y g,
  v_orc v (y_pos y) < 0 -> l_maxlogs g = 0 -> l_minfree g < 18446744073709551615 ->
  y_fs (delete_old_logs v y g) = y_fs y.
Proof.
  intros v y g E M F. unfold delete_old_logs, ask. cbn [y_fs set_pos].
  destruct (v_orc v (y_pos y) =? -2); auto.
  destruct (Z.leb_spec 0 (v_orc v (y_pos y))); [lia|]. rewrite M.
  destruct (Z.ltb_spec (l_minfree g) 18446744073709551615); [|lia]. reflexivity.
Qed.

(* ---- C46: unfinished logs are closed at start-up ------------------------------------------------------------ *)

(* nothing is deleted, renamed or modified, and only regular numbered files change at all *)
Theorem C46_nothing_else_changes : forall v y,
  Forall2 (fun e e' => d_name e' = d_name e /\ d_kind e' = d_kind e /\ d_data e' = d_data e /\
                       (e' = e \/ (d_w e' = false /\ d_kind e = FReg /\ exists i, indexed (d_name e) i)))
          (entries (y_fs y)) (entries (y_fs (mark_unfinished_logs v y))).
Proof.
  intros v y. unfold mark_unfinished_logs, ask. cbn [y_fs set_pos].
  assert (R : forall l, Forall2 (fun e e' => d_name e' = d_name e /\ d_kind e' = d_kind e /\ d_data e' = d_data e /\
                       (e' = e \/ (d_w e' = false /\ d_kind e = FReg /\ exists i, indexed (d_name e) i))) l l).
  { induction l; constructor; auto. }
  destruct (y_fs y) as [l|] eqn:F.
  2:{ cbn [y_fs set_pos]. rewrite F. constructor. }
  destruct (0 <=? v_orc v (y_pos y)).
  2:{ cbn [y_fs set_pos]. rewrite F. apply R. }
  destruct (mark_entries v _ l) as [l' y'] eqn:E. destruct (mark_entries_spec _ _ _ _ _ E) as (_ & _ & A & _).
  cbn [entries y_fs set_fs]. clear - A. induction A as [|a b q q' H A IH]; constructor; auto.
  destruct H as [->|(-> & K & i & I)]; auto. cbn. repeat split; auto. right. repeat split; auto. exists i. apply scan_index_spec. auto.
Qed.

(* if the calls succeed every regular numbered file is read-only afterwards *)
Theorem C46_all_closed : forall v y, calls_ok v y ->
  forall e i, In e (entries (y_fs (mark_unfinished_logs v y))) ->
    d_kind e = FReg -> numbered (d_name e) i -> d_w e = false.
Proof.
  intros v y K e i H KR N. apply numbered_scan in N. revert H. unfold mark_unfinished_logs, ask. cbn [y_fs set_pos].
  destruct (y_fs y) as [l|] eqn:F.
  2:{ cbn [y_fs set_pos]. rewrite F. intros []. }
  destruct (Z.leb_spec 0 (v_orc v (y_pos y))) as [_|X]; [|pose proof (K (y_pos y)); lia].
  destruct (mark_entries v _ l) as [l' y'] eqn:E. destruct (mark_entries_spec _ _ _ _ _ E) as (_ & _ & _ & A).
  cbn [entries y_fs set_fs]. intros H.
  assert (K' : calls_ok v (set_pos y (Datatypes.S (y_pos y)))) by (eapply calls_ok_step; eauto; cbn; lia).
  specialize (A K'). rewrite Forall_forall in A. apply A; auto; congruence.
Qed.

(* ---- non-vacuity ------------------------------------------------------------------------------------------------ *)

Definition ok_env : env := ex_env (fun n => match n with O => 2 | _ => 1 end).

Example ex_calls_ok : calls_ok ok_env (ex_sys ex_dir).
Proof. intros [|n] _; cbn; lia. Qed.
Example ex_hyps : NoDup (map idx_of (filter closedb ex_dir)) /\ NoDup (map d_name ex_dir) /\
  sizes (filter closedb ex_dir) = 6.
Proof.
  split; [|split]; [vm_compute; repeat constructor; cbn; intuition; discriminate|
                    vm_compute; repeat constructor; cbn; intuition; discriminate|reflexivity].
Qed.
(* free space 2, wanted 4: the oldest log (2 bytes) goes; the count limit 1 also takes the second *)
Example ex_delete_bytes : entries (y_fs (delete_old_logs ok_env (ex_sys ex_dir) (ex_lg 4 0))) =
  [ex_log 3 false [1; 2; 3]; ex_log 2 false [7]; mkDirent [110; 111; 116; 101; 115] FReg false [0]; ex_log 4 true []].
Proof. vm_compute. reflexivity. Qed.
Example ex_delete_count : entries (y_fs (delete_old_logs ok_env (ex_sys ex_dir) (ex_lg 4 1))) =
  [ex_log 3 false [1; 2; 3]; mkDirent [110; 111; 116; 101; 115] FReg false [0]; ex_log 4 true []].
Proof. vm_compute. reflexivity. Qed.
Example ex_start : exists y' g', log_start ok_env (ex_sys ex_dir) (ex_lg 4 1) = Ok (y', g', true) /\
  scan_index (l_name g') = Some 5 /\ length (entries (y_fs y')) = 4%nat.
Proof. eexists. eexists. split; [vm_compute; reflexivity|]. vm_compute. auto. Qed.
Example ex_mark : map d_w (entries (y_fs (mark_unfinished_logs ok_env (ex_sys ex_dir)))) = [false; false; false; false; false].
Proof. vm_compute. reflexivity. Qed.

Print Assumptions C42_new_log_is_new_and_last.
Print Assumptions C43_oldest_first_and_minimal.
Print Assumptions C43_count_limit.
Print Assumptions C43_closed_logs.
Print Assumptions C43_own_logs.
Print Assumptions C44_only_closed_logs_deleted.
Print Assumptions C45_query_failure_refuted.
Print Assumptions C45_query_failure_partial.
Print Assumptions C46_nothing_else_changes.
Print Assumptions C46_all_closed.
