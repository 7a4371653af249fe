From Verif Require Import Base Frame Accept SpecAccept.

Lemma contains_In : forall l x, contains l x = true <-> In x l.
Proof.
  intros. unfold contains. rewrite existsb_exists. split.
  - intros (y & H & E). apply Z.eqb_eq in E. subst; auto.
  - intros H. exists x. split; auto. apply Z.eqb_refl.
Qed.

Lemma contains_notIn : forall l x, contains l x = false <-> ~ In x l.
Proof. intros. rewrite <- contains_In. destruct (contains l x); split; congruence. Qed.

Lemma discard_passes : forall a b x, discard a b x = false <-> passes a b x.
Proof.
  intros. unfold discard, passes. destruct a as [|a0 a], b as [|b0 b]; cbn [is_empty negb andb orb].
  - split; [intros _; split; [left; reflexivity|intros []]|reflexivity].
  - rewrite contains_notIn. intuition.
  - rewrite orb_false_r, negb_false_iff, contains_In. split.
    + intros H. split; auto.
    + intros [[H|H] _]; [discriminate|auto].
  - rewrite orb_false_iff, negb_false_iff, contains_In, contains_notIn. split.
    + intros [H1 H2]. auto.
    + intros [[H|H] H2]; [discriminate|auto].
Qed.

(* the addresses behind the packed list *)
Definition known (ids : list Z) (a : address) : Prop := In (fst a * 256 + snd a) ids.

(* targets in the model are -1 or a byte *)
Definition field (z : Z) : option Z := if z =? -1 then None else Some z.
Definition letter_of (m : minfo) : letter :=
  mkLetter (m_id m) (m_ssys m, m_scomp m) (field (m_tsys m)) (field (m_tcomp m)).

(* what every packet and every logger message satisfies *)
Definition wf_meta (m : minfo) : Prop :=
  is_byte (m_ssys m) /\ is_byte (m_scomp m) /\ -1 <= m_tsys m < 256 /\ -1 <= m_tcomp m < 256 /\
  0 <= m_id m < 16777216.

Definition wf_ids (ids : list Z) : Prop := Forall (fun id => 0 <= id < 65536) ids.

Lemma has_sys_comp_id_known : forall ids s c, is_byte s -> is_byte c ->
  (has_sys_comp_id ids s c = true <-> known ids (s, c)).
Proof.
  intros. unfold has_sys_comp_id, known. rewrite !u8_small by auto. rewrite contains_In. reflexivity.
Qed.

Lemma has_sys_id_known : forall ids s, wf_ids ids -> is_byte s ->
  (has_sys_id ids s = true <-> exists c, is_byte c /\ known ids (s, c)).
Proof.
  intros ids s W B. unfold has_sys_id, known. rewrite existsb_exists. rewrite u8_small by auto. split.
  - intros (id & HI & E). apply Z.eqb_eq in E. exists (id mod 256).
    unfold wf_ids in W. rewrite Forall_forall in W. specialize (W _ HI).
    split. { unfold is_byte. apply Z.mod_pos_bound; lia. }
    cbn [fst snd]. rewrite <- E. replace (id / 256 * 256 + id mod 256) with id; auto.
    pose proof (Z.div_mod id 256). lia.
  - intros (c & Bc & HI). exists (s * 256 + c). cbn [fst snd] in HI. split; auto.
    apply Z.eqb_eq. symmetry. unfold is_byte in *. apply Z.div_unique with c; lia.
Qed.

Definition out_ok (f : filters) (l : letter) : Prop :=
  passes (f_allow_msg_out f) (f_block_msg_out f) (lt_id l) /\
  passes (f_allow_comp_out f) (f_block_comp_out f) (snd (lt_from l)) /\
  passes (f_allow_sys_out f) (f_block_sys_out f) (fst (lt_from l)).

Definition in_ok (f : filters) (l : letter) : Prop :=
  passes (f_allow_msg_in f) (f_block_msg_in f) (lt_id l) /\
  passes (f_allow_comp_in f) (f_block_comp_in f) (snd (lt_from l)) /\
  passes (f_allow_sys_in f) (f_block_sys_in f) (fst (lt_from l)).

Lemma wf_known_byte : forall ids s c, wf_ids ids -> is_byte s -> known ids (s, c) -> -(s*256) <= c < 65536 - s*256.
Proof.
  intros ids s c W B H. unfold wf_ids in W. rewrite Forall_forall in W. apply W in H. cbn in H. lia.
Qed.

(* known addresses are meant to have byte components *)
Definition knows (ids : list Z) (a : address) : Prop := is_byte (fst a) /\ is_byte (snd a) /\ known ids a.

Lemma accept_rejected_source : forall sn ids f m, wf_meta m -> wf_ids ids -> knows ids (m_ssys m, m_scomp m) ->
  accept_msg sn ids f m = Rejected.
Proof.
  intros sn ids f m (B1 & B2 & _) W (_ & _ & K). unfold accept_msg.
  apply has_sys_comp_id_known in K; auto. rewrite K. reflexivity.
Qed.

Lemma accept_spec : forall sn ids f m, wf_meta m -> wf_ids ids -> 0 <= sn < 256 ->
  let l := letter_of m in
  match accept_msg sn ids f m with
  | Accepted => ~ knows ids (lt_from l) /\ out_ok f l /\ (addressed_to l (knows ids) \/ sniffs sn (knows ids))
  | Filtered => ~ knows ids (lt_from l) /\ ~ out_ok f l
  | Rejected => knows ids (lt_from l) \/
                (out_ok f l /\ ~ addressed_to l (knows ids) /\ ~ sniffs sn (knows ids))
  end.
Proof.
  intros sn ids f m (B1 & B2 & T1 & T2 & ID) W SN l. unfold accept_msg.
  assert (SRC : has_sys_comp_id ids (m_ssys m) (m_scomp m) = true <-> knows ids (lt_from l)).
  { rewrite has_sys_comp_id_known by auto. unfold knows. cbn. tauto. }
  destruct (has_sys_comp_id ids (m_ssys m) (m_scomp m)) eqn:E1.
  { left. apply SRC. auto. }
  assert (NS : ~ knows ids (lt_from l)) by (intros X; apply SRC in X; discriminate).
  destruct (Z.eqb_spec (m_id m) UINT32_MAX) as [X|_]; [unfold UINT32_MAX in X; lia|]. cbn [negb andb].
  destruct (discard (f_allow_msg_out f) (f_block_msg_out f) (m_id m)) eqn:D1; cbn [orb];
  [split; auto; intros (X & _); apply discard_passes in X; cbn in X; congruence|].
  destruct (discard (f_allow_comp_out f) (f_block_comp_out f) (m_scomp m)) eqn:D2; cbn [orb];
  [split; auto; intros (_ & X & _); apply discard_passes in X; cbn in X; congruence|].
  destruct (discard (f_allow_sys_out f) (f_block_sys_out f) (m_ssys m)) eqn:D3;
  [split; auto; intros (_ & _ & X); apply discard_passes in X; cbn in X; congruence|].
  assert (OUT : out_ok f l).
  { apply discard_passes in D1, D2, D3. split; auto. }
  (* system broadcast *)
  destruct (Z.eqb_spec (m_tsys m) 0) as [Z0|Z0].
  { cbn [orb]. repeat split; try apply OUT; auto. left. left. right. unfold l, letter_of, field; cbn. rewrite Z0. reflexivity. }
  destruct (Z.eqb_spec (m_tsys m) (-1)) as [Zm|Zm].
  { cbn [orb]. repeat split; try apply OUT; auto. left. left. left. unfold l, letter_of, field; cbn. rewrite Zm. reflexivity. }
  cbn [orb].
  assert (TS : lt_tsys l = Some (m_tsys m)).
  { unfold l, letter_of, field; cbn. destruct (Z.eqb_spec (m_tsys m) (-1)); [contradiction|reflexivity]. }
  assert (BT : is_byte (m_tsys m)) by (unfold is_byte; lia).
  assert (TC : (0 <? m_tcomp m) = true -> lt_tcomp l = Some (m_tcomp m) /\ m_tcomp m <> 0 /\ is_byte (m_tcomp m)).
  { intros P. unfold l, letter_of, field; cbn. apply Z.ltb_lt in P. destruct (Z.eqb_spec (m_tcomp m) (-1)); [lia|]. unfold is_byte. repeat split; try lia; reflexivity. }
  assert (BC : (m_tcomp m =? 0) || (m_tcomp m =? -1) = true <-> broadcast_comp l).
  { unfold broadcast_comp, l, letter_of, field; cbn. destruct (Z.eqb_spec (m_tcomp m) (-1)) as [E|E].
    - rewrite orb_true_r. intuition.
    - rewrite orb_false_r, Z.eqb_eq. split; [intros ->; auto|]. intros [H|H]; congruence. }
  assert (HS : forall s, is_byte s -> (has_sys_id ids s = true <-> exists c, knows ids (s, c))).
  { intros s Bs. rewrite has_sys_id_known by auto. unfold knows. cbn [fst snd]. split; intros (c & H); exists c; tauto. }
  assert (HC : forall s c, is_byte s -> is_byte c -> (has_sys_comp_id ids s c = true <-> knows ids (s, c))).
  { intros s c Bs Bc. rewrite has_sys_comp_id_known by auto. unfold knows. cbn [fst snd]. tauto. }
  destruct ((0 <? m_tcomp m) && has_sys_comp_id ids (m_tsys m) (m_tcomp m)) eqn:A1.
  { apply andb_true_iff in A1. destruct A1 as [P K]. destruct (TC P) as (C1 & C2 & C3). apply HC in K; auto.
    split; auto. split; auto. left. right. exists (m_tsys m). split; auto. right. exists (m_tcomp m). auto. }
  destruct (((m_tcomp m =? 0) || (m_tcomp m =? -1)) && has_sys_id ids (m_tsys m)) eqn:A2.
  { apply andb_true_iff in A2. destruct A2 as [P K]. apply BC in P. apply HS in K; auto.
    split; auto. split; auto. left. right. exists (m_tsys m). split; auto. }
  destruct (negb (sn =? 0) && has_sys_id ids sn) eqn:A3.
  { apply andb_true_iff in A3. destruct A3 as [P K]. apply HS in K; [|unfold is_byte; lia].
    split; auto. split; auto. right. split; auto. destruct (Z.eqb_spec sn 0); [discriminate|auto]. }
  right. split; auto. split.
  - intros [[X|X] | (s & Es & [(X & K) | (c & Ec & C0 & K)])].
    + congruence.
    + congruence.
    + assert (s = m_tsys m) by congruence. subst s. apply BC in X. apply HS in K; auto. rewrite X, K in A2. discriminate.
    + assert (s = m_tsys m) by congruence. subst s.
      assert (c = m_tcomp m).
      { revert Ec. unfold l, letter_of, field; cbn. destruct (m_tcomp m =? -1); congruence. }
      subst c. assert (P : (0 <? m_tcomp m) = true).
      { destruct K as (_ & K & _). cbn in K. unfold is_byte in K. lia. }
      destruct (TC P) as (_ & _ & C3). apply HC in K; auto. rewrite P, K in A1. discriminate.
  - intros (S0 & K). apply HS in K; [|unfold is_byte; lia]. rewrite K in A3.
    destruct (Z.eqb_spec sn 0); [contradiction|discriminate].
Qed.

Lemma allowed_in_spec : forall f m, wf_meta m -> (allowed_in f m = true <-> in_ok f (letter_of m)).
Proof.
  intros f m (_ & _ & _ & _ & ID). unfold allowed_in.
  destruct (Z.eqb_spec (m_id m) UINT32_MAX) as [X|_]; [unfold UINT32_MAX in X; lia|]. cbn [negb andb].
  rewrite negb_true_iff, !orb_false_iff, !discard_passes. unfold in_ok. cbn. tauto.
Qed.
