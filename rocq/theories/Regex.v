(* Regular expressions as used by the address checks of src/endpoint.cpp:142-157: a generic matcher (standing for
   std::regex_match) and the language an expression denotes. *)
From Verif Require Import Base Names Num.

Inductive re : Type :=
| RNone
| REps
| RSet (p : Z -> bool)          (* one character of a class *)
| RCat (a b : re)
| RAlt (a b : re)
| RPlus (a : re).               (* one or more *)

(* the strings an expression matches *)
Inductive lang : re -> list Z -> Prop :=
| l_eps : lang REps []
| l_set : forall p c, p c = true -> lang (RSet p) [c]
| l_cat : forall a b s t, lang a s -> lang b t -> lang (RCat a b) (s ++ t)
| l_alt1 : forall a b s, lang a s -> lang (RAlt a b) s
| l_alt2 : forall a b s, lang b s -> lang (RAlt a b) s
| l_one : forall a s, lang a s -> lang (RPlus a) s
| l_more : forall a s t, lang a s -> lang (RPlus a) t -> lang (RPlus a) (s ++ t).

(* matching by derivatives *)
Fixpoint nullable (r : re) : bool :=
  match r with
  | RNone => false
  | REps => true
  | RSet _ => false
  | RCat a b => nullable a && nullable b
  | RAlt a b => nullable a || nullable b
  | RPlus a => nullable a
  end.
Fixpoint deriv (c : Z) (r : re) : re :=
  match r with
  | RNone => RNone
  | REps => RNone
  | RSet p => if p c then REps else RNone
  | RCat a b => if nullable a then RAlt (RCat (deriv c a) b) (deriv c b) else RCat (deriv c a) b
  | RAlt a b => RAlt (deriv c a) (deriv c b)
  | RPlus a => RCat (deriv c a) (RAlt REps (RPlus a))
  end.
Fixpoint matches (r : re) (s : list Z) : bool :=
  match s with
  | [] => nullable r
  | c :: s => matches (deriv c r) s
  end.

Lemma nullable_lang : forall r, nullable r = true <-> lang r [].
Proof.
  induction r; cbn [nullable]; split; intros H; try discriminate; try (inversion H; fail).
  - constructor.
  - reflexivity.
  - apply andb_prop in H. change (@nil Z) with (@nil Z ++ []). constructor; tauto.
  - inversion H as [| |? ? s t A B E1 E2| | | |]; subst. apply app_eq_nil in E2. destruct E2; subst. apply andb_true_intro; tauto.
  - apply orb_prop in H. destruct H; [apply l_alt1|apply l_alt2]; tauto.
  - apply orb_true_iff. inversion H; subst; tauto.
  - apply l_one. tauto.
  - remember (RPlus r) as q. remember (@nil Z) as s. clear - H IHr Heqq Heqs. revert Heqs. induction H; inversion Heqq; subst; intros E.
    + subst. tauto.
    + apply app_eq_nil in E. destruct E; subst. tauto.
Qed.

Lemma plus_star : forall a t, lang (RAlt REps (RPlus a)) t -> forall s, lang a s -> lang (RPlus a) (s ++ t).
Proof.
  intros a t H s A. inversion H as [| | |? ? ? B|? ? ? B| |]; subst.
  - inversion B; subst. rewrite app_nil_r. apply l_one; auto.
  - apply l_more; auto.
Qed.

Lemma deriv_lang : forall r c s, lang (deriv c r) s <-> lang r (c :: s).
Proof.
  induction r; intros c s; cbn [deriv].
  - split; intros H; inversion H.
  - split; intros H; inversion H.
  - destruct (p c) eqn:E; split; intros H; inversion H; subst; try (constructor; auto; fail). congruence.
  - assert (P : lang (RCat (deriv c r1) r2) s -> lang (RCat r1 r2) (c :: s)).
    { intros H. inversion H; subst. rewrite app_comm_cons. constructor; auto. apply IHr1; auto. }
    assert (Q : lang (RCat r1 r2) (c :: s) -> lang (RCat (deriv c r1) r2) s \/ nullable r1 = true /\ lang (deriv c r2) s).
    { intros H. inversion H as [| |? ? u w A B E1 E2| | | |]; subst. destruct u as [|x u].
      - cbn [app] in E2. subst w. right. split; [apply nullable_lang; auto|apply IHr2; auto].
      - inversion E2; subst. left. constructor; auto. apply IHr1; auto. }
    destruct (nullable r1) eqn:N; split; intros H.
    + inversion H; subst; [tauto|]. change (c :: s) with ([] ++ c :: s). constructor; [apply nullable_lang; auto|apply IHr2; auto].
    + destruct (Q H) as [X|[_ X]]; [apply l_alt1|apply l_alt2]; auto.
    + auto.
    + destruct (Q H) as [X|[X _]]; auto. discriminate.
  - split; intros H; inversion H; subst; try (apply l_alt1; apply IHr1; auto; fail); try (apply l_alt2; apply IHr2; auto; fail).
  - split; intros H.
    + inversion H as [| |? ? u w A B E1 E2| | | |]; subst. apply IHr in A. rewrite app_comm_cons. apply plus_star; auto.
    + assert (K : forall q z, lang q z -> q = RPlus r -> forall c s, z = c :: s -> lang (RCat (deriv c r) (RAlt REps (RPlus r))) s).
      { clear H c s. intros q z H. induction H; intros E c0 s0 E0; inversion E; subst.
        - rewrite <- (app_nil_r s0). constructor; [apply IHr; auto|]. apply l_alt1. constructor.
        - destruct s as [|x s].
          + cbn [app] in E0. eapply IHlang2; eauto.
          + inversion E0; subst. constructor; [apply IHr; auto|]. apply l_alt2. auto. }
      eapply K; eauto.
Qed.

Theorem matches_lang : forall s r, matches r s = true <-> lang r s.
Proof.
  induction s as [|c s IH]; intros r; cbn [matches].
  - apply nullable_lang.
  - rewrite IH. apply deriv_lang.
Qed.

(* ---- the two patterns ---- *)

Definition rch (c : Z) : re := RSet (Z.eqb c).
(* r{0,n} *)
Fixpoint upto (n : nat) (r : re) : re :=
  match n with
  | O => REps
  | Datatypes.S n => RAlt REps (RCat r (upto n r))
  end.

(* endpoint.cpp:149-153: (\d{1,3}\.\d{1,3}\.\d{1,3}\.\d{1,3}) *)
Definition rd13 : re := RCat (RSet is_digit) (upto 2 (RSet is_digit)).
Definition ipv4_re : re := RCat rd13 (RCat (rch 46) (RCat rd13 (RCat (rch 46) (RCat rd13 (RCat (rch 46) rd13))))).
(* endpoint.cpp:142-147: \[(([a-f\d]{0,4}:)+[a-f\d]{0,4})\] *)
Definition hexl (c : Z) : bool := is_digit c || ((97 <=? c) && (c <=? 102)).
Definition rh04 : re := upto 4 (RSet hexl).
Definition ipv6_re : re := RCat (rch 91) (RCat (RCat (RPlus (RCat rh04 (rch 58))) rh04) (rch 93)).

Definition validate_ipv4 (s : list Z) : bool := matches ipv4_re s.
Definition validate_ipv6 (s : list Z) : bool := matches ipv6_re s.
(* validate_ip, endpoint.cpp:155-158 *)
Definition validate_ip (s : list Z) : bool := validate_ipv4 s || validate_ipv6 s.
(* ip_str_is_ipv6, endpoint.cpp:123-127: strchr(ip, '[') *)
Definition ip_str_is_ipv6 (s : list Z) : bool := existsb (Z.eqb 91) (cstr s).
