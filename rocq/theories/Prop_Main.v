(* C72-C75, C77, C78, C80: automatic ports, address arguments, validation, the command line, the started endpoints and
   the ranges of the settings. *)
From Coq Require Import String.
From Verif Require Import Base Names Num SpecNum NumProofs Conf SpecConf ConfLook Accept LogFile Sys Dedup Router RouterSetup SpecRouter RouterRoute RouterStart RouterLife2 Opts Regex Main SpecSection Prop_Opts Prop_Conf ConfFiles RouterTrace SpecLife SpecFrame Prop_Router3 SectionProofs Prop_Section.
Local Open Scope string_scope.
Local Open Scope list_scope.
Local Open Scope Z_scope.

Lemma seq_iff : forall a b, seq_ a b = true <-> a = b.
Proof. intros. unfold seq_. destruct (list_eq_dec Z.eq_dec a b); split; congruence. Qed.

(* ==== C72: automatic ports ==== *)

(* the endpoint [u] uses the port on the address *)
Definition taken (ip : list Z) (p : Z) (l : list udpc) : Prop := exists u, In u l /\ ud_address u = ip /\ ud_port u = p.
(* the first free port from 14550 on *)
Definition next_free (ip : list Z) (l : list udpc) (p : Z) : Prop :=
  14550 <= p /\ ~ taken ip p l /\ forall q, 14550 <= q < p -> taken ip q l.

Lemma next_port_spec : forall ip p l, (taken ip p l /\ next_port p ip l = p + 1) \/ (~ taken ip p l /\ next_port p ip l = p).
Proof.
  induction l as [|c l IH]; cbn [next_port].
  - right. split; [intros (u & [] & _)|reflexivity].
  - destruct (seq_ ip (ud_address c) && (p =? ud_port c))%bool eqn:B.
    + left. apply andb_prop in B. destruct B as [B1 B2]. apply seq_iff in B1. apply Z.eqb_eq in B2. split; [|reflexivity]. exists c. split; [left; auto|auto].
    + assert (N : ~ (ud_address c = ip /\ ud_port c = p)).
      { intros [X Y]. subst. rewrite (proj2 (seq_iff _ _) eq_refl), Z.eqb_refl in B. discriminate. }
      destruct IH as [[T E]|[T E]]; [left|right]; rewrite E; split; auto.
      * destruct T as (u & I & X). exists u. split; [right|]; auto.
      * intros (u & [->|I] & X); [tauto|]. apply T. exists u. auto.
Qed.

(* Holds when port 14551 is not in use on that address. *)
Theorem C72_partial : forall ip l, ~ taken ip 14551 l -> next_free ip l (find_next_udp_port ip l).
Proof.
  intros ip l N. unfold find_next_udp_port. destruct (next_port_spec ip 14550 l) as [[T E]|[T E]]; rewrite E.
  - change (14550 + 1) with 14551. split; [lia|]. split; [auto|]. intros q R. assert (q = 14550) by lia. subst. auto.
  - split; [lia|]. split; [auto|]. lia.
Qed.
Print Assumptions C72_partial.

Definition client (name : string) : string := "[UdpEndpoint " ++ name ++ "]
Mode = normal
Address = 10.0.0.1
".
(* Three sections without port on one address: the third gets the port of the second. *)
Theorem C72_third_refuted : exists cs g,
  parse (NData (lit (client "a" ++ client "b" ++ client "c"))) [] = Ok (0, cs) /\ parse_confs cs g_default = Ok (0, g) /\
  map (fun u => (ud_address u, ud_port u)) (g_udps g) = [(lit "10.0.0.1", 14550); (lit "10.0.0.1", 14551); (lit "10.0.0.1", 14551)].
Proof. eexists. eexists. split; [vm_compute; reflexivity|]. split; vm_compute; reflexivity. Qed.
Print Assumptions C72_third_refuted.
(* On the command line even the second one collides, and so does one that follows a section. *)
Theorem C72_cli_refuted : exists g,
  parse_argv (fun _ => false) [mkCo 101 (lit "10.0.0.1"); mkCo 101 (lit "10.0.0.1")] [] g_default = (2, g) /\
  map (fun u => (ud_address u, ud_port u)) (g_udps g) = [(lit "10.0.0.1", 14550); (lit "10.0.0.1", 14550)].
Proof. eexists. split; vm_compute; reflexivity. Qed.
Print Assumptions C72_cli_refuted.
Definition ex_udp (ip : list Z) (p : Z) : udpc := mkUd [] ip p UClient no_filters [].
Example C72_nonvacuous : let l := [ex_udp (lit "10.0.0.1") 14550; ex_udp (lit "10.0.0.2") 14551] in
  ~ taken (lit "10.0.0.1") 14551 l /\ find_next_udp_port (lit "10.0.0.1") l = 14551.
Proof. split; [|vm_compute; reflexivity]. intros (u & [<-|[<-|[]]] & A & P); vm_compute in A, P; discriminate. Qed.

(* ==== C73: address arguments ==== *)

Lemma rcut_none : forall c s, ~ In c s <-> rcut c s = None.
Proof.
  induction s as [|x s IH]; cbn [rcut In]; [tauto|]. destruct (rcut c s) as [[a b]|].
  - split; [|discriminate]. intros N. exfalso. assert (X : ~ In c s) by tauto. apply IH in X. discriminate.
  - destruct (Z.eqb_spec x c) as [->|NE]; split; try discriminate; try tauto.
Qed.
Lemma rcut_app : forall c a b, ~ In c b -> rcut c (a ++ c :: b) = Some (a, b).
Proof.
  induction a as [|x a IH]; intros b N; cbn [app rcut].
  - apply rcut_none in N. rewrite N, Z.eqb_refl. reflexivity.
  - rewrite IH; auto.
Qed.
Lemma rcut_some : forall c s a b, rcut c s = Some (a, b) -> s = a ++ c :: b /\ ~ In c b.
Proof.
  induction s as [|x s IH]; intros a b E; cbn [rcut] in E; [discriminate|]. destruct (rcut c s) as [[a' b']|] eqn:R.
  - inversion E; subst. destruct (IH _ _ eq_refl) as [-> N]. split; auto.
  - destruct (Z.eqb_spec x c) as [->|NE]; inversion E; subst. split; auto. apply rcut_none. auto.
Qed.

(* the address argument [a]: an address, and the number after the last colon unless there is no colon *)
Definition argument (a base : list Z) (number : option Z) : Prop :=
  match number with
  | None => base = a /\ ~ In 58 a
  | Some n => exists num, a = base ++ [58] ++ num /\ ~ In 58 num /\ reads_nat num n
  end.
Lemma split_argument : forall a base n, split_on_last_colon a = Some (base, n) <->
  exists number, argument a base number /\ n = match number with Some n => n | None => UNSET end.
Proof.
  intros a base n. unfold split_on_last_colon. destruct (rcut 58 a) as [[b num]|] eqn:R.
  - destruct (rcut_some _ _ _ _ R) as [-> N]. destruct (safe_atoul_spec num) as [A B]. split.
    + intros E. destruct (safe_atoul num) as [z [m|]] eqn:S; inversion E; subst. exists (Some n). split; auto. exists num. split; auto. split; auto.
      unfold reads_nat. assert (X : exists m, integer num m /\ - 18446744073709551616 < m < 18446744073709551616).
      { destruct (strto 0 num) as [[[neg m] [|c r]]|] eqn:T.
        - exists (if neg then - m else m). split; [apply strto_integer; eauto|]. unfold safe_atoul in S. rewrite T in S.
          pose proof (strto_nonneg 0 num neg m [] ltac:(lia) T). destruct (Z.leb_spec ULONG m); [discriminate|]. unfold ULONG in *. destruct neg; lia.
        - unfold safe_atoul in S. rewrite T in S. destruct (ULONG <=? m); discriminate.
        - unfold safe_atoul in S. rewrite T in S. discriminate. }
      destruct X as (m & I & L). exists m. split; auto. split; auto. specialize (A m I L). inversion A; subst. reflexivity.
    + intros ([m|] & G & E).
      * destruct G as (num' & E2 & N2 & m' & I & L & ->). rewrite E2 in R. cbn [app] in R. rewrite rcut_app in R; auto. inversion R; subst b num'.
        rewrite (A m' I L). subst n. reflexivity.
      * destruct G as [_ G]. exfalso. apply G. apply in_or_app. right. left. reflexivity.
  - apply rcut_none in R. split.
    + intros E. inversion E; subst. exists None. split; auto. split; auto.
    + intros ([m|] & G & ->).
      * destruct G as (num & -> & _). exfalso. apply R. apply in_or_app. right. left. reflexivity.
      * destruct G as [-> _]. reflexivity.
Qed.

(* <address>:<number> is split exactly there, whatever the address is; without any colon everything is the address. *)
Theorem C73_split_partial : forall base num n, decimal num n -> n < 18446744073709551615 ->
  split_on_last_colon (base ++ lit ":" ++ num) = Some (base, n) /\
  (~ In 58 base -> split_on_last_colon base = Some (base, UNSET)).
Proof.
  intros base num n D L. destruct (decimal_spec num n D) as (_ & P & _ & _ & _ & _ & _ & F). split.
  - apply split_argument. exists (Some n). split; auto. exists num. split; [reflexivity|]. split.
    + intros I. rewrite Forall_forall in F. apply F in I. lia.
    + exists n. split; [apply decimal_integer; auto|]. split; [lia|]. rewrite Z.mod_small by lia. reflexivity.
  - intros N. apply split_argument. exists None. split; [split; auto|reflexivity].
Qed.
Print Assumptions C73_split_partial.
(* So every valid address with a usable port is taken by the three kinds of endpoint arguments. *)
Theorem C73_accepted_partial : forall chr ip num n g, validate_ip ip = true -> decimal num n -> 0 < n < 18446744073709551615 -> chr ip = false ->
  let a := ip ++ lit ":" ++ num in
  cli_option (mkCo 101 a) g = (None, add_udp g (mkUd CLI ip n UClient no_filters [])) /\
  cli_option (mkCo 112 a) g = (None, add_tcp g (mkTc CLI ip n 5 no_filters [])) /\
  cli_positional chr a g = (None, add_udp g (mkUd CLI ip n UServer no_filters [])).
Proof.
  intros chr ip num n g V D L C a. destruct (C73_split_partial ip num n D ltac:(lia)) as [S _]. fold a in S.
  assert (NE : is_empty ip = false). { destruct ip; [vm_compute in V; discriminate|reflexivity]. }
  assert (PO : port_ok n = true). { unfold port_ok, ULONG_MAX. destruct (Z.eqb_spec n 0); [lia|]. destruct (Z.eqb_spec n 18446744073709551615); [lia|]. reflexivity. }
  assert (NU : (n =? UNSET) = false) by (apply Z.eqb_neq; unfold UNSET, ULONG_MAX; lia).
  split; [|split].
  - unfold cli_option. change (is_opt (mkCo 101 a) "h") with false. change (is_opt (mkCo 101 a) "e") with true. cbv iota. cbn [co_arg]. rewrite S, NU. cbn [negb].
    unfold validate_udp. cbn [ud_address ud_port ud_mode]. rewrite NE, V, PO. reflexivity.
  - change (cli_option (mkCo 112 a) g) with (match split_on_last_colon a with None => (Some (- EINVAL), g) | Some (ip, port) =>
      if port =? UNSET then (Some (- EINVAL), g) else let u := mkTc CLI ip port 5 no_filters [] in if negb (validate_tcp u) then (Some (- EINVAL), g) else (None, add_tcp g u) end).
    rewrite S, NU. cbv zeta. unfold validate_tcp. cbn [tc_address tc_port]. rewrite NE, V, PO. reflexivity.
  - unfold cli_positional. rewrite S, C, NU. cbn [negb]. unfold validate_udp. cbn [ud_address ud_port ud_mode]. rewrite NE, V, PO. reflexivity.
Qed.
Print Assumptions C73_accepted_partial.
(* An IPv6 address without the optional port is refused: its own last colon is taken for the separator. *)
Theorem C73_ipv6_refuted : validate_ip (lit "[::1]") = true /\ validate_ip (lit "127.0.0.1") = true /\
  fst (cli_option (mkCo 101 (lit "127.0.0.1")) g_default) = None /\ fst (cli_option (mkCo 101 (lit "[::1]")) g_default) = Some (- EINVAL).
Proof. repeat split; vm_compute; reflexivity. Qed.
Print Assumptions C73_ipv6_refuted.
Example C73_nonvacuous : validate_ip (lit "[fe80::1]") = true /\ decimal (lit "14550") 14550 /\ lit "[fe80::1]" ++ lit ":" ++ lit "14550" = lit "[fe80::1]:14550".
Proof.
  split; [vm_compute; reflexivity|]. split; [|reflexivity].
  apply (d_more [49;52;53;53] 1455 0); try lia. apply (d_more [49;52;53] 145 5); try lia. apply (d_more [49;52] 14 5); try lia. apply (d_more [49] 1 4); try lia. apply (d_one 1). lia.
Qed.

(* ==== C75, C80: addresses ==== *)

Definition digits (s : list Z) : Prop := Forall (fun c => 48 <= c <= 57) s.
Definition dotted (s : list Z) : Prop := exists a b c d, s = a ++ lit "." ++ b ++ lit "." ++ c ++ lit "." ++ d /\
  Forall (fun g => digits g /\ (1 <= length g <= 3)%nat) [a; b; c; d].
Definition hex (s : list Z) : Prop := Forall (fun c => 48 <= c <= 57 \/ 97 <= c <= 102) s.
Definition colons (s : list Z) : Prop := exists gs last, gs <> [] /\ s = lit "[" ++ concat (map (fun g => g ++ lit ":") gs) ++ last ++ lit "]" /\
  Forall (fun g => hex g /\ (length g <= 4)%nat) (gs ++ [last]).

Lemma lang_upto : forall n p s, lang (upto n (RSet p)) s <-> Forall (fun c => p c = true) s /\ (length s <= n)%nat.
Proof.
  induction n as [|n IH]; intros p s; cbn [upto].
  - split.
    + intros H. inversion H; subst. auto.
    + intros [_ H]. destruct s; [constructor|cbn in H; lia].
  - split.
    + intros H. inversion H as [| | |? ? ? B|? ? ? B| |]; subst.
      * inversion B; subst. split; [constructor|cbn; lia].
      * inversion B as [| |? ? u w A C E1 E2| | | |]; subst. inversion A; subst. apply IH in C. destruct C as [C1 C2]. split; [constructor; auto|cbn; lia].
    + intros [F L]. destruct s as [|c s]; [apply l_alt1; constructor|]. apply l_alt2. inversion F; subst. change (c :: s) with ([c] ++ s). constructor; [constructor; auto|].
      apply IH. split; auto. cbn in L. lia.
Qed.
Lemma lang_rch : forall c s, lang (rch c) s <-> s = [c].
Proof.
  intros. unfold rch. split.
  - intros H. inversion H; subst. match goal with H : (_ =? _) = true |- _ => apply Z.eqb_eq in H; subst end. reflexivity.
  - intros ->. constructor. apply Z.eqb_refl.
Qed.
Lemma lang_cat : forall a b s, lang (RCat a b) s <-> exists u w, s = u ++ w /\ lang a u /\ lang b w.
Proof.
  split.
  - intros H. inversion H; subst. eauto.
  - intros (u & w & -> & A & B). constructor; auto.
Qed.
Lemma digit_iff : forall c, is_digit c = true <-> 48 <= c <= 57.
Proof. intros. unfold is_digit. lia. Qed.
Lemma hexl_iff : forall c, hexl c = true <-> 48 <= c <= 57 \/ 97 <= c <= 102.
Proof. intros. unfold hexl, is_digit. lia. Qed.
Lemma Forall_iff : forall A (P Q : A -> Prop) l, (forall x, P x <-> Q x) -> Forall P l <-> Forall Q l.
Proof. intros. split; apply Forall_impl; intros; apply H; auto. Qed.
Lemma lang_rd13 : forall s, lang rd13 s <-> digits s /\ (1 <= length s <= 3)%nat.
Proof.
  intros s. unfold rd13, digits. rewrite lang_cat. split.
  - intros (u & w & -> & A & B). inversion A; subst. apply lang_upto in B. destruct B as [B L]. cbn [app length]. split; [|lia].
    constructor; [apply digit_iff; auto|]. eapply Forall_iff; [|exact B]. intros; symmetry; apply digit_iff.
  - intros [F L]. destruct s as [|c s]; [cbn in L; lia|]. inversion F; subst. exists [c], s. split; auto. split; [constructor; apply digit_iff; auto|].
    apply lang_upto. split; [|cbn in L; lia]. eapply Forall_iff; [|eassumption]. intros; apply digit_iff.
Qed.
Lemma lang_rh04 : forall s, lang rh04 s <-> hex s /\ (length s <= 4)%nat.
Proof. intros s. unfold rh04, hex. rewrite lang_upto. split; intros [A B]; split; auto; (eapply Forall_iff; [|exact A]); intros; [symmetry|]; apply hexl_iff. Qed.
Lemma lang_plus : forall a s, lang (RPlus a) s <-> exists l, l <> [] /\ s = concat l /\ Forall (lang a) l.
Proof.
  intros a s. split.
  - intros H. remember (RPlus a) as q. induction H; inversion Heqq; subst.
    + exists [s]. split; [discriminate|]. cbn. rewrite app_nil_r. auto.
    + destruct (IHlang2 eq_refl) as (l & N & -> & F). exists (s :: l). split; [discriminate|]. auto.
  - intros (l & N & -> & F). induction l as [|x l IH]; [congruence|]. inversion F; subst. destruct l as [|y l].
    + cbn. rewrite app_nil_r. apply l_one; auto.
    + cbn [concat]. apply l_more; auto. apply IH; auto. discriminate.
Qed.

Lemma ipv4_dotted : forall s, validate_ipv4 s = true <-> dotted s.
Proof.
  intros s. unfold validate_ipv4. rewrite matches_lang. unfold ipv4_re, dotted. change (lit ".") with [46]. split.
  - intros H. apply lang_cat in H. destruct H as (a & r & -> & A & H). apply lang_cat in H. destruct H as (d1 & r1 & -> & D1 & H). apply lang_cat in H. destruct H as (b & r2 & -> & B & H).
    apply lang_cat in H. destruct H as (d2 & r3 & -> & D2 & H). apply lang_cat in H. destruct H as (c & r4 & -> & C & H). apply lang_cat in H. destruct H as (d3 & d & -> & D3 & D).
    apply lang_rch in D1, D2, D3. subst. apply lang_rd13 in A, B, C, D. exists a, b, c, d. split; [rewrite <- ?app_assoc; reflexivity|]. auto.
  - intros (a & b & c & d & -> & F). inversion F as [|? ? A F1]; subst. inversion F1 as [|? ? B F2]; subst. inversion F2 as [|? ? C F3]; subst. inversion F3 as [|? ? D _]; subst.
    repeat (apply l_cat; [first [apply lang_rd13; assumption|apply lang_rch; reflexivity]|]). apply lang_rd13; auto.
Qed.
Lemma ipv6_colons : forall s, validate_ipv6 s = true <-> colons s.
Proof.
  intros s. unfold validate_ipv6. rewrite matches_lang. unfold ipv6_re, colons. change (lit "[") with [91]. change (lit "]") with [93]. change (lit ":") with [58]. split.
  - intros H. apply lang_cat in H. destruct H as (o & r & -> & O & H). apply lang_cat in H. destruct H as (m & cl & -> & H & C). apply lang_cat in H. destruct H as (g & last & -> & G & L).
    apply lang_rch in O, C. subst. apply lang_rh04 in L. apply lang_plus in G. destruct G as (l & N & -> & F).
    assert (X : exists gs, l = map (fun g => g ++ [58]) gs /\ Forall (fun g => hex g /\ (length g <= 4)%nat) gs).
    { clear N. induction F as [|x l X F IH]; [exists []; auto|]. destruct IH as (gs & -> & FG). apply lang_cat in X. destruct X as (u & w & -> & U & W). apply lang_rch in W. subst w.
      apply lang_rh04 in U. exists (u :: gs). split; auto. }
    destruct X as (gs & -> & FG). exists gs, last. split; [intros ->; auto|]. split; [rewrite <- app_assoc; reflexivity|]. apply Forall_app. auto.
  - intros (gs & last & N & -> & F). apply Forall_app in F. destruct F as [F L]. inversion L; subst. apply l_cat; [apply lang_rch; reflexivity|]. rewrite app_assoc. apply l_cat; [|apply lang_rch; reflexivity].
    apply l_cat; [|apply lang_rh04; auto]. apply lang_plus. exists (map (fun g => g ++ [58]) gs). split; [destruct gs; [congruence|discriminate]|]. split; auto.
    clear N L. induction F; cbn [map]; constructor; auto. apply l_cat; [apply lang_rh04; auto|apply lang_rch; reflexivity].
Qed.

(* the characters of the two kinds *)
Lemma dotted_chars : forall s, dotted s -> Forall (fun c => c = 46 \/ 48 <= c <= 57) s.
Proof.
  intros s (a & b & c & d & -> & F). change (lit ".") with [46].
  assert (X : Forall (fun g => Forall (fun c => c = 46 \/ 48 <= c <= 57) g) [a; b; c; d]).
  { eapply Forall_impl; [|exact F]. intros g [G _]. eapply Forall_impl; [|exact G]. cbn. auto. }
  inversion X as [|? ? A F1]; subst. inversion F1 as [|? ? B F2]; subst. inversion F2 as [|? ? C F3]; subst. inversion F3 as [|? ? D _]; subst.
  repeat (apply Forall_app; split; auto).
Qed.
Lemma colons_chars : forall s, colons s -> Forall (fun c => c = 91 \/ c = 93 \/ c = 58 \/ 48 <= c <= 57 \/ 97 <= c <= 102) s /\ exists r, s = 91 :: r.
Proof.
  intros s (gs & last & N & -> & F). change (lit "[") with [91]. change (lit "]") with [93]. change (lit ":") with [58].
  split; [|cbn [app]; eauto]. apply Forall_app in F. destruct F as [F L]. inversion L as [|? ? [HL _] _]; subst.
  assert (K : forall g, hex g -> Forall (fun c => c = 91 \/ c = 93 \/ c = 58 \/ 48 <= c <= 57 \/ 97 <= c <= 102) g).
  { intros g G. eapply Forall_impl; [|exact G]. cbn. tauto. }
  repeat (apply Forall_app; split; auto). clear - F K. induction F as [|g gs [G _] F IH]; cbn [map concat]; auto. repeat (apply Forall_app; split; auto).
Qed.

(* Exactly the addresses of the two shapes are accepted, and among them a square bracket identifies IPv6. *)
Theorem C75_shapes : forall s, validate_ip s = true <-> dotted s \/ colons s.
Proof. intros s. unfold validate_ip. rewrite orb_true_iff, ipv4_dotted, ipv6_colons. tauto. Qed.
Print Assumptions C75_shapes.
Theorem C75_brackets : forall s, validate_ip s = true -> (ip_str_is_ipv6 s = true <-> colons s) /\ (ip_str_is_ipv6 s = false <-> dotted s).
Proof.
  intros s V. apply C75_shapes in V. unfold ip_str_is_ipv6.
  assert (D : dotted s -> existsb (Z.eqb 91) (cstr s) = false).
  { intros D. apply dotted_chars in D. apply not_true_is_false. intros E. apply existsb_exists in E. destruct E as (c & I & E). apply Z.eqb_eq in E. subst c.
    assert (I2 : In 91 s). { clear - I. induction s as [|x s IH]; cbn [cstr] in I; [destruct I|]. destruct (x =? 0); [destruct I|]. destruct I as [->|I]; [left; auto|right; auto]. }
    rewrite Forall_forall in D. apply D in I2. lia. }
  assert (C : colons s -> existsb (Z.eqb 91) (cstr s) = true).
  { intros C. apply colons_chars in C. destruct C as (_ & r & ->). reflexivity. }
  assert (X : dotted s -> colons s -> False). { intros A B. apply D in A. apply C in B. congruence. }
  split; split; auto; intros E; destruct V as [V|V]; auto; exfalso; [apply D in V|apply C in V]; congruence.
Qed.
Print Assumptions C75_brackets.
Example C75_nonvacuous : validate_ip (lit "192.168.7.1") = true /\ validate_ip (lit "[fd00:a::1]") = true /\ validate_ip (lit "localhost") = false /\ validate_ip (lit "fd00::1") = false.
Proof. repeat split; vm_compute; reflexivity. Qed.

(* C80: accepted addresses are addresses, and addresses are accepted. *)
Definition octet (s : list Z) : Prop := exists n, decimal s n /\ n < 256.
Lemma octet_digits : forall s, octet s -> digits s /\ (1 <= length s <= 3)%nat.
Proof.
  intros s (n & D & L). destruct (decimal_spec s n D) as (_ & _ & c & r & E & _ & _ & F). split; [exact F|]. split; [subst; cbn; lia|].
  destruct D as [n R|s1 n1 d1 D1 P1 R1]; [cbn; lia|]. destruct D1 as [n1 R|s2 n2 d2 D2 P2 R2]; [cbn; lia|]. destruct D2 as [n2 R|s3 n3 d3 D3 P3 R3]; [cbn; lia|]. lia.
Qed.
(* Every dotted decimal IPv4 address is accepted. *)
Theorem C80_ipv4_partial : forall a b c d, octet a -> octet b -> octet c -> octet d -> validate_ip (a ++ lit "." ++ b ++ lit "." ++ c ++ lit "." ++ d) = true.
Proof.
  intros. apply C75_shapes. left. exists a, b, c, d. split; auto. repeat (apply Forall_cons; [apply octet_digits; auto|]). constructor.
Qed.
Print Assumptions C80_ipv4_partial.
(* Every IPv6 address in the notation of RFC 5952 (lower case) is accepted in brackets: eight groups, or fewer than eight with one "::". *)
Definition group6 (g : list Z) : Prop := hex g /\ (1 <= length g <= 4)%nat.
Fixpoint groups (gs : list (list Z)) : list Z := match gs with [] => [] | [g] => g | g :: r => g ++ lit ":" ++ groups r end.
Definition address6 (s : list Z) : Prop :=
  (exists gs, length gs = 8%nat /\ Forall group6 gs /\ s = groups gs) \/
  (exists a b, (length a + length b < 8)%nat /\ Forall group6 a /\ Forall group6 b /\ s = groups a ++ lit "::" ++ groups b).
Lemma groups_snoc : forall gs g, groups (gs ++ [g]) = concat (map (fun g => g ++ lit ":") gs) ++ g.
Proof.
  induction gs as [|x gs IH]; intros g; [reflexivity|]. cbn [map concat]. rewrite <- app_assoc, <- IH. cbn [app]. destruct (gs ++ [g]) eqn:E; [destruct gs; discriminate|].
  cbn [groups]. rewrite app_assoc. reflexivity.
Qed.
Lemma groups_colon : forall a b, a <> [] -> b <> [] -> groups (a ++ b) = groups a ++ lit ":" ++ groups b.
Proof.
  induction a as [|x a IH]; intros b NA NB; [congruence|]. destruct a as [|y a]. { cbn [app]. destruct b; [congruence|]. reflexivity. }
  change ((x :: y :: a) ++ b) with (x :: (y :: a) ++ b). assert (E : groups (x :: (y :: a) ++ b) = x ++ lit ":" ++ groups ((y :: a) ++ b)) by reflexivity.
  rewrite E, IH by (auto; discriminate). change (groups (x :: y :: a)) with (x ++ lit ":" ++ groups (y :: a)). rewrite !app_assoc. reflexivity.
Qed.
Lemma colons_of : forall gs, (2 <= length gs)%nat -> Forall (fun g => hex g /\ (length g <= 4)%nat) gs -> colons (lit "[" ++ groups gs ++ lit "]").
Proof.
  intros gs L F. destruct (exists_last (l := gs)) as (i & l & ->). { intros ->. cbn in L. lia. }
  exists i, l. rewrite app_length in L. cbn [length] in L. split. { intros ->. cbn in L. lia. } rewrite groups_snoc, <- !app_assoc. auto.
Qed.
Theorem C80_ipv6_partial : forall s, address6 s -> validate_ip (lit "[" ++ s ++ lit "]") = true.
Proof.
  intros s H. apply C75_shapes. right.
  assert (W : forall gs, Forall group6 gs -> Forall (fun g => hex g /\ (length g <= 4)%nat) gs). { intros gs F. eapply Forall_impl; [|exact F]. intros g (A & _ & B). auto. }
  assert (Z0 : hex [] /\ (length (@nil Z) <= 4)%nat) by (split; [constructor|cbn; lia]).
  destruct H as [(gs & L & F & ->)|(a & b & L & FA & FB & ->)].
  - apply colons_of; auto. lia.
  - set (a' := match a with [] => [[]] | _ => a end). set (b' := match b with [] => [[]] | _ => b end).
    assert (E : groups a ++ lit "::" ++ groups b = groups (a' ++ [[]] ++ b')).
    { assert (NA : a' <> []) by (unfold a'; destruct a; discriminate). assert (NB : b' <> []) by (unfold b'; destruct b; discriminate).
      rewrite groups_colon by (auto; destruct b'; discriminate). rewrite groups_colon by (auto; discriminate). cbn [groups app].
      assert (GA : groups a' = groups a) by (unfold a'; destruct a; reflexivity). assert (GB : groups b' = groups b) by (unfold b'; destruct b; reflexivity). rewrite GA, GB. reflexivity. }
    rewrite E. apply colons_of.
    + rewrite !app_length. cbn [length]. assert (1 <= length a')%nat by (unfold a'; destruct a; cbn; lia). lia.
    + apply Forall_app. split; [unfold a'; destruct a; [constructor; auto|apply W; auto]|]. apply Forall_app. split; [constructor; auto|]. unfold b'; destruct b; [constructor; auto|apply W; auto].
Qed.
Print Assumptions C80_ipv6_partial.
Example C80_ipv6_nonvacuous : address6 (lit "fd00::1") /\ address6 (lit "::") /\ address6 (lit "1:2:3:4:5:6:7:8").
Proof.
  assert (G : forall g, (forallb (fun c => ((48 <=? c) && (c <=? 57)) || ((97 <=? c) && (c <=? 102))) g && Nat.leb 1 (length g) && Nat.leb (length g) 4)%bool = true -> group6 g).
  { intros g H. apply andb_prop in H. destruct H as [H C]. apply andb_prop in H. destruct H as [A B]. apply Nat.leb_le in B. apply Nat.leb_le in C. split; [|lia].
    apply Forall_forall. intros c I. rewrite forallb_forall in A. apply A in I. lia. }
  split; [|split].
  - right. exists [lit "fd00"], [lit "1"]. split; [cbn; lia|]. split; [|split]; [| |reflexivity]; (apply Forall_cons; [apply G; reflexivity|constructor]).
  - right. exists [], []. split; [cbn; lia|]. repeat split; constructor.
  - left. exists [lit "1"; lit "2"; lit "3"; lit "4"; lit "5"; lit "6"; lit "7"; lit "8"]. split; [reflexivity|]. split; [|reflexivity].
    repeat (apply Forall_cons; [apply G; reflexivity|]). constructor.
Qed.
(* But so are strings that are no addresses, and IPv6 addresses in upper case or with an IPv4 part are refused. *)
Theorem C80_refuted : validate_ip (lit "300.0.0.1") = true /\ validate_ip (lit "[:]") = true /\
  validate_ip (lit "[FE80::1]") = false /\ validate_ip (lit "[::ffff:10.0.0.1]") = false.
Proof. repeat split; vm_compute; reflexivity. Qed.
Print Assumptions C80_refuted.
Example C80_nonvacuous : octet (lit "255") /\ octet (lit "0").
Proof.
  split; [exists 255|exists 0]; split; try lia.
  - apply (d_more [50;53] 25 5); try lia. apply (d_more [50] 2 5); try lia. apply (d_one 2). lia.
  - apply (d_one 0). lia.
Qed.

(* ==== C74: ports ==== *)

(* Proved: port 0 and a missing port are refused, and a port from 1 to 65535 is the one used. *)
Theorem C74_missing_partial :
  (forall u, validate_udp u = true -> ud_port u <> 0 /\ ud_port u <> 18446744073709551615) /\
  (forall u, validate_tcp u = true -> tc_port u <> 0 /\ tc_port u <> 18446744073709551615).
Proof.
  assert (P : forall p, port_ok p = true -> p <> 0 /\ p <> 18446744073709551615).
  { intros p H. unfold port_ok, ULONG_MAX in H. destruct (Z.eqb_spec p 0); [discriminate|]. destruct (Z.eqb_spec p 18446744073709551615); [discriminate|]. auto. }
  split; intros u V; unfold validate_udp, validate_tcp in V; rewrite ?andb_true_iff in V; apply P; tauto.
Qed.
Print Assumptions C74_missing_partial.
Theorem C74_udp_port_partial : forall v y c w k e host port, start v y c = Some w -> lookup w k = Some e ->
  nth_error (SpecRouter.confs c) k = Some (mkEc (CUdp false host port) true (ep_filters e) (ep_group e)) -> 1 <= port <= 65535 ->
  exists t, ep_kind e = KUdp (host, port) (host, port) t.
Proof.
  intros v y c w k e host port S L N R. destruct (start_born _ _ _ _ _ _ S L) as [(cc & N2 & B)|[LG IL]].
  - rewrite N in N2. inversion N2; subst cc. destruct B as [_ B]. cbn [ec_kind] in B. destruct B as (t & K & _). exists t. rewrite K.
    unfold u16. rewrite Z.mod_small by lia. reflexivity.
  - exfalso. unfold is_logger in LG. assert (k < length (SpecRouter.confs c))%nat by (apply nth_error_Some; congruence). unfold SpecRouter.confs in *. lia.
Qed.
Print Assumptions C74_udp_port_partial.
(* Refuted: 65536 is accepted, and the packets are sent to port 0. *)
Theorem C74_65536_refuted : forall host v y,
  let u := ex_udp (lit "10.0.0.1") 65536 in let g := add_udp g_default u in
  validate_udp u = true /\
  (exists r, cli_option (mkCo 101 (lit "10.0.0.1:65536")) g_default = (None, r) /\ map ud_port (g_udps r) = [65536]) /\
  (forall w e, start v y (to_config host g) = Some w -> lookup w 0 = Some e -> exists t, ep_kind e = KUdp (host (lit "10.0.0.1"), 0) (host (lit "10.0.0.1"), 0) t).
Proof.
  intros host v y u g. split; [vm_compute; reflexivity|]. split; [eexists; split; vm_compute; reflexivity|].
  intros w e S L. destruct (start_born _ _ _ _ _ _ S L) as [(cc & N2 & B)|[LG IL]].
  - unfold SpecRouter.confs in N2. cbn in N2. inversion N2; subst cc. destruct B as [_ B]. cbn in B. destruct B as (t & K & _). exists t. exact K.
  - exfalso. unfold is_logger in LG. cbn in LG. lia.
Qed.
Print Assumptions C74_65536_refuted.

(* ==== C77: the command line and the started endpoints ==== *)

(* the endpoints asked for by the options and by the positional arguments; the port of -e is automatic if it is absent *)
Inductive cli_opts : list copt -> list udpc -> list tcpc -> Prop :=
| co_nil : cli_opts [] [] []
| co_udp : forall a ip number port r us ts, argument a ip number ->
    port = match number with Some n => if n =? 18446744073709551615 then 14550 else n | None => 14550 end \/ (number = None \/ number = Some 18446744073709551615) /\ port = 14551 ->
    cli_opts r us ts -> cli_opts (mkCo 101 a :: r) (mkUd CLI ip port UClient no_filters [] :: us) ts
| co_tcp : forall a ip port r us ts, argument a ip (Some port) ->
    cli_opts r us ts -> cli_opts (mkCo 112 a :: r) us (mkTc CLI ip port 5 no_filters [] :: ts)
| co_other : forall o r us ts, co_opt o <> 101 -> co_opt o <> 112 -> cli_opts r us ts -> cli_opts (o :: r) us ts.
Inductive cli_args (chr : list Z -> bool) : list (list Z) -> list uartc -> list udpc -> Prop :=
| ca_nil : cli_args chr [] [] []
| ca_udp : forall a ip port r us ds, argument a ip (Some port) -> chr ip = false ->
    cli_args chr r us ds -> cli_args chr (a :: r) us (mkUd CLI ip port UServer no_filters [] :: ds)
| ca_uart : forall a dev number bauds r us ds, argument a dev number -> chr dev = true ->
    (number = None -> bauds = [115200]) -> length bauds = 1%nat ->
    cli_args chr r us ds -> cli_args chr (a :: r) (mkUa CLI dev bauds false no_filters [] :: us) ds.

Definition adds (g g' : gconf) (us : list uartc) (ds : list udpc) (ts : list tcpc) : Prop :=
  g_uarts g' = g_uarts g ++ us /\ g_udps g' = g_udps g ++ ds /\ g_tcps g' = g_tcps g ++ ts.
Lemma adds_refl : forall g g', g_uarts g' = g_uarts g -> g_udps g' = g_udps g -> g_tcps g' = g_tcps g -> adds g g' [] [] [].
Proof. intros. unfold adds. rewrite !app_nil_r. auto. Qed.
Lemma adds_trans : forall a b c u d t u' d' t', adds a b u d t -> adds b c u' d' t' -> adds a c (u ++ u') (d ++ d') (t ++ t').
Proof. unfold adds. intros a b c u d t u' d' t' (A & B & C) (A' & B' & C'). rewrite A', B', C', A, B, C, !app_assoc. auto. Qed.

Lemma option_adds : forall o g g', cli_option o g = (None, g') -> exists us ts, adds g g' [] us ts /\
  forall r us' ts', cli_opts r us' ts' -> cli_opts (o :: r) (us ++ us') (ts ++ ts').
Proof.
  intros [c a] g g' E. unfold cli_option in E. cbn [co_arg] in E.
  assert (OPT : forall s x, lit s = [x] -> is_opt (mkCo c a) s = true -> c = x).
  { intros s x Hs H. unfold is_opt in H. apply seq_iff in H. cbn [co_opt] in H. rewrite Hs in H. inversion H. auto. }
  assert (OTHER : c <> 101 -> c <> 112 -> g_uarts g' = g_uarts g -> g_udps g' = g_udps g -> g_tcps g' = g_tcps g -> exists us ts, adds g g' [] us ts /\
    forall r us' ts', cli_opts r us' ts' -> cli_opts (mkCo c a :: r) (us ++ us') (ts ++ ts')).
  { intros. exists [], []. split; [apply adds_refl; auto|]. intros. apply co_other; auto. }
  destruct (is_opt (mkCo c a) "h"); [discriminate|].
  destruct (is_opt (mkCo c a) "e") eqn:OE.
  { apply (OPT "e" 101 eq_refl) in OE. subst c. destruct (split_on_last_colon a) as [[ip port]|] eqn:SP; [|discriminate].
    destruct (negb (validate_udp _)); [discriminate|]. inversion E; subst g'. apply split_argument in SP. destruct SP as (number & AR & PT).
    eexists [_], []. split; [unfold adds; cbn [g_uarts g_udps g_tcps add_udp]; rewrite !app_nil_r; auto|].
    intros r us ts CO. cbn [app]. eapply co_udp; [exact AR| |exact CO]. change UNSET with 18446744073709551615 in *. unfold find_next_udp_port.
    destruct (Z.eqb_spec port 18446744073709551615) as [U|NU]; cbn [negb].
    - assert (NN : number = None \/ number = Some 18446744073709551615) by (destruct number; [right; congruence|left; reflexivity]).
      destruct (next_port_spec [] 14550 (g_udps g)) as [[_ ->]|[_ ->]]; [right; auto|left]. destruct NN as [->| ->]; reflexivity.
    - left. destruct number as [m|]; [subst; destruct (Z.eqb_spec m 18446744073709551615); congruence|congruence]. }
  assert (N101 : c <> 101). { intros ->. discriminate OE. }
  destruct (is_opt (mkCo c a) "p") eqn:OP.
  { apply (OPT "p" 112 eq_refl) in OP. subst c. cbn in E. destruct (split_on_last_colon a) as [[ip port]|] eqn:SP; [|discriminate].
    destruct (Z.eqb_spec port UNSET) as [U|NU]; [discriminate|]. destruct (negb (validate_tcp _)); [discriminate|]. inversion E; subst g'. apply split_argument in SP. destruct SP as (number & AR & PT).
    eexists [], [_]. split; [unfold adds; cbn [g_uarts g_udps g_tcps add_tcp]; rewrite !app_nil_r; auto|].
    intros r us ts CO. cbn [app]. destruct number as [m|]; [|congruence]. subst m. apply co_tcp; auto. }
  assert (N112 : c <> 112). { intros ->. discriminate OP. }
  repeat match type of E with
  | (if ?b then _ else _) = _ => destruct b; try discriminate
  | match ?x with _ => _ end = _ => destruct x as [? [?|]] || destruct x; try discriminate
  end; inversion E; subst; apply OTHER; auto.
Qed.
Lemma options_adds : forall os g g', cli_options os g = (None, g') -> exists us ts, adds g g' [] us ts /\ cli_opts os us ts.
Proof.
  induction os as [|o os IH]; intros g g' E; cbn [cli_options] in E.
  - inversion E; subst. exists [], []. split; [apply adds_refl; auto|constructor].
  - destruct (cli_option o g) as [[e|] g1] eqn:O; [discriminate|]. destruct (option_adds _ _ _ O) as (us & ts & A & C). destruct (IH _ _ E) as (us' & ts' & A' & C').
    exists (us ++ us'), (ts ++ ts'). split; [exact (adds_trans _ _ _ _ _ _ _ _ _ A A')|auto].
Qed.
Lemma positional_adds : forall chr a g g', cli_positional chr a g = (None, g') -> exists us ds, adds g g' us ds [] /\
  forall r us' ds', cli_args chr r us' ds' -> cli_args chr (a :: r) (us ++ us') (ds ++ ds').
Proof.
  intros chr a g g' E. unfold cli_positional in E. destruct (split_on_last_colon a) as [[base n]|] eqn:SP; [|discriminate].
  apply split_argument in SP. destruct SP as (number & AR & PT). destruct (chr base) eqn:CH; cbn [negb] in E.
  - inversion E; subst g'. eexists [_], []. split; [unfold adds; cbn [g_uarts g_udps g_tcps add_uart]; rewrite !app_nil_r; auto|].
    intros r us ds CA. cbn [app]. eapply ca_uart; eauto. intros ->. subst n. rewrite Z.eqb_refl. reflexivity.
  - destruct (Z.eqb_spec n UNSET) as [U|NU]; [discriminate|]. destruct (negb (validate_udp _)); [discriminate|]. inversion E; subst g'.
    eexists [], [_]. split; [unfold adds; cbn [g_uarts g_udps g_tcps add_udp]; rewrite !app_nil_r; auto|].
    intros r us ds CA. cbn [app]. destruct number as [m|]; [|congruence]. subst m. apply ca_udp; auto.
Qed.
Lemma positionals_adds : forall chr l g g', cli_positionals chr l g = (None, g') -> exists us ds, adds g g' us ds [] /\ cli_args chr l us ds.
Proof.
  induction l as [|a l IH]; intros g g' E; cbn [cli_positionals] in E.
  - inversion E; subst. exists [], []. split; [apply adds_refl; auto|constructor].
  - destruct (cli_positional chr a g) as [[e|] g1] eqn:O; [discriminate|]. destruct (positional_adds _ _ _ _ O) as (us & ts & A & C). destruct (IH _ _ E) as (us' & ts' & A' & C').
    exists (us ++ us'), (ts ++ ts'). split; [exact (adds_trans _ _ _ _ _ _ _ _ _ A A')|auto].
Qed.
(* The command line adds to the configuration exactly the endpoints it asks for, without filters and group. *)
Theorem C77_cli : forall chr os pos g g', parse_argv chr os pos g = (2, g') ->
  exists us ds ds' ts, cli_opts os ds ts /\ cli_args chr pos us ds' /\
    g_uarts g' = g_uarts g ++ us /\ g_udps g' = g_udps g ++ ds ++ ds' /\ g_tcps g' = g_tcps g ++ ts.
Proof.
  intros chr os pos g g' E. unfold parse_argv in E. destruct (cli_options os g) as [[e|] g1] eqn:O.
  - inversion E; subst. exfalso. clear E. revert g O. induction os as [|o os IH]; intros g O; cbn [cli_options] in O; [discriminate|].
    destruct (cli_option o g) as [[e|] g2] eqn:X; [|eauto]. inversion O; subst e g2. clear - X. unfold cli_option in X.
    repeat match type of X with
    | (if ?b then _ else _) = _ => destruct b; try discriminate
    | match ?x with _ => _ end = _ => destruct x as [[? ?]|] || destruct x as [? [?|]] || destruct x; try discriminate
    end.
  - destruct (cli_positionals chr pos g1) as [[e|] g2] eqn:P.
    + inversion E; subst. exfalso. clear E O. revert g1 P. induction pos as [|a pos IH]; intros g1 P; cbn [cli_positionals] in P; [discriminate|].
      destruct (cli_positional chr a g1) as [[e|] g2] eqn:X; [|eauto]. inversion P; subst e g2. clear - X. unfold cli_positional in X.
      repeat match type of X with
      | (if ?b then _ else _) = _ => destruct b; try discriminate
      | match ?x with _ => _ end = _ => destruct x as [[? ?]|] || destruct x; try discriminate
      end.
    + inversion E; subst g2. destruct (options_adds _ _ _ O) as (ds & ts & A & CO). destruct (positionals_adds _ _ _ _ P) as (us & ds' & A' & CA).
      exists us, ds, ds', ts. split; auto. split; auto. destruct A as (A1 & A2 & A3). destruct A' as (B1 & B2 & B3). rewrite B1, B2, B3, A1, A2, A3, !app_nil_r, <- !app_assoc. auto.
Qed.
Print Assumptions C77_cli.
Example C77_cli_nonvacuous : exists g, parse_argv (fun p => seq_ p (lit "/dev/ttyS1"))
  [mkCo 101 (lit "10.0.0.7"); mkCo 114 []; mkCo 112 (lit "[::1]:5760")] [lit "/dev/ttyS1:57600"; lit "0.0.0.0:14550"] g_default = (2, g) /\
  length (g_uarts g) = 1%nat /\ length (g_udps g) = 2%nat /\ length (g_tcps g) = 1%nat.
Proof. eexists. split; [vm_compute; reflexivity|]. repeat split. Qed.

(* The router starts with one endpoint for each entry of the configuration, in this order, with its filters and group. *)
Theorem C77_started : forall v y host g w, start v y (to_config host g) = Some w ->
  exists es1 es2 es3 ls, w_eps w = map Some (es1 ++ es2 ++ es3 ++ ls) /\
  Forall2 (fun u e => ep_filters e = ua_filters u /\ ep_group e = ua_group u /\ exists t, ep_kind e = KUart (ua_bauds u) 0 t) (g_uarts g) es1 /\
  Forall2 (fun u e => ep_filters e = ud_filters u /\ ep_group e = ud_group u /\
    exists p t, ep_kind e = KUdp (host (ud_address u), p) (host (ud_address u), p) t /\ (ud_mode u = UClient -> p = u16 (ud_port u))) (g_udps g) es2 /\
  Forall2 (fun u e => ep_filters e = tc_filters u /\ ep_group e = tc_group u /\ ep_kind e = KTcp (tc_retry u) true) (g_tcps g) es3 /\
  Forall (fun e => is_log e = true /\ ep_filters e = no_filters) ls /\
  length ls = if is_empty (lo_dir (g_log g)) then 0%nat else if lo_tlog (g_log g) then 2%nat else 1%nat.
Proof.
  intros v y host g w H. destruct (start_shape _ _ _ _ H) as (es & ls & F & LF & EP & _ & _ & _ & _ & _ & _ & LN & LC).
  assert (LL : length (link_groups (map Some es)) = length es) by (unfold link_groups; rewrite link_len, map_length; auto).
  set (c := to_config host g) in *.
  assert (AT : forall k cc, nth_error (SpecRouter.confs c) k = Some cc -> exists e, nth_error (w_eps w) k = Some (Some e) /\ ep_filters e = ec_filters cc /\ ep_group e = ec_group cc /\ born v cc e).
  { intros k cc N. fold (SpecRouter.confs c) in F.
    assert (K : (k < length es)%nat). { rewrite <- (Forall2_len _ _ _ _ _ F). apply nth_error_Some. congruence. }
    destruct (nth_error es k) as [e0|] eqn:NE; [|apply nth_error_None in NE; lia].
    destruct (nth_Forall2 _ _ _ _ _ _ _ F NE) as (cc2 & N2 & FE & G & FI). rewrite N in N2. inversion N2; subst cc2.
    assert (NM : nth_error (map Some es) k = Some (Some e0)) by (rewrite nth_error_map, NE; auto).
    destruct (link_groups_spec es k e0 NM) as (e' & L' & SE & ME). { apply FE. }
    assert (LK : nth_error (w_eps w) k = Some (Some e')) by (rewrite EP, nth_error_app1 by lia; auto).
    assert (LW : lookup w k = Some e') by (unfold lookup; rewrite LK; auto).
    exists e'. split; auto. rewrite SE. cbn [ep_filters ep_group set_members]. split; auto. split; auto. rewrite <- SE.
    destruct (start_born _ _ _ _ _ _ H LW) as [(c3 & N3 & B)|[LG _]]; [congruence|]. exfalso. unfold is_logger in LG. assert (k < length (SpecRouter.confs c))%nat by (apply nth_error_Some; congruence). unfold SpecRouter.confs in *. lia. }
  assert (B : exists es0, Forall2 (fun cc e => ep_filters e = ec_filters cc /\ ep_group e = ec_group cc /\ born v cc e) (SpecRouter.confs c) es0 /\ link_groups (map Some es) = map Some es0).
  { assert (LCF : length (SpecRouter.confs c) = length es) by (fold (SpecRouter.confs c) in F; apply (Forall2_len _ _ _ _ _ F)).
    assert (Q : forall l cs, length l = length cs -> (forall k cc, nth_error cs k = Some cc -> exists e : ep, nth_error l k = Some (Some e) /\ ep_filters e = ec_filters cc /\ ep_group e = ec_group cc /\ born v cc e) ->
      exists es0, Forall2 (fun cc e => ep_filters e = ec_filters cc /\ ep_group e = ec_group cc /\ born v cc e) cs es0 /\ l = map Some es0).
    { induction l as [|x l IH]; intros [|cc cs] L Q; try discriminate; [exists []; auto|]. destruct (Q 0%nat cc eq_refl) as (e & N & P). cbn in N. inversion N; subst x.
      destruct (IH cs) as (es0 & F0 & ->); [cbn in L; lia|intros k; apply (Q (Datatypes.S k))|]. exists (e :: es0). split; [constructor; auto|auto]. }
    apply Q; [lia|]. intros k cc N. destruct (AT k cc N) as (e & NE & R). rewrite EP in NE.
    assert (k < length (SpecRouter.confs c))%nat by (apply nth_error_Some; congruence). rewrite nth_error_app1 in NE by lia. exists e. auto. }
  destruct B as (es0 & FB & EB). unfold SpecRouter.confs in FB. unfold c in FB. cbn [to_config cf_uarts cf_udps cf_tcps] in FB.
  apply Forall2_app_inv_l in FB. destruct FB as (e1 & r1 & F1 & FB & ->). apply Forall2_app_inv_l in FB. destruct FB as (e2 & e3 & F2 & F3 & ->).
  exists e1, e2, e3, ls. split; [rewrite EP, EB, !map_app, <- !app_assoc; auto|].
  assert (ML : forall A B (P : A -> B -> Prop) C (h : C -> A) l l', Forall2 P (map h l) l' -> Forall2 (fun x => P (h x)) l l').
  { clear. intros A B P C h l. induction l as [|x l IH]; intros l' F; inversion F; subst; constructor; auto. }
  assert (MI : forall A B (P Q : A -> B -> Prop), (forall a b, P a b -> Q a b) -> forall l l', Forall2 P l l' -> Forall2 Q l l').
  { clear. intros A B P Q I l l' F. induction F; constructor; auto. }
  split; [|split; [|split; [|split]]].
  - apply ML in F1. eapply MI; [|exact F1]. cbn. intros u e (A & B & _ & t & K & _). split; auto. split; auto. exists t. exact K.
  - apply ML in F2. eapply MI; [|exact F2]. cbn. intros u e (A & B & _ & t & K & _). split; auto. split; auto. eexists. exists t. split; [exact K|]. intros ->. reflexivity.
  - apply ML in F3. eapply MI; [|exact F3]. cbn. intros u e (A & B & _ & K). auto.
  - rewrite Forall_forall in *. intros e I. split; [|auto]. apply LF. auto.
  - rewrite LC. unfold log_count, c. cbn [to_config cf_log]. destruct (is_empty (lo_dir (g_log g))); auto.
Qed.
Print Assumptions C77_started.

(* a configuration with three endpoints that starts *)
Definition ex_settings : list Z := lit "[General]
SnifferSysid = 254
DeduplicationPeriod = 200
[UdpEndpoint air]
Mode = server
Address = 0.0.0.0
Port = 14550
BlockMsgIdIn = 30,31
Group = links
[TcpEndpoint ground]
Address = 10.0.0.1
Port = 5790
RetryTimeout = 3
AllowSrcSysOut = 1
Group = links
".
Definition ex_venv : env := mkEnv (fun _ => None) (fun _ => 0) (fun _ => 0) (fun _ => true).
Definition ex_y : sys := mkSys 0 [] 0 None 0.
Example C77_nonvacuous : exists cs g w,
  Forall plain_node [NData ex_settings] /\ parse (NData ex_settings) [] = Ok (0, cs) /\ Forall (fun s => (length (se_name s) < 100)%nat) cs /\
  parse_confs cs g_default = Ok (0, g) /\ g_sniffer g = 254 /\
  map ud_filters (g_udps g) = [mkFilters [] [] [] [] [] [] [] [30; 31] [] [] [] []] /\ map tc_group (g_tcps g) = [lit "links"] /\
  start ex_venv ex_y (to_config (fun _ => 7) g) = Some w /\ length (w_eps w) = 2%nat.
Proof.
  eexists. eexists. eexists. split; [constructor; [|constructor]; cbn [plain_node]; unfold plain; lit_plain|]. split; [vm_compute; reflexivity|]. split; [repeat constructor; vm_compute; lia|].
  split; [vm_compute; reflexivity|]. split; [reflexivity|]. split; [reflexivity|]. split; [reflexivity|]. split; [vm_compute; reflexivity|]. reflexivity.
Qed.

(* ==== C78: the settings take effect with their value ==== *)

(* Proved for values that fit: 16 bits for the sniffer, 32 bits for the period and for the interval in milliseconds. *)
Theorem C78_sniffer_partial : forall v y c w, start v y c = Some w -> 0 <= cf_sniffer c < 65536 -> w_sniffer w = cf_sniffer c.
Proof.
  intros v y c w H R. destruct (start_shape _ _ _ _ H) as (es & ls & _ & _ & _ & _ & _ & S & _). rewrite S. unfold u16. apply Z.mod_small. lia.
Qed.
Print Assumptions C78_sniffer_partial.
Theorem C78_period_partial : forall v y c w, start v y c = Some w -> 0 <= cf_dedup c < 4294967296 -> dd_period (w_dedup w) = cf_dedup c.
Proof.
  intros v y c w H R. destruct (start_shape _ _ _ _ H) as (es & ls & _ & _ & _ & _ & _ & _ & _ & _ & S & _). rewrite S. unfold dedup_new. cbn [dd_period].
  destruct (Z.ltb_spec 0 (cf_dedup c)); unfold u32; rewrite Z.mod_small; lia.
Qed.
Print Assumptions C78_period_partial.
Theorem C78_interval_partial : forall f v c its w k r t, wf_table (v_tbl v) -> runs f v c its w -> In t (waiting w (is_retry k)) ->
  tcp_conf c k = Some r -> r <= 4294967 -> tm_ms t = 1000 * r.
Proof.
  intros f v c its w k r t WT R I C L. destruct (C32_never_two _ _ _ _ _ k WT R) as [E|(t' & e & r' & E & _ & _ & C' & P & M)]; rewrite E in I; [destruct I|]. destruct I as [<-|[]].
  rewrite C in C'. inversion C'; subst r'. rewrite M. unfold u32. apply Z.mod_small. lia.
Qed.
Print Assumptions C78_interval_partial.
(* Refuted beyond that, for values the configuration accepts: sniffer 65537 is sniffer 1, a period of 2^32 ms is none,
   and an interval of 2^29 s arms the timer with 0 ms, which is never.  On the command line 65537 also means 1. *)
Theorem C78_refuted : exists cs g, parse (NData (lit "[General]
SnifferSysid = 65537
DeduplicationPeriod = 4294967296
[TcpEndpoint a]
Address = 10.0.0.1
Port = 5790
RetryTimeout = 536870912
")) [] = Ok (0, cs) /\ parse_confs cs g_default = Ok (0, g) /\ g_sniffer g = 65537 /\ g_dedup g = 4294967296 /\ map tc_retry (g_tcps g) = [536870912] /\
  (forall v y host w, start v y (to_config host g) = Some w -> w_sniffer w = 1 /\ dd_period (w_dedup w) = 0) /\
  (forall f v host its w t, wf_table (v_tbl v) -> runs f v (to_config host g) its w -> In t (waiting w (is_retry 0)) -> tm_ms t = 0).
Proof.
  eexists. eexists. split; [vm_compute; reflexivity|]. split; [vm_compute; reflexivity|]. split; [reflexivity|]. split; [reflexivity|]. split; [reflexivity|]. split.
  - intros v y host w H. destruct (start_shape _ _ _ _ H) as (es & ls & _ & _ & _ & _ & _ & S & _ & _ & D & _). rewrite S, D. split; reflexivity.
  - intros f v host its w t WT R I. destruct (C32_never_two _ _ _ _ _ 0 WT R) as [E|(t' & e & r' & E & _ & _ & C' & P & M)]; rewrite E in I; [destruct I|]. destruct I as [<-|[]].
    unfold tcp_conf in C'. cbn in C'. inversion C'; subst r'. rewrite M. reflexivity.
Qed.
Print Assumptions C78_refuted.
Theorem C78_cli_refuted : exists g, cli_option (mkCo 115 (lit "65537")) g_default = (None, g) /\ g_sniffer g = 1.
Proof. eexists. split; vm_compute; reflexivity. Qed.
Print Assumptions C78_cli_refuted.
