(* C87: the address used is the address written.  C88: multicast.  C89: the scope of link-local addresses. *)
From Coq Require Import String.
From Verif Require Import Base Names NamesProofs Num SpecNum NumProofs Regex SpecInet Inet InetProofs Prop_Main.
Open Scope string_scope.
Open Scope list_scope.
Open Scope Z_scope.

(* ==== C87: the address used is the address written ==== *)

Lemma digs_of : forall s, digits s /\ (1 <= length s <= 3)%nat -> digs s.
Proof. intros s [D L]. split; auto. intros ->. cbn in L. lia. Qed.
Lemma part_fun : forall s m n, digits s -> part s m -> part s n -> m = n.
Proof. intros s m n D [A _] [B _]. eapply constant_fun; eauto. Qed.
(* Dotted decimal with the usual numbers from 0 to 255 is accepted, and is the address used. *)
Theorem C87_ipv4_partial : forall s a, written4 s a -> validate_ip s = true /\ ip_str_is_ipv6 s = false /\ inet_addr s = a.
Proof.
  intros s a (s1 & n1 & s2 & n2 & s3 & n3 & s4 & n4 & [D1 L1] & [D2 L2] & [D3 L3] & [D4 L4] & -> & ->).
  assert (O : forall s n, decimal s n -> n <= 255 -> octet s) by (intros s n D L; exists n; split; auto; lia).
  assert (O1 := O _ _ D1 L1). assert (O2 := O _ _ D2 L2). assert (O3 := O _ _ D3 L3). assert (O4 := O _ _ D4 L4).
  assert (V : validate_ip (s1 ++ lit "." ++ s2 ++ lit "." ++ s3 ++ lit "." ++ s4) = true) by (apply C80_ipv4_partial; auto). split; auto.
  assert (DO : dotted (s1 ++ lit "." ++ s2 ++ lit "." ++ s3 ++ lit "." ++ s4)).
  { exists s1, s2, s3, s4. split; auto. repeat (apply Forall_cons; [apply octet_digits; auto|]). constructor. }
  split; [apply C75_brackets; auto|].
  assert (P : forall s n, decimal s n -> n <= 255 -> digits s /\ part s n). { intros s n D L. split; [apply octet_digits; eauto|]. split; auto. apply decimal_constant; auto. }
  destruct (P _ _ D1 L1) as [I1 P1]. destruct (P _ _ D2 L2) as [I2 P2]. destruct (P _ _ D3 L3) as [I3 P3]. destruct (P _ _ D4 L4) as [I4 P4].
  destruct (inet_addr_groups s1 s2 s3 s4) as [(m1 & m2 & m3 & m4 & Q1 & Q2 & Q3 & Q4 & E)|(N & _)].
  1-4: apply digs_of; apply octet_digits; auto.
  - rewrite E, (part_fun s1 n1 m1), (part_fun s2 n2 m2), (part_fun s3 n3 m3), (part_fun s4 n4 m4) by auto. reflexivity.
  - exfalso. apply N. exists n1, n2, n3, n4. auto.
Qed.
Print Assumptions C87_ipv4_partial.
(* Exactly which address an accepted IPv4 text stands for: the parts are read as C constants, and if one of them is no
   constant or above 255, the address is 255.255.255.255. *)
Theorem C87_ipv4_exact_partial : forall s, validate_ip s = true -> ip_str_is_ipv6 s = false ->
  exists a b c d, s = a ++ lit "." ++ b ++ lit "." ++ c ++ lit "." ++ d /\
  ((exists n1 n2 n3 n4, constant a n1 /\ constant b n2 /\ constant c n3 /\ constant d n4 /\ Forall (fun n => 0 <= n <= 255) [n1; n2; n3; n4] /\ inet_addr s = [n1; n2; n3; n4]) \/
   (~ (exists n1 n2 n3 n4, constant a n1 /\ constant b n2 /\ constant c n3 /\ constant d n4 /\ Forall (fun n => 0 <= n <= 255) [n1; n2; n3; n4]) /\ inet_addr s = [255; 255; 255; 255])).
Proof.
  intros s V I6. apply C75_brackets in I6; auto. destruct I6 as (a & b & c & d & -> & F). exists a, b, c, d. split; auto.
  inversion F as [|? ? FA F1]; subst. inversion F1 as [|? ? FB F2]; subst. inversion F2 as [|? ? FC F3]; subst. inversion F3 as [|? ? FD _]; subst.
  destruct (inet_addr_groups a b c d) as [(m1 & m2 & m3 & m4 & [Q1 L1] & [Q2 L2] & [Q3 L3] & [Q4 L4] & E)|(N & E)]; try (apply digs_of; auto).
  - left. exists m1, m2, m3, m4. split; [auto|]. split; [auto|]. split; [auto|]. split; [auto|]. split; [|auto].
    repeat (apply Forall_cons; [split; [eapply constant_nonneg; eauto|auto]|]). constructor.
  - right. split; auto. intros (n1 & n2 & n3 & n4 & C1 & C2 & C3 & C4 & G). apply N. exists n1, n2, n3, n4.
    inversion G as [|? ? G1 G']; subst. inversion G' as [|? ? G2 G'']; subst. inversion G'' as [|? ? G3 G''']; subst. inversion G''' as [|? ? G4 _]; subst. unfold part. repeat split; auto; lia.
Qed.
Print Assumptions C87_ipv4_exact_partial.

Definition brackets (s : list Z) : list Z := lit "[" ++ s ++ lit "]".
Lemma strip_brackets : forall s, strip (brackets s) = s.
Proof. intros s. unfold strip, brackets. change (lit "[" ++ s ++ lit "]") with (91 :: s ++ [93]). cbn [tl]. apply removelast_last. Qed.
Lemma numeral_bound : forall s n, numeral 16 s n -> 0 <= n < 16 ^ Z.of_nat (length s).
Proof.
  induction 1 as [|s n c d N IH D L]; [cbn; lia|]. rewrite app_length. cbn [length]. rewrite Nat2Z.inj_add, Z.pow_add_r by lia. change (16 ^ Z.of_nat 1) with 16.
  assert (0 <= d < 16) by (unfold digit_char in D; lia). lia.
Qed.
Lemma group_word : forall t v, group_text t v -> word16 v.
Proof.
  intros t v [L N]. apply numeral_bound in N. split; [lia|]. assert (16 ^ Z.of_nat (length t) <= 16 ^ 4) by (apply Z.pow_le_mono_r; lia). change (16 ^ 4) with 65536 in *. lia.
Qed.
Lemma groups_words : forall ts vs, Forall2 group_text ts vs -> Forall word16 vs.
Proof. induction 1; constructor; auto. eapply group_word; eauto. Qed.
Lemma written6_words : forall s g, written6 s g -> length g = 8%nat /\ Forall word16 g.
Proof.
  intros s g [(ts & F & L & _)|(ta & a & tb & b & FA & FB & L & _ & ->)]; [split; auto; eapply groups_words; eauto|].
  split. { rewrite !app_length, repeat_length. lia. } apply Forall_app. split; [eapply groups_words; eauto|]. apply Forall_app. split; [|eapply groups_words; eauto].
  apply Forall_forall. intros w I. apply repeat_spec in I. subst. split; lia.
Qed.
(* An IPv6 text means one address, whatever library call writes or reads it. *)
Lemma written6_fun : forall s g h, written6 s g -> written6 s h -> g = h.
Proof. intros s g h A B. apply pton6_written in A. apply pton6_written in B. congruence. Qed.
(* A UDP endpoint with a proper IPv6 address uses that address, or joins that group; a TCP endpoint connects to it. *)
Theorem C87_ipv6_partial : forall s g ifs junk junk2 ifx server, written6 s g ->
  let u := udp6 ifs junk junk2 ifx server (brackets s) in
  (s6_join u = None /\ s6_addr u = g \/ s6_join u = Some (g, ifx) /\ s6_addr u = repeat 0 8 /\ server = true) /\
  (forall t, tcp6 ifs (brackets s) = Some t -> s6_addr t = g).
Proof.
  intros s g ifs junk junk2 ifx server W u. destruct (written6_words s g W) as [L F]. pose proof (pton6_written s g W) as P. pose proof (pton6_ntop6 g L F) as R. split.
  - unfold u, udp6. rewrite strip_brackets, P. cbv zeta. destruct (length (ntop6 g) + 1 <=? length (brackets s))%nat.
    + rewrite R. destruct (server && is_multicast (ntop6 g)) eqn:M; cbn [s6_join s6_addr]; [right|left; auto]. apply andb_prop in M. split; [reflexivity|split; [reflexivity|tauto]].
    + rewrite P. destruct (server && is_multicast s) eqn:M; cbn [s6_join s6_addr]; [right|left; auto]. apply andb_prop in M. split; [reflexivity|split; [reflexivity|tauto]].
  - intros t T. unfold tcp6 in T. rewrite strip_brackets, P in T. destruct (is_multicast s); [discriminate|]. inversion T; subst. reflexivity.
Qed.
Print Assumptions C87_ipv6_partial.
(* Refuted: a leading zero means octal; numbers above 255 and leading zeros before an 8 or 9 give the broadcast address;
   a text that is no IPv6 address makes TCP connect to ::, and makes UDP use what happens to be on the stack. *)
Theorem C87_octal_refuted : validate_ip (lit "10.0.0.010") = true /\ inet_addr (lit "10.0.0.010") = [10; 0; 0; 8].
Proof. split; vm_compute; reflexivity. Qed.
Print Assumptions C87_octal_refuted.
Theorem C87_broadcast_refuted : (validate_ip (lit "10.0.0.256") = true /\ inet_addr (lit "10.0.0.256") = [255; 255; 255; 255]) /\
  (validate_ip (lit "192.168.1.08") = true /\ inet_addr (lit "192.168.1.08") = [255; 255; 255; 255]).
Proof. repeat split; vm_compute; reflexivity. Qed.
Print Assumptions C87_broadcast_refuted.
Theorem C87_garbage_refuted : forall ifs junk2 ifx server, exists s, validate_ip (brackets s) = true /\ (forall g, ~ written6 s g) /\
  s6_addr (udp6 ifs [0;0;0;0;0;0;0;1] junk2 ifx server (brackets s)) = [0;0;0;0;0;0;0;1] /\
  s6_addr (udp6 ifs [0;0;0;0;0;0;0;2] junk2 ifx server (brackets s)) = [0;0;0;0;0;0;0;2] /\
  tcp6 ifs (brackets s) = Some (mkS6 None (repeat 0 8) 0).
Proof.
  intros ifs junk2 ifx server. exists (lit "1:2"). split; [vm_compute; reflexivity|]. split. { intros g W. apply pton6_written in W. vm_compute in W. discriminate. }
  destruct server; vm_compute; auto.
Qed.
Print Assumptions C87_garbage_refuted.
Lemma lower_group : forall t, (1 <= length t <= 4)%nat -> (exists v, scan_num 16 0 t = (v, [])) -> exists v, scan_num 16 0 t = (v, []) /\ group_text t v.
Proof.
  intros t L (v & S). exists v. split; auto. split; auto. apply scan_num_spec in S. destruct S as (ds & E & N & _). rewrite app_nil_r in E. subst. apply nums_numeral. exact N.
Qed.
Example C87_nonvacuous : written4 (lit "192.168.1.10") [192; 168; 1; 10] /\ written6 (lit "fd00:0::1:02") [64768; 0; 0; 0; 0; 0; 1; 2] /\
  validate_ip (brackets (lit "fd00:0::1:02")) = true.
Proof.
  assert (D : forall n, 0 <= n < 10 -> decimal [48 + n] n) by (intros; apply d_one; auto).
  assert (D2 : forall a b, 0 < a < 10 -> 0 <= b < 10 -> decimal [48 + a; 48 + b] (10 * a + b)). { intros a b A B. apply (d_more [48 + a] a b); auto; try lia. apply D. lia. }
  assert (D3 : forall a b c, 0 < a < 10 -> 0 <= b < 10 -> 0 <= c < 10 -> decimal [48 + a; 48 + b; 48 + c] (10 * (10 * a + b) + c)). { intros a b c A B C. apply (d_more [48 + a; 48 + b] (10 * a + b) c); auto; try lia. }
  split; [|split].
  - exists (lit "192"), 192, (lit "168"), 168, (lit "1"), 1, (lit "10"), 10.
    split; [split; [apply (D3 1 9 2); lia|lia]|]. split; [split; [apply (D3 1 6 8); lia|lia]|]. split; [split; [apply (D 1); lia|lia]|]. split; [split; [apply (D2 1 0); lia|lia]|]. split; reflexivity.
  - assert (G : forall t v, (1 <= length t <= 4)%nat -> scan_num 16 0 t = (v, []) -> group_text t v). { intros t v L S. destruct (lower_group t L (ex_intro _ v S)) as (w & S2 & G). congruence. }
    right. exists [lit "fd00"; lit "0"], [64768; 0], [lit "1"; lit "02"], [1; 2].
    split. { repeat (apply Forall2_cons; [apply G; [cbn; lia|reflexivity]|]). constructor. } split. { repeat (apply Forall2_cons; [apply G; [cbn; lia|reflexivity]|]). constructor. }
    split; [cbn; lia|]. split; reflexivity.
  - vm_compute. reflexivity.
Qed.

(* ==== C88: multicast ==== *)

Lemma text_head : forall s g w r, written6 s g -> g = w :: r -> 4096 <= w -> Forall (fun c => ~ 65 <= c <= 90) s -> exists q, s = phex 8 w ++ q.
Proof.
  intros s g w r W E B NU.
  assert (K : forall t ts vs, Forall2 group_text (t :: ts) vs -> (exists vr, vs = w :: vr) -> (exists q, s = t ++ q) -> exists q, s = phex 8 w ++ q).
  { intros t ts vs F (vr & ->) (q & ES). inversion F as [|? ? ? ? [L N] _]; subst. exists q. f_equal.
    apply Forall_app in NU. destruct NU as [NU _]. pose proof (numeral_bound _ _ N) as NB.
    assert (L4 : length t = 4%nat). { destruct (Nat.eq_dec (length t) 4); auto. exfalso. assert (16 ^ Z.of_nat (length t) <= 16 ^ 3) by (apply Z.pow_le_mono_r; lia). change (16 ^ 3) with 4096 in *. lia. }
    do 5 (destruct t as [|? t]; try discriminate). apply nums_numeral in N.
    inversion N as [|? ? d1 ? ? C1 B1 N1]; subst. inversion N1 as [|? ? d2 ? ? C2 B2 N2]; subst. inversion N2 as [|? ? d3 ? ? C3 B3 N3]; subst. inversion N3 as [|? ? d4 ? ? C4 B4 N4]; subst. inversion N4; subst.
    assert (HC : forall c d, digit_char c d -> d < 16 -> ~ 65 <= c <= 90 -> c = hexc d /\ 0 <= d). { intros c d D L' NC. unfold hexc, digit_char in *. destruct (Z.ltb_spec d 10); lia. }
    inversion NU as [|? ? U1 NU1]; subst. inversion NU1 as [|? ? U2 NU2]; subst. inversion NU2 as [|? ? U3 NU3]; subst. inversion NU3 as [|? ? U4 _]; subst.
    destruct (HC _ _ C1 B1 U1) as [E1 R1]. destruct (HC _ _ C2 B2 U2) as [E2 R2]. destruct (HC _ _ C3 B3 U3) as [E3 R3]. destruct (HC _ _ C4 B4 U4) as [E4 R4].
    remember ((((0 * 16 + d1) * 16 + d2) * 16 + d3) * 16 + d4) as w eqn:EW. clear N N1 N2 N3 N4 F.
    assert (Q1 : w / 16 = d1 * 256 + d2 * 16 + d3 /\ w mod 16 = d4). { pose proof (Z.div_mod w 16). pose proof (Z.mod_pos_bound w 16). lia. }
    assert (Q2 : (w / 16) / 16 = d1 * 16 + d2 /\ (w / 16) mod 16 = d3). { pose proof (Z.div_mod (w / 16) 16). pose proof (Z.mod_pos_bound (w / 16) 16). lia. }
    assert (Q3 : (w / 16 / 16) / 16 = d1 /\ (w / 16 / 16) mod 16 = d2). { pose proof (Z.div_mod (w / 16 / 16) 16). pose proof (Z.mod_pos_bound (w / 16 / 16) 16). lia. }
    destruct Q1 as [Q1 M1], Q2 as [Q2 M2], Q3 as [Q3 M3]. cbn [phex]. rewrite M1, M2, M3, Q3. destruct (Z.ltb_spec w 16); [lia|]. destruct (Z.ltb_spec (w / 16) 16); [lia|]. destruct (Z.ltb_spec (w / 16 / 16) 16); [lia|].
    destruct (Z.ltb_spec d1 16); [|lia]. cbn [app]. congruence. }
  destruct W as [(ts & F & L & ES)|(ta & a & tb & b & FA & FB & L & ES & EG)].
  - destruct ts as [|t ts]; [inversion F; subst; discriminate|]. apply (K t ts g F); [eauto|]. subst s. destruct ts; cbn [join]; [exists []; rewrite app_nil_r; auto|eauto].
  - rewrite E in EG. clear E. destruct ta as [|t ta]; [inversion FA; subst; cbn [app length] in *|].
    + exfalso. destruct (8 - 0 - length b)%nat eqn:E8; [lia|]. cbn [repeat app] in EG. inversion EG. lia.
    + apply (K t ta a FA).
      * inversion FA as [|? v ? ? _ _]; subst. cbn [app] in EG. injection EG as EW _. rewrite EW. eauto.
      * subst s. destruct ta; cbn [join]; rewrite <- ?app_assoc; eauto.
Qed.
Lemma ntop_head : forall w r, 0 < w -> length (w :: r) = 8%nat -> exists q, ntop6 (w :: r) = phex 8 w ++ q.
Proof.
  intros w r P L. unfold ntop6. cbn [fmt6]. destruct (best_run (w :: r)) as [[b n]|] eqn:E; [|exists (fmt6 false None 1 r); reflexivity].
  destruct (best_run_spec _ _ _ E) as (N & x & y & G & LX). assert (B : b <> 0%nat). { intros ->. destruct x; [|discriminate]. destruct n; [lia|]. cbn [repeat app] in G. inversion G. lia. }
  cbn [inside]. replace (b <=? 0)%nat with false by (symmetry; apply Nat.leb_gt; lia). cbn [andb Nat.eqb app]. eauto.
Qed.
Lemma prefix_app : forall p q r, has_prefix p (p ++ q ++ r) = true.
Proof. induction p; intros; cbn [app has_prefix]; auto. rewrite Z.eqb_refl. cbn [andb]. auto. Qed.
Lemma accepted_lower : forall s, validate_ip (brackets s) = true -> Forall (fun c => ~ 65 <= c <= 90) s.
Proof.
  intros s V. apply C75_shapes in V. assert (C : colons (brackets s)).
  { apply C75_brackets; [apply C75_shapes; auto|]. destruct V as [V|V]; [|apply C75_brackets; [apply C75_shapes|]; auto]. exfalso. destruct V as (a & b & c & d & E & F). inversion F as [|? ? [DA LA] _]; subst.
    destruct a as [|x a]; [cbn in LA; lia|]. apply Forall_inv in DA. cbn in E. inversion E. subst. lia. }
  apply colons_chars in C. destruct C as [C _]. unfold brackets in C. apply Forall_app in C. destruct C as [_ C]. apply Forall_app in C. destruct C as [C _]. eapply Forall_impl; [|exact C]. cbv beta. lia.
Qed.
Lemma ff0_head : forall w, 65280 <= w <= 65295 -> exists c, phex 8 w = lit "ff0" ++ [c].
Proof.
  intros w B. assert (In w (map (fun k => 65280 + Z.of_nat k) (seq 0 16))). { apply in_map_iff. exists (Z.to_nat (w - 65280)). split; [lia|]. apply in_seq. lia. }
  cbn [map seq In] in H. repeat (destruct H as [<-|H]; [eexists; vm_compute; reflexivity|]). contradiction.
Qed.
Lemma text_of : forall s g, written6 s g -> validate_ip (brackets s) = true -> forall w r, g = w :: r -> 4096 <= w -> forall t,
  t = s \/ t = ntop6 g -> exists q, t = phex 8 w ++ q.
Proof.
  intros s g W V w r E B t [-> | ->].
  - eapply text_head; eauto. apply accepted_lower; auto.
  - subst g. apply ntop_head; [lia|]. apply written6_words in W. tauto.
Qed.
(* A UDP server with a multicast address of the range ff00::/12 joins exactly that group and listens on all addresses;
   TCP refuses it; a UDP client sends to it. *)
Theorem C88_joins_partial : forall s g w r ifs junk junk2 ifx, written6 s g -> validate_ip (brackets s) = true -> g = w :: r -> 65280 <= w <= 65295 ->
  let u := udp6 ifs junk junk2 ifx true (brackets s) in let c := udp6 ifs junk junk2 ifx false (brackets s) in
  s6_join u = Some (g, ifx) /\ s6_addr u = repeat 0 8 /\ s6_join c = None /\ s6_addr c = g /\ tcp6 ifs (brackets s) = None.
Proof.
  intros s g w r ifs junk junk2 ifx W V E B u c. destruct (ff0_head w B) as (x & HX).
  assert (M : forall t, t = s \/ t = ntop6 g -> is_multicast t = true). { intros t T. destruct (text_of s g W V w r E ltac:(lia) t T) as (q & ->). unfold is_multicast. rewrite HX, <- app_assoc. apply prefix_app. }
  destruct (C87_ipv6_partial s g ifs junk junk2 ifx true W) as [U _]. destruct (C87_ipv6_partial s g ifs junk junk2 ifx false W) as [C _]. fold u in U. fold c in C.
  assert (J : s6_join u <> None).
  { unfold u, udp6. rewrite strip_brackets, (pton6_written s g W). cbv zeta. destruct (length (ntop6 g) + 1 <=? length (brackets s))%nat; rewrite M by auto; discriminate. }
  destruct U as [[U _]|(U1 & U2 & _)]; [congruence|]. destruct C as [[C1 C2]|(_ & _ & C)]; [|discriminate].
  repeat (split; [assumption|]). unfold tcp6. rewrite strip_brackets, M by auto. reflexivity.
Qed.
Print Assumptions C88_joins_partial.
(* Refuted: other multicast addresses (here a transient one, site scope) are not joined; 0ff0::/16, which is not multicast,
   is treated as multicast; and the interface on which a group is joined is never set. *)
Theorem C88_transient_refuted : forall ifs junk junk2 ifx, exists s g, written6 s g /\ multicast6 g /\ validate_ip (brackets s) = true /\
  s6_join (udp6 ifs junk junk2 ifx true (brackets s)) = None /\ exists t, tcp6 ifs (brackets s) = Some t.
Proof.
  intros ifs junk junk2 ifx. exists (lit "ff15::1"), [65301; 0; 0; 0; 0; 0; 0; 1].
  assert (W : written6 (lit "ff15::1") [65301; 0; 0; 0; 0; 0; 0; 1]).
  { right. exists [lit "ff15"], [65301], [lit "1"], [1]. assert (G : forall t v, (1 <= length t <= 4)%nat -> scan_num 16 0 t = (v, []) -> group_text t v). { intros t v L S. destruct (lower_group t L (ex_intro _ v S)) as (w & S2 & G). congruence. }
    split. { apply Forall2_cons; [apply G; [cbn; lia|reflexivity]|constructor]. } split. { apply Forall2_cons; [apply G; [cbn; lia|reflexivity]|constructor]. } split; [cbn; lia|]. split; reflexivity. }
  split; [exact W|]. split; [do 2 eexists; split; [reflexivity|lia]|]. split; [vm_compute; reflexivity|]. split; [vm_compute; reflexivity|]. eexists. vm_compute. reflexivity.
Qed.
Print Assumptions C88_transient_refuted.
Theorem C88_unicast_refuted : forall ifs junk junk2 ifx, exists s g, written6 s g /\ ~ multicast6 g /\ validate_ip (brackets s) = true /\
  s6_join (udp6 ifs junk junk2 ifx true (brackets s)) = Some (g, ifx) /\ tcp6 ifs (brackets s) = None.
Proof.
  intros ifs junk junk2 ifx. exists (lit "ff0::1"), [4080; 0; 0; 0; 0; 0; 0; 1].
  assert (W : written6 (lit "ff0::1") [4080; 0; 0; 0; 0; 0; 0; 1]).
  { right. exists [lit "ff0"], [4080], [lit "1"], [1]. assert (G : forall t v, (1 <= length t <= 4)%nat -> scan_num 16 0 t = (v, []) -> group_text t v). { intros t v L S. destruct (lower_group t L (ex_intro _ v S)) as (w & S2 & G). congruence. }
    split. { apply Forall2_cons; [apply G; [cbn; lia|reflexivity]|constructor]. } split. { apply Forall2_cons; [apply G; [cbn; lia|reflexivity]|constructor]. } split; [cbn; lia|]. split; reflexivity. }
  split; [exact W|]. split. { intros (w & r & E & B). inversion E. lia. } split; [vm_compute; reflexivity|]. split; vm_compute; reflexivity.
Qed.
Print Assumptions C88_unicast_refuted.
Theorem C88_interface_refuted : forall ifs junk junk2 ifx1 ifx2, ifx1 <> ifx2 -> exists s g, written6 s g /\ multicast6 g /\ validate_ip (brackets s) = true /\
  s6_join (udp6 ifs junk junk2 ifx1 true (brackets s)) <> s6_join (udp6 ifs junk junk2 ifx2 true (brackets s)).
Proof.
  intros ifs junk junk2 ifx1 ifx2 N. exists (lit "ff02::1"), [65282; 0; 0; 0; 0; 0; 0; 1].
  assert (W : written6 (lit "ff02::1") [65282; 0; 0; 0; 0; 0; 0; 1]).
  { right. exists [lit "ff02"], [65282], [lit "1"], [1]. assert (G : forall t v, (1 <= length t <= 4)%nat -> scan_num 16 0 t = (v, []) -> group_text t v). { intros t v L S. destruct (lower_group t L (ex_intro _ v S)) as (w & S2 & G). congruence. }
    split. { apply Forall2_cons; [apply G; [cbn; lia|reflexivity]|constructor]. } split. { apply Forall2_cons; [apply G; [cbn; lia|reflexivity]|constructor]. } split; [cbn; lia|]. split; reflexivity. }
  split; [exact W|]. split; [do 2 eexists; split; [reflexivity|lia]|]. split; [vm_compute; reflexivity|].
  rewrite !(proj1 (C88_joins_partial _ _ _ _ ifs junk junk2 _ W eq_refl eq_refl ltac:(lia))). congruence.
Qed.
Print Assumptions C88_interface_refuted.
Example C88_nonvacuous : exists s g w r, written6 s g /\ validate_ip (brackets s) = true /\ g = w :: r /\ 65280 <= w <= 65295.
Proof.
  exists (lit "ff02::1"), [65282; 0; 0; 0; 0; 0; 0; 1], 65282, [0; 0; 0; 0; 0; 0; 1]. assert (G : forall t v, (1 <= length t <= 4)%nat -> scan_num 16 0 t = (v, []) -> group_text t v). { intros t v L S. destruct (lower_group t L (ex_intro _ v S)) as (w & S2 & G). congruence. }
  split. { right. exists [lit "ff02"], [65282], [lit "1"], [1].
    split. { apply Forall2_cons; [apply G; [cbn; lia|reflexivity]|constructor]. } split. { apply Forall2_cons; [apply G; [cbn; lia|reflexivity]|constructor]. } split; [cbn; lia|]. split; reflexivity. }
  split; [vm_compute; reflexivity|]. split; [reflexivity|lia].
Qed.

(* ==== C89: the scope of link-local addresses ==== *)

Definition wellformed (ifs : list (Z * list Z)) : Prop := Forall (fun x => length (snd x) = 8%nat /\ Forall word16 (snd x)) ifs.
(* the first interface address that is [g] *)
Definition own (ifs : list (Z * list Z)) (g : list Z) (idx : Z) : Prop :=
  exists a b, ifs = a ++ (idx, g) :: b /\ (forall i h, In (i, h) a -> h <> g).
Lemma ntop6_inj : forall g h, length g = 8%nat -> Forall word16 g -> length h = 8%nat -> Forall word16 h -> ntop6 g = ntop6 h -> g = h.
Proof. intros g h LG FG LH FH E. pose proof (pton6_ntop6 g LG FG) as A. rewrite E, (pton6_ntop6 h LH FH) in A. congruence. Qed.
Lemma scope_own : forall ifs g idx, wellformed ifs -> own ifs g idx -> scope_id ifs (ntop6 g) = idx.
Proof.
  intros ifs g idx W (a & b & -> & N). unfold wellformed in W. apply Forall_app in W. destruct W as [WA WB]. apply Forall_inv in WB. cbn [snd] in WB. destruct WB as [LG FG].
  induction WA as [|[i h] a [LH FH] WA IH]; cbn [app scope_id].
  - destruct (list_eq_dec Z.eq_dec (ntop6 g) (ntop6 g)); congruence.
  - cbn [snd] in LH, FH. destruct (list_eq_dec Z.eq_dec (ntop6 h) (ntop6 g)) as [E|E].
    + exfalso. apply (N i h); [left; auto|]. apply ntop6_inj; auto.
    + apply IH. intros j k I. apply (N j k). right. auto.
Qed.
Lemma scope_other : forall ifs g, wellformed ifs -> length g = 8%nat -> Forall word16 g -> (forall i, ~ In (i, g) ifs) -> scope_id ifs (ntop6 g) = 0.
Proof.
  intros ifs g W LG FG N. induction W as [|[i h] r [LH FH] W IH]; cbn [scope_id]; auto. cbn [snd] in *. destruct (list_eq_dec Z.eq_dec (ntop6 h) (ntop6 g)) as [E|E].
  - exfalso. apply (N i). left. f_equal. apply ntop6_inj; auto.
  - apply IH. intros j I. apply (N j). right. auto.
Qed.
Lemma fe80_head : phex 8 65152 = lit "fe80". Proof. reflexivity. Qed.
(* An endpoint with an address fe80:... that is this host's own, written as the system writes it, gets the interface that
   has the address. *)
Theorem C89_own_partial : forall g r ifs idx junk junk2 ifx server, g = 65152 :: r -> length g = 8%nat -> Forall word16 g -> wellformed ifs -> own ifs g idx ->
  s6_scope (udp6 ifs junk junk2 ifx server (brackets (ntop6 g))) = idx /\ (exists t, tcp6 ifs (brackets (ntop6 g)) = Some t /\ s6_scope t = idx).
Proof.
  intros g r ifs idx junk junk2 ifx server E L F W O. pose proof (pton6_ntop6 g L F) as R.
  destruct (ntop_head 65152 r ltac:(lia) ltac:(subst; auto)) as (q & HQ). rewrite <- E, fe80_head in HQ.
  assert (LL : is_linklocal (ntop6 g) = true) by (rewrite HQ; unfold is_linklocal; reflexivity).
  assert (MC : is_multicast (ntop6 g) = false) by (rewrite HQ; reflexivity).
  split.
  - unfold udp6. rewrite strip_brackets, R. cbv zeta. replace (length (ntop6 g) + 1 <=? length (brackets (ntop6 g)))%nat with true. 2:{ symmetry. apply Nat.leb_le. unfold brackets. rewrite !app_length. cbn. lia. }
    cbn [s6_scope]. rewrite LL. apply scope_own; auto.
  - unfold tcp6. rewrite strip_brackets, MC, LL, R. eexists. split; [reflexivity|]. cbn [s6_scope]. apply scope_own; auto.
Qed.
Print Assumptions C89_own_partial.
(* Refuted: the link-local address of any other host gets scope 0, so nothing can be sent to it. *)
Theorem C89_peer_refuted : forall g r ifs junk junk2 ifx, g = 65152 :: r -> length g = 8%nat -> Forall word16 g -> wellformed ifs -> (forall i, ~ In (i, g) ifs) ->
  s6_scope (udp6 ifs junk junk2 ifx false (brackets (ntop6 g))) = 0 /\ (exists t, tcp6 ifs (brackets (ntop6 g)) = Some t /\ s6_scope t = 0).
Proof.
  intros g r ifs junk junk2 ifx E L F W O. pose proof (pton6_ntop6 g L F) as R.
  destruct (ntop_head 65152 r ltac:(lia) ltac:(subst; auto)) as (q & HQ). rewrite <- E, fe80_head in HQ.
  assert (LL : is_linklocal (ntop6 g) = true) by (rewrite HQ; unfold is_linklocal; reflexivity).
  assert (MC : is_multicast (ntop6 g) = false) by (rewrite HQ; reflexivity).
  split.
  - unfold udp6. rewrite strip_brackets, R. cbv zeta. replace (length (ntop6 g) + 1 <=? length (brackets (ntop6 g)))%nat with true. 2:{ symmetry. apply Nat.leb_le. unfold brackets. rewrite !app_length. cbn. lia. }
    cbn [s6_scope]. rewrite LL. apply scope_other; auto.
  - unfold tcp6. rewrite strip_brackets, MC, LL, R. eexists. split; [reflexivity|]. cbn [s6_scope]. apply scope_other; auto.
Qed.
Print Assumptions C89_peer_refuted.
(* Refuted: for TCP the own address must be written as the system writes it, and the part of fe80::/10 that does not start
   with fe80 gets no scope. *)
Theorem C89_text_refuted : let ifs := [(2, [65152; 0; 0; 0; 0; 0; 0; 1]); (3, [65168; 0; 0; 0; 0; 0; 0; 1])] in
  (exists s, written6 s [65152; 0; 0; 0; 0; 0; 0; 1] /\ validate_ip (brackets s) = true /\ exists t, tcp6 ifs (brackets s) = Some t /\ s6_scope t = 0) /\
  (forall junk junk2 ifx server, s6_scope (udp6 ifs junk junk2 ifx server (brackets (ntop6 [65168; 0; 0; 0; 0; 0; 0; 1]))) = 0 /\ linklocal6 [65168; 0; 0; 0; 0; 0; 0; 1]).
Proof.
  intros ifs. split.
  - exists (lit "fe80::0:1"). assert (G : forall t v, (1 <= length t <= 4)%nat -> scan_num 16 0 t = (v, []) -> group_text t v). { intros t v L S. destruct (lower_group t L (ex_intro _ v S)) as (w & S2 & G). congruence. }
    split. { right. exists [lit "fe80"], [65152], [lit "0"; lit "1"], [0; 1].
      split. { repeat (apply Forall2_cons; [apply G; [cbn; lia|reflexivity]|]). constructor. } split. { repeat (apply Forall2_cons; [apply G; [cbn; lia|reflexivity]|]). constructor. } split; [cbn; lia|]. split; reflexivity. }
    split; [vm_compute; reflexivity|]. eexists. split; [vm_compute; reflexivity|]. reflexivity.
  - intros junk junk2 ifx server. split; [destruct server; vm_compute; reflexivity|]. do 2 eexists. split; [reflexivity|lia].
Qed.
Print Assumptions C89_text_refuted.
Example C89_nonvacuous : let g := [65152; 0; 0; 0; 1; 2; 3; 4] in let ifs := [(1, [0;0;0;0;0;0;0;1]); (4, g)] in
  length g = 8%nat /\ Forall word16 g /\ wellformed ifs /\ own ifs g 4 /\ (forall i, ~ In (i, g) [(1, [0;0;0;0;0;0;0;1])]).
Proof.
  intros g ifs. split; [reflexivity|]. split; [repeat constructor; unfold word16; cbn; lia|]. split.
  { repeat (apply Forall_cons; [split; [reflexivity|repeat constructor; unfold word16; cbn; lia]|]). constructor. }
  split. { exists [(1, [0;0;0;0;0;0;0;1])], []. split; [reflexivity|]. intros i h [E|[]]. inversion E. discriminate. }
  intros i [E|[]]. inversion E.
Qed.
