(* C86: descriptors of endpoints. *)
From Coq Require Import String Permutation.
From Verif Require Import Base Names Num Regex Opts Main Prop_Main Descr.
Open Scope string_scope.
Open Scope list_scope.
Open Scope Z_scope.

(* ==== the specification: exactly the descriptors of [l] are open, each once ==== *)

Definition exactly (k : kern) (l : list Z) : Prop := Permutation (k_open k) l /\ NoDup l /\ Forall (fun d => 0 <= d) l.

(* an address a TCP endpoint refuses only after it made the socket *)
Definition tcp_multicast (d : dkind) : Prop := match d with DTcp ip _ => exists r, ip = lit "[ff0" ++ r | _ => False end.
(* addresses come from validated configurations *)
Definition proper (d : dkind) : Prop := match d with DTcp ip _ => validate_ip ip = true | _ => True end.

(* ==== lemmas ==== *)

Lemma mem_In : forall d l, mem d l = true <-> In d l.
Proof.
  intros. unfold mem. rewrite existsb_exists. split.
  - intros (x & I & E). apply Z.eqb_eq in E. subst. auto.
  - intros I. exists d. split; [auto|apply Z.eqb_refl].
Qed.
Lemma unused_max : forall l x, In x l -> x < unused l.
Proof. unfold unused. induction l as [|a l IH]; intros x I; [destruct I|]. cbn [fold_right]. destruct I as [->|I]; [|apply IH in I]; lia. Qed.
Lemma unused_pos : forall l, 0 <= unused l.
Proof. unfold unused. induction l; cbn [fold_right]; lia. Qed.

Lemma call_ex : forall o k l, exactly k l -> forall r k', call o k = (r, k') -> exactly k' l.
Proof. unfold call, exactly. intros o k l E r k' H. inversion H; subst. auto. Qed.
Lemma calls_ex : forall o n k l, exactly k l -> forall r k', calls o n k = (r, k') -> exactly k' l.
Proof.
  induction n; intros k l E r k' H; cbn [calls] in H; [inversion H; subst; auto|].
  destruct (call o k) as [x k1] eqn:C. apply (call_ex _ _ _ E) in C. destruct (x <? 0); [inversion H; subst; auto|eauto].
Qed.
Lemma make_ex : forall o k l, exactly k l -> forall d k', make o k = (d, k') ->
  (d = -1 /\ exactly k' l) \/ (0 <= d /\ ~ In d l /\ exactly k' (d :: l)).
Proof.
  intros o k l E d k' H. unfold make in H. destruct (call o k) as [r k1] eqn:C.
  assert (E1 := call_ex _ _ _ E _ _ C). clear C E. destruct E1 as (P & N & F). destruct (Z.ltb_spec r 0).
  - inversion H; subst. left. repeat split; auto.
  - right. inversion H; subst; clear H. set (d := if mem r (k_open k1) then unused (k_open k1) else r).
    assert (M : ~ In d (k_open k1) /\ 0 <= d).
    { unfold d. destruct (mem r (k_open k1)) eqn:M.
      - split; [intros I; apply unused_max in I; lia|apply unused_pos].
      - split; [intros I; apply mem_In in I; congruence|lia]. }
    destruct M as [M D]. assert (~ In d l) by (intros I; apply M; eapply Permutation_in; [apply Permutation_sym; eauto|auto]).
    split; [auto|]. split; [auto|]. unfold exactly. cbn [k_open]. split; [apply perm_skip; auto|]. split; constructor; auto.
Qed.
Lemma remove_perm : forall d l, NoDup l -> In d l -> Permutation l (d :: remove Z.eq_dec d l).
Proof.
  induction l as [|a l IH]; intros N I; [destruct I|]. inversion N; subst. cbn [remove]. destruct (Z.eq_dec d a) as [->|X].
  - rewrite notin_remove; auto.
  - destruct I as [E|I]; [congruence|]. etransitivity; [apply perm_skip, IH; auto|apply perm_swap].
Qed.
Lemma close_ex : forall k d l, exactly k (d :: l) -> exists k', close d k = Ok k' /\ exactly k' l.
Proof.
  intros k d l (P & N & F). unfold close.
  assert (I : In d (k_open k)) by (eapply Permutation_in; [apply Permutation_sym; eauto|left; auto]).
  assert (M := I). apply mem_In in M. rewrite M. eexists. split; [reflexivity|]. inversion N; inversion F; subst. unfold exactly. cbn [k_open].
  split; [|split; auto]. apply Permutation_cons_inv with (a := d). etransitivity; [|exact P]. apply Permutation_sym, remove_perm; auto.
  apply Permutation_NoDup with (l := d :: l); [apply Permutation_sym; auto|auto].
Qed.
Lemma exactly_perm : forall k l m, exactly k l -> Permutation l m -> exactly k m.
Proof.
  intros k l m (P & N & F) Q. split; [etransitivity; eauto|]. split; [eapply Permutation_NoDup; eauto|eapply Permutation_Forall; eauto].
Qed.

Lemma own_nofd : forall l, own (mkDe (-1) l) = map fst l. Proof. reflexivity. Qed.
Lemma own_fd : forall d l, 0 <= d -> own (mkDe d l) = d :: map fst l.
Proof. intros d l D. unfold own. cbn [d_fd d_tmrs]. destruct (Z.ltb_spec d 0); [lia|reflexivity]. Qed.
Lemma own_del : forall e, own (del_timeouts e) = own e.
Proof. intros e. unfold own, del_timeouts. cbn [d_fd d_tmrs]. rewrite map_map. cbn [fst]. reflexivity. Qed.

(* no connection descriptor, as the code marks it *)
Definition shut (e : dep) : Prop := d_fd e = -1.
Definition fdok (e : dep) : Prop := d_fd e = -1 \/ 0 <= d_fd e.

Lemma give_up_ex : forall k d t oth, 0 <= d -> exactly k (own (mkDe d t) ++ oth) ->
  exists k', give_up k (mkDe d t) = Ok (k', mkDe (-1) t, false) /\ exactly k' (own (mkDe (-1) t) ++ oth).
Proof.
  intros k d t oth D E. rewrite own_fd in E by auto. rewrite own_nofd. cbn [app] in E. destruct (close_ex _ _ _ E) as (k1 & C & X).
  unfold give_up. cbn [d_fd d_tmrs]. rewrite C. cbn [bind]. eauto.
Qed.
Lemma add_timeout_ex : forall o k e oth, exactly k (own e ++ oth) ->
  exists k' e', add_timeout o k e = Ok (k', e') /\ exactly k' (own e' ++ oth) /\ d_fd e' = d_fd e /\ (d_tmrs e' = d_tmrs e \/ exists d, d_tmrs e' = (d, false) :: d_tmrs e).
Proof.
  intros o k e oth E. unfold add_timeout. destruct (make o k) as [d k1] eqn:M. destruct (make_ex _ _ _ E _ _ M) as [[-> E1]|(D & NI & E1)].
  - change (-1 <? 0) with true. cbn iota. exists k1, e. auto.
  - destruct (Z.ltb_spec d 0); [lia|]. destruct (call o k1) as [x k2] eqn:C2. destruct (call o k2) as [r k3] eqn:C3.
    assert (E3 := call_ex _ _ _ (call_ex _ _ _ E1 _ _ C2) _ _ C3). destruct (r <? 0).
    + destruct (close_ex _ _ _ E3) as (k4 & C & X). rewrite C. cbn [bind]. exists k4, e. auto.
    + exists k3. eexists. split; [reflexivity|]. cbn [d_fd d_tmrs]. split; [|eauto].
      eapply exactly_perm; [exact E3|]. unfold own. cbn [d_fd d_tmrs map fst]. rewrite <- !app_assoc. cbn [app]. apply Permutation_middle.
Qed.
Lemma sweep_list_ex : forall l k oth, exactly k (map fst l ++ oth) ->
  exists k', sweep_list l k = Ok (k', filter (fun t => negb (snd t)) l) /\ exactly k' (map fst (filter (fun t => negb (snd t)) l) ++ oth).
Proof.
  induction l as [|[d []] l IH]; intros k oth E; cbn [sweep_list filter snd negb map fst app] in *.
  - eauto.
  - destruct (close_ex _ _ _ E) as (k1 & C & X). rewrite C. cbn [bind]. auto.
  - assert (E2 : exactly k (map fst l ++ d :: oth)) by (eapply exactly_perm; [exact E|apply Permutation_middle]).
    destruct (IH _ _ E2) as (k1 & S & X). rewrite S. cbn [bind]. exists k1. split; [reflexivity|].
    eapply exactly_perm; [exact X|apply Permutation_sym, Permutation_middle].
Qed.
Lemma sweep_ex : forall k e oth, exactly k (own e ++ oth) ->
  exists k' e', sweep k e = Ok (k', e') /\ exactly k' (own e' ++ oth) /\ d_fd e' = d_fd e /\ d_tmrs e' = filter (fun t => negb (snd t)) (d_tmrs e).
Proof.
  intros k e oth E. unfold sweep. assert (E2 : exactly k (map fst (d_tmrs e) ++ (if d_fd e <? 0 then [] else [d_fd e]) ++ oth)).
  { eapply exactly_perm; [exact E|]. unfold own. rewrite <- app_assoc. apply Permutation_app_swap_app. }
  destruct (sweep_list_ex _ _ _ E2) as (k1 & S & X). rewrite S. cbn [bind]. exists k1. eexists. split; [reflexivity|]. cbn [d_fd d_tmrs]. split; [|auto].
  unfold own. cbn [d_fd d_tmrs]. eapply exactly_perm; [exact X|]. rewrite <- app_assoc. apply Permutation_app_swap_app.
Qed.
Lemma drop_ex : forall k e oth, fdok e -> exactly k (own e ++ oth) ->
  exists k', drop k e = Ok (k', mkDe (-1) (d_tmrs e)) /\ exactly k' (map fst (d_tmrs e) ++ oth).
Proof.
  intros k [d t] oth F E. unfold fdok in F. cbn [d_fd d_tmrs] in *. unfold drop. cbn [d_fd d_tmrs]. destruct F as [->|D].
  - change (-1 <? -1) with false. cbn iota. rewrite own_nofd in E. eauto.
  - destruct (Z.ltb_spec (-1) d); [|lia]. rewrite own_fd in E by auto. cbn [app] in E. destruct (close_ex _ _ _ E) as (k1 & C & X). rewrite C. cbn [bind]. eauto.
Qed.

Lemma opened_ex : forall o k t oth, exactly k (map fst t ++ oth) -> forall d k', make o k = (d, k') ->
  (d = -1 /\ exactly k' (own (mkDe (-1) t) ++ oth)) \/ (0 <= d /\ exactly k' (own (mkDe d t) ++ oth)).
Proof.
  intros o k t oth E d k' M. destruct (make_ex _ _ _ E _ _ M) as [[-> X]|(D & _ & X)]; [left; auto|right]. rewrite own_fd by auto. auto.
Qed.

(* what a function that opens does: the endpoint holds a descriptor iff it reports success *)
Definition opens (f : res (kern * dep * bool)) (t : list (Z * bool)) (oth : list Z) : Prop :=
  exists k e ok, f = Ok (k, e, ok) /\ exactly k (own e ++ oth) /\ fdok e /\ (ok = true <-> 0 <= d_fd e) /\ d_tmrs e = t.

Lemma opens_yes : forall k d t oth, 0 <= d -> exactly k (own (mkDe d t) ++ oth) -> opens (Ok (k, mkDe d t, true)) t oth.
Proof. intros. exists k. do 2 eexists. split; [reflexivity|]. unfold fdok. cbn [d_fd d_tmrs]. split; [auto|]. split; [auto|]. split; [split; auto|auto]. Qed.
Lemma opens_no : forall k t oth, exactly k (own (mkDe (-1) t) ++ oth) -> opens (Ok (k, mkDe (-1) t, false)) t oth.
Proof. intros. exists k. do 2 eexists. split; [reflexivity|]. unfold fdok. cbn [d_fd d_tmrs]. split; [auto|]. split; [auto|]. split; [split; [discriminate|lia]|auto]. Qed.
Lemma opens_give_up : forall k d t oth, 0 <= d -> exactly k (own (mkDe d t) ++ oth) -> opens (give_up k (mkDe d t)) t oth.
Proof. intros k d t oth D E. destruct (give_up_ex _ _ _ _ D E) as (k1 & -> & X). apply opens_no; auto. Qed.

Ltac next :=
  match goal with
  | E : exactly ?k _ |- context [let (_, _) := call ?o ?k in _] =>
    let r := fresh "r" in let k1 := fresh "k" in let C := fresh "C" in
    destruct (call o k) as [r k1] eqn:C; apply (call_ex _ _ _ E) in C; clear E; rename C into E
  | E : exactly ?k _ |- context [let (_, _) := calls ?o ?n ?k in _] =>
    let r := fresh "r" in let k1 := fresh "k" in let C := fresh "C" in
    destruct (calls o n k) as [r k1] eqn:C; apply (calls_ex _ _ _ _ E) in C; clear E; rename C into E
  end.

Ltac go := cbn [andb negb]; cbn iota beta; repeat (first [apply opens_give_up; [assumption|assumption] | apply opens_yes; [assumption|assumption] |
  match goal with |- opens (if ?b then _ else _) _ _ => destruct b | |- opens (let (_, _) := _ in _) _ _ => next end]; cbn [andb negb]; cbn iota beta).

Lemma uart_open_ex : forall o k t oth, exactly k (map fst t ++ oth) -> forall d0, opens (uart_open o k (mkDe d0 t)) t oth.
Proof.
  intros o k t oth E d0. unfold uart_open. destruct (make o k) as [d k1] eqn:M. cbn [d_tmrs].
  destruct (opened_ex _ _ _ _ E _ _ M) as [[-> X]|[D X]]; clear E.
  - change (-1 <? 0) with true. apply opens_no; auto.
  - destruct (Z.ltb_spec d 0); [lia|]. next. destruct r; cbn [negb]; [|apply opens_give_up; auto]. do 3 next. destruct (r1 <? 0); [apply opens_give_up|apply opens_yes]; auto.
Qed.
Lemma udp_open6_ex : forall o k t oth multi server, exactly k (map fst t ++ oth) -> forall d0, opens (udp_open6 o k (mkDe d0 t) multi server) t oth.
Proof.
  intros o k t oth multi server E d0. unfold udp_open6. destruct (make o k) as [d k1] eqn:M. cbn [d_tmrs].
  destruct (opened_ex _ _ _ _ E _ _ M) as [[-> X]|[D X]]; clear E.
  - change (-1 <? 0) with true. apply opens_no; auto.
  - destruct (Z.ltb_spec d 0); [lia|]. destruct server, multi; go.
Qed.
Lemma udp_open4_ex : forall o k t oth server, exactly k (map fst t ++ oth) -> forall d0, opens (udp_open4 o k (mkDe d0 t) server) t oth.
Proof.
  intros o k t oth server E d0. unfold udp_open4. destruct (make o k) as [d k1] eqn:M. cbn [d_tmrs].
  destruct (opened_ex _ _ _ _ E _ _ M) as [[-> X]|[D X]]; clear E.
  - change (-1 <? 0) with true. apply opens_no; auto.
  - destruct (Z.ltb_spec d 0); [lia|]. destruct server; go.
Qed.

(* ---- TCP ---- *)

Lemma firstn_removelast : forall n (l : list Z) p, length p = n -> firstn n (removelast l) = p -> exists r, l = p ++ r.
Proof.
  induction n as [|n IH]; intros l p L E.
  - destruct p; [|discriminate]. eexists. reflexivity.
  - destruct p as [|a p]; [discriminate|]. destruct l as [|x l]; [discriminate|]. destruct l as [|y l]; [discriminate|].
    change (removelast (x :: y :: l)) with (x :: removelast (y :: l)) in E. cbn [firstn] in E. injection E as -> E. injection L as L.
    destruct (IH (y :: l) _ L E) as [r R]. exists r. rewrite R. reflexivity.
Qed.
Lemma multicast_text : forall ip, is_multicast (removelast ip) = true -> exists r, ip = lit "ff0" ++ r.
Proof.
  intros ip M. unfold is_multicast, starts in M. destruct (list_eq_dec _ _ _) as [E|]; [|discriminate]. apply firstn_removelast in E; [|reflexivity]. exact E.
Qed.
Lemma ipv6_text : forall ip, validate_ip ip = true -> ip_str_is_ipv6 ip = true -> exists a b r, ip = 91 :: a :: b :: r.
Proof.
  intros ip V I. apply C75_brackets in V. apply V in I. destruct I as (gs & last & N & -> & _). destruct gs as [|g gs]; [congruence|]. cbn [map concat].
  change (lit "[") with [91]. change (lit ":") with [58]. change (lit "]") with [93]. destruct g as [|x g]; cbn [app].
  - destruct (concat (map (fun g => g ++ [58]) gs) ++ last) as [|y r] eqn:E; rewrite app_assoc, E; cbn [app]; eauto.
  - destruct g as [|y g]; cbn [app]; eauto.
Qed.

Lemma tcp_open_ex : forall o k t oth ip retry, validate_ip ip = true -> ~ tcp_multicast (DTcp ip retry) -> exactly k (map fst t ++ oth) -> forall d0, opens (tcp_open o k (mkDe d0 t) ip) t oth.
Proof.
  intros o k t oth ip retry V NM E d0. unfold tcp_open.
  assert (S : (if ip_str_is_ipv6 ip then tcp_open6 o k ip else (let (d, k) := make o k in Ok (k, d))) = (let (d, k) := make o k in Ok (k, d))).
  { destruct (ip_str_is_ipv6 ip) eqn:I6; [|reflexivity]. unfold tcp_open6. destruct (make o k) as [d k1] eqn:M. destruct (Z.eqb_spec d (-1)) as [->|]; [reflexivity|].
    destruct (ipv6_text _ V I6) as (a & b & r & ->). cbn [tl]. destruct (is_multicast _) eqn:X; [|reflexivity].
    exfalso. apply NM. apply multicast_text in X. destruct X as [x X]. exists x. rewrite X. reflexivity. }
  rewrite S. clear S. destruct (make o k) as [d k1] eqn:M. cbn [bind]. cbn [d_tmrs].
  destruct (opened_ex _ _ _ _ E _ _ M) as [[-> X]|[D X]]; clear E.
  - change (-1 <? 0) with true. apply opens_no; auto.
  - destruct (Z.ltb_spec d 0); [lia|]. go.
Qed.

Lemma tcp_close_ex : forall o k e oth, fdok e -> exactly k (own e ++ oth) ->
  exists k', tcp_close o k e = Ok (k', mkDe (-1) (d_tmrs e)) /\ exactly k' (own (mkDe (-1) (d_tmrs e)) ++ oth).
Proof.
  intros o k [d t] oth F E. unfold fdok in F. cbn [d_fd d_tmrs] in *. unfold tcp_close. cbn [d_fd d_tmrs]. destruct F as [->|D].
  - change (-1 <? -1) with false. cbn iota. eauto.
  - destruct (Z.ltb_spec (-1) d); [|lia]. rewrite own_fd in E by auto. cbn [app] in E. destruct (call o k) as [r k1] eqn:C. apply (call_ex _ _ _ E) in C.
    destruct (close_ex _ _ _ C) as (k2 & K & X). rewrite K. cbn [bind]. eauto.
Qed.

(* ---- the invariant ---- *)

Definition alive (e : dep) : list (Z * bool) := filter (fun t => negb (snd t)) (d_tmrs e).
(* timers that are not deleted: a connected TCP endpoint has none, others at most one *)
Definition sane (d : dkind) (e : dep) : Prop := fdok e /\
  (length (alive e) <= match d with DTcp _ _ => if (d_fd e <? 0)%Z then 1 else 0 | DAccepted => 0 | _ => 1 end)%nat.

Lemma alive_del : forall e, alive (del_timeouts e) = [].
Proof. intros e. unfold alive, del_timeouts. cbn [d_tmrs]. induction (d_tmrs e); cbn [map filter snd negb]; auto. Qed.
Lemma pending_alive : forall e, pending e = true <-> alive e <> [].
Proof.
  intros e. unfold pending, alive. rewrite existsb_exists. split.
  - intros (x & I & N) H. assert (In x (filter (fun t => negb (snd t)) (d_tmrs e))) by (apply filter_In; auto). rewrite H in H0. destruct H0.
  - intros N. destruct (filter _ _) as [|x r] eqn:F; [congruence|]. exists x. apply (filter_In (fun t : Z * bool => negb (snd t))). rewrite F. left. auto.
Qed.
Lemma alive_sweep : forall t, filter (fun t : Z * bool => negb (snd t)) (filter (fun t => negb (snd t)) t) = filter (fun t => negb (snd t)) t.
Proof. induction t as [|[d []] t IH]; cbn [filter snd negb]; auto. rewrite IH. reflexivity. Qed.

Definition lands (r : res (kern * dep)) (d : dkind) (oth : list Z) : Prop := exists k e, r = Ok (k, e) /\ exactly k (own e ++ oth) /\ sane d e.

Lemma reconnect_ex : forall o k e oth ip retry, sane (DTcp ip retry) e -> alive e = [] -> exactly k (own e ++ oth) -> lands (reconnect o k e retry) (DTcp ip retry) oth.
Proof.
  intros o k e oth ip retry [F A] N E. unfold reconnect. destruct (Z.leb_spec retry 0); [exists k, e; split; [auto|]; split; [auto|]; split; auto|].
  destruct (tcp_close_ex o _ _ _ F E) as (k1 & -> & E1). cbn [bind]. destruct (add_timeout_ex o _ _ _ E1) as (k2 & e2 & -> & E2 & FD & T). exists k2, e2.
  split; [auto|]. split; [auto|]. cbn [d_fd d_tmrs] in *. split; [left; auto|]. rewrite FD. change (-1 <? 0) with true. cbn iota. unfold alive in *.
  destruct T as [->|[d ->]]; cbn [filter snd negb length]; rewrite N; cbn [length]; lia.
Qed.

Lemma begin_ex : forall o k d oth, proper d -> ~ tcp_multicast d -> exactly k oth ->
  exists k' e ok, begin o k d = Ok (k', e, ok) /\ exactly k' (own e ++ oth) /\ sane d e /\
  (ok = true -> match d with DTcp _ _ => True | _ => 0 <= d_fd e end) /\ (ok = false -> match d with DUart _ _ => True | _ => d_fd e = -1 end).
Proof.
  intros o k d oth PR NM E. destruct d as [bauds flow|v6 multi server|ip retry|]; cbn [begin].
  - unfold uart_setup. destruct (uart_open_ex o k [] oth E (-1)) as (k1 & e1 & ok & -> & E1 & F1 & OK & T1). cbn [bind].
    assert (Z1 : alive e1 = []) by (unfold alive; rewrite T1; auto).
    destruct ok; cbn [negb]; [|do 3 eexists; split; [reflexivity|]; split; [eauto|]; split; [split; [auto|rewrite Z1; cbn; lia]|split; [discriminate|auto]]].
    assert (D1 : 0 <= d_fd e1) by (apply OK; auto). destruct (calls o 3 k1) as [s k2] eqn:C. apply (calls_ex _ _ _ _ E1) in C.
    destruct ((bauds =? 1)%nat && negb s); [do 3 eexists; split; [reflexivity|]; split; [eauto|]; split; [split; [auto|rewrite Z1; cbn; lia]|split; [discriminate|auto]]|].
    assert (A : exists k3 e3, (if (bauds =? 1)%nat then Ok (k2, e1) else add_timeout o k2 e1) = Ok (k3, e3) /\ exactly k3 (own e3 ++ oth) /\ d_fd e3 = d_fd e1 /\ (length (alive e3) <= 1)%nat).
    { destruct (bauds =? 1)%nat; [exists k2, e1; split; [auto|]; split; [auto|]; split; [auto|rewrite Z1; cbn; lia]|].
      destruct (add_timeout_ex o _ _ _ C) as (k3 & e3 & X & E3 & FD & T). exists k3, e3. split; [auto|]. split; [auto|]. split; [auto|].
      unfold alive. destruct T as [->|[d ->]]; rewrite T1; cbn; lia. }
    destruct A as (k3 & e3 & -> & E3 & FD & L). cbn [bind]. destruct flow.
    + destruct (calls o 2 k3) as [f k4] eqn:C4. apply (calls_ex _ _ _ _ E3) in C4. do 3 eexists. split; [reflexivity|]. split; [eauto|]. split; [split; [right; lia|auto]|]. split; auto. intros _. lia.
    + do 3 eexists. split; [reflexivity|]. split; [eauto|]. split; [split; [right; lia|auto]|]. split; auto. intros _. lia.
  - unfold udp_setup. assert (O : opens (if v6 then udp_open6 o k (mkDe (-1) []) multi server else udp_open4 o k (mkDe (-1) []) server) [] oth)
      by (destruct v6; [apply udp_open6_ex|apply udp_open4_ex]; auto).
    destruct O as (k1 & e1 & ok & -> & E1 & F1 & OK & T1). cbn [bind]. assert (Z1 : alive e1 = []) by (unfold alive; rewrite T1; auto).
    destruct (Z.ltb_spec (d_fd e1) 0).
    { assert (d_fd e1 = -1) by (destruct F1; lia). do 3 eexists. split; [reflexivity|]. split; [eauto|]. split; [split; [auto|rewrite Z1; cbn; lia]|]. split; [discriminate|auto]. }
    assert (S : exists s k2, (if server then (0, k1) else call o k1) = (s, k2) /\ exactly k2 (own e1 ++ oth)).
    { destruct server; [eauto|]. destruct (call o k1) as [s k2] eqn:C. apply (call_ex _ _ _ E1) in C. eauto. }
    destruct S as (s & k2 & -> & E2). destruct e1 as [d1 t1]. cbn [d_fd d_tmrs] in *. subst t1.
    assert (GU : forall k e, d_fd e = d1 -> (length (alive e) <= 1)%nat -> exactly k (own e ++ oth) -> exists k' e' ok, give_up k e = Ok (k', e', ok) /\ exactly k' (own e' ++ oth) /\
      sane (DUdp v6 multi server) e' /\ (ok = true -> 0 <= d_fd e') /\ (ok = false -> d_fd e' = -1)).
    { intros k0 [d0 t0] D0 L0 E0. cbn [d_fd] in D0. subst d0. destruct (give_up_ex _ _ _ _ H E0) as (k' & -> & X). do 3 eexists. split; [reflexivity|]. split; [eauto|].
      split; [split; [left; auto|exact L0]|]. split; [discriminate|auto]. }
    destruct (s <? 0); [apply GU; auto; cbn; lia|].
    assert (A : exists k3 e3, (if server then Ok (k2, mkDe d1 []) else add_timeout o k2 (mkDe d1 [])) = Ok (k3, e3) /\ exactly k3 (own e3 ++ oth) /\ d_fd e3 = d1 /\ (length (alive e3) <= 1)%nat).
    { destruct server; [do 2 eexists; split; [reflexivity|]; split; [auto|]; split; [auto|cbn; lia]|].
      destruct (add_timeout_ex o _ _ _ E2) as (k3 & e3 & X & E3 & FD & T). exists k3, e3. split; [auto|]. split; [auto|]. split; [auto|].
      unfold alive. cbn [d_tmrs] in T. destruct T as [->|[d ->]]; cbn; lia. }
    destruct A as (k3 & e3 & -> & E3 & FD & L). cbn [bind]. destruct (call o k3) as [r k4] eqn:C4. apply (call_ex _ _ _ E3) in C4.
    destruct (r <? 0); [apply GU; auto|]. do 3 eexists. split; [reflexivity|]. split; [eauto|]. split; [split; [right; lia|auto]|]. split; [lia|discriminate].
  - cbn [proper] in PR. unfold tcp_setup. destruct (tcp_open_ex o k [] oth ip retry PR NM E (-1)) as (k1 & e1 & ok & -> & E1 & F1 & OK & T1). cbn [bind].
    assert (Z1 : alive e1 = []) by (unfold alive; rewrite T1; auto). destruct ok.
    + destruct (call o k1) as [r k2] eqn:C. apply (call_ex _ _ _ E1) in C. cbn [bind]. do 3 eexists. split; [reflexivity|]. split; [eauto|].
      split; [split; [auto|rewrite Z1; cbn; lia]|]. split; [auto|discriminate].
    + destruct (reconnect_ex o k1 e1 oth ip retry) as (k2 & e2 & -> & E2 & S2); auto; [split; [auto|rewrite Z1; cbn; lia]|]. cbn [bind].
      do 3 eexists. split; [reflexivity|]. split; [eauto|]. split; [auto|]. split; [auto|discriminate].
  - unfold tcp_accept. destruct (make o k) as [d k1] eqn:M. destruct (opened_ex o k [] oth E _ _ M) as [[-> X]|[D X]]; clear E.
    + change (-1 =? -1) with true. cbn iota. change (-1 <? 0) with true. cbn iota. unfold tcp_drop.
      destruct (tcp_close_ex o k1 (mkDe (-1) []) oth) as (k2 & -> & E2); [left; auto|auto|]. cbn [bind d_tmrs]. destruct (drop_ex k2 (mkDe (-1) []) oth) as (k3 & -> & E3); [left; auto|auto|].
      cbn [bind d_tmrs]. do 3 eexists. split; [reflexivity|]. split; [exact E3|]. split; [split; [left; auto|cbn; lia]|]. split; [discriminate|auto].
    + destruct (Z.eqb_spec d (-1)); [lia|]. destruct (call o k1) as [r k2] eqn:C. apply (call_ex _ _ _ X) in C. destruct (r <? 0).
      * unfold tcp_drop. destruct (tcp_close_ex o k2 (mkDe d []) oth) as (k3 & -> & E3); [right; auto|auto|]. cbn [bind d_tmrs].
        destruct (drop_ex k3 (mkDe (-1) []) oth) as (k4 & -> & E4); [left; auto|auto|]. cbn [bind d_tmrs]. do 3 eexists. split; [reflexivity|]. split; [exact E4|].
        split; [split; [left; auto|cbn; lia]|]. split; [discriminate|auto].
      * destruct (call o k2) as [r2 k3] eqn:C3. apply (call_ex _ _ _ C) in C3. do 3 eexists. split; [reflexivity|]. split; [eauto|]. split; [split; [right; auto|cbn; lia]|]. split; [auto|discriminate].
Qed.

Lemma happen_ex : forall o k d e oth v, proper d -> ~ tcp_multicast d -> exactly k (own e ++ oth) -> sane d e ->
  lands (happen o k d e v) d (match v with Others l => if forallb (fun x => (0 <=? x) && negb (mem x (own e))) l then nodup Z.eq_dec l else oth | _ => oth end).
Proof.
  intros o k d e oth v PR NM E S. assert (KEEP : lands (Ok (k, e)) d oth) by (exists k, e; auto). destruct v as [ | | | |l]; cbn [happen].
  - destruct d as [bauds flow|v6 multi server|ip retry|]; auto. destruct (Z.ltb_spec (d_fd e) 0); auto. unfold tcp_lost. destruct (0 <? retry); auto.
    apply reconnect_ex; auto. destruct S as [_ L]. destruct (Z.ltb_spec (d_fd e) 0); [lia|]. destruct (alive e); [auto|cbn [length] in L; lia].
  - destruct d as [bauds flow|v6 multi server|ip retry|]; auto.
    + destruct (calls o 3 k) as [x k1] eqn:C. apply (calls_ex _ _ _ _ E) in C. exists k1, e. auto.
    + destruct (pending e) eqn:P; auto. apply pending_alive in P. assert (SH : d_fd e = -1).
      { destruct S as [F L]. destruct (Z.ltb_spec (d_fd e) 0); [destruct F; [auto|lia]|]. destruct (alive e); [congruence|cbn [length] in L; lia]. }
      destruct e as [d0 t]. cbn [d_fd] in SH. subst d0. unfold tcp_retry. cbn [proper] in PR. rewrite own_nofd in E.
      destruct (tcp_open_ex o k t oth ip retry PR NM E (-1)) as (k1 & e1 & ok & -> & E1 & F1 & OK & T1). cbn [bind]. destruct ok.
      * destruct (call o k1) as [r k2] eqn:C. apply (call_ex _ _ _ E1) in C. exists k2. eexists. split; [reflexivity|]. rewrite own_del. split; [auto|].
        split; [exact F1|]. rewrite alive_del. cbn [length]. lia.
      * exists k1, e1. split; [auto|]. split; [auto|]. split; [auto|]. destruct S as [_ L]. unfold alive in *. rewrite T1. cbn [d_tmrs d_fd] in L. change (-1 <? 0) with true in L.
        destruct (Z.ltb_spec (d_fd e1) 0); [exact L|]. assert (false = true) by (apply OK; auto). discriminate.
  - destruct d as [bauds flow|v6 multi server|ip retry|]; auto. exists k. eexists. split; [reflexivity|]. rewrite own_del. split; [auto|]. split; [exact (proj1 S)|]. rewrite alive_del. cbn [length]. lia.
  - destruct (sweep_ex _ _ _ E) as (k1 & e1 & -> & E1 & FD & T). exists k1, e1. split; [auto|]. split; [auto|]. destruct S as [F L]. split; [unfold fdok; rewrite FD; exact F|].
    unfold alive in *. rewrite T, alive_sweep, FD. exact L.
  - destruct (forallb _ l) eqn:B; auto. eexists. exists e. split; [reflexivity|]. split; [|auto]. unfold exactly. cbn [k_open]. split; [auto|].
    assert (B2 : forall x, In x l -> 0 <= x /\ ~ In x (own e)).
    { intros x I. rewrite forallb_forall in B. apply B in I. apply andb_true_iff in I. destruct I as [I1 I2]. split; [lia|]. intros I3. apply mem_In in I3. rewrite I3 in I2. discriminate. }
    destruct E as (_ & N & F). split.
    + assert (NO : NoDup (own e)) by (clear - N; induction (own e); [constructor|]; inversion N; subst; constructor; [rewrite in_app_iff in *; tauto|auto]).
      assert (ND := NoDup_nodup Z.eq_dec l). assert (DJ : forall x, In x (own e) -> ~ In x (nodup Z.eq_dec l)) by (intros x I J; apply nodup_In, B2 in J; tauto).
      clear - NO ND DJ. induction (own e) as [|a m IH]; [auto|]. cbn [app]. inversion NO; subst. constructor; [|apply IH; auto; intros x I; apply DJ; right; auto].
      rewrite in_app_iff. intros [I|I]; [auto|]. apply (DJ a); [left; auto|auto].
    + apply Forall_app. apply Forall_app in F. split; [tauto|]. rewrite Forall_forall. intros x I. apply nodup_In, B2 in I. tauto.
Qed.
Lemma lives_ex : forall vs o k d e oth, proper d -> ~ tcp_multicast d -> exactly k (own e ++ oth) -> sane d e ->
  exists k' e' oth', lives o k d e oth vs = Ok (k', e', oth') /\ exactly k' (own e' ++ oth') /\ sane d e'.
Proof.
  induction vs as [|v vs IH]; intros o k d e oth PR NM E S; cbn [lives]; [eauto 7|].
  destruct (happen_ex o k d e oth v PR NM E S) as (k1 & e1 & -> & E1 & S1). cbn [bind]. apply IH; auto.
Qed.

(* ==== C86 ==== *)

(* Whatever system calls fail, in whatever order things happen and whatever the rest of the process does meanwhile: setting up an endpoint and its
   whole life never close a descriptor that is not open, and at every moment the open descriptors are exactly those of the rest of the process
   and those of the endpoint ([own]: at most one for the connection, and its timers). *)
Theorem C86_exactly_partial : forall o k d oth vs, proper d -> ~ tcp_multicast d -> exactly k oth ->
  exists k1 e1 ok, begin o k d = Ok (k1, e1, ok) /\ exactly k1 (own e1 ++ oth) /\
  exists k2 e2 oth2, lives o k1 d e1 oth vs = Ok (k2, e2, oth2) /\ exactly k2 (own e2 ++ oth2).
Proof.
  intros o k d oth vs PR NM E. destruct (begin_ex o k d oth PR NM E) as (k1 & e1 & ok & B & E1 & S1 & _). exists k1, e1, ok. split; [auto|]. split; [auto|].
  destruct (lives_ex vs o k1 d e1 oth PR NM E1 S1) as (k2 & e2 & oth2 & L & E2 & _). eauto 6.
Qed.
Print Assumptions C86_exactly_partial.

(* At the end of every iteration of the main loop a TCP endpoint holds at most one descriptor, the connection or the timer of the next attempt, however many
   attempts were made; other endpoints at most two, their connection and one timer. *)
Theorem C86_bounded_partial : forall o k d oth vs k1 e1 ok k2 e2 oth2, proper d -> ~ tcp_multicast d -> exactly k oth ->
  begin o k d = Ok (k1, e1, ok) -> lives o k1 d e1 oth (vs ++ [Sweep]) = Ok (k2, e2, oth2) ->
  (length (own e2) <= match d with DTcp _ _ | DAccepted => 1 | _ => 2 end)%nat.
Proof.
  intros o k d oth vs k1 e1 ok k2 e2 oth2 PR NM E B L. destruct (begin_ex o k d oth PR NM E) as (k1' & e1' & ok' & B' & E1 & S1 & _). rewrite B in B'. inversion B'; subst k1' e1' ok'; clear B'.
  assert (A : forall vs k e oth, exactly k (own e ++ oth) -> sane d e -> lives o k d e oth (vs ++ [Sweep]) = Ok (k2, e2, oth2) ->
    sane d e2 /\ d_tmrs e2 = alive e2).
  { clear - PR NM. induction vs as [|v vs IH]; intros k e oth E S L; cbn [app lives] in L.
    - destruct (happen_ex o k d e oth Sweep PR NM E S) as (k1 & e1 & H & E1 & S1). rewrite H in L. cbn [bind] in L. inversion L; subst. split; [auto|].
      cbn [happen] in H. destruct (sweep_ex _ _ _ E) as (k1' & e1' & W & _ & _ & T). rewrite W in H. inversion H; subst. unfold alive. rewrite T, alive_sweep. reflexivity.
    - destruct (happen_ex o k d e oth v PR NM E S) as (k1 & e1 & H & E1 & S1). rewrite H in L. cbn [bind] in L. eapply IH; eauto. }
  destruct (A _ _ _ _ E1 S1 L) as [[F S] T]. unfold own. rewrite app_length, map_length, T. destruct d; destruct (d_fd e2 <? 0); cbn [length]; lia.
Qed.
Print Assumptions C86_bounded_partial.

(* An attempt to set up a UDP endpoint or to accept a client that fails leaves no connection behind; a UART leaves it to the destructor.  After the endpoint was destroyed,
   all it may leave is a timer not yet deleted (a UART still looking for its speed, a TCP client waiting for its next attempt: these endpoints live until the program ends). *)
Theorem C86_closed_partial : forall o k d oth k1 e1 ok vs, proper d -> ~ tcp_multicast d -> exactly k oth -> begin o k d = Ok (k1, e1, ok) ->
  (ok = false -> match d with DUart _ _ => True | _ => d_fd e1 = -1 end) /\
  forall k2 e2 oth2, lives o k1 d e1 oth vs = Ok (k2, e2, oth2) ->
  exists k3 e3, finish o k2 d e2 = Ok (k3, e3) /\ exactly k3 (own e3 ++ oth2) /\ d_fd e3 = -1 /\
    match d with DUdp _ _ _ | DAccepted => own e3 = [] | _ => (length (own e3) <= 1)%nat end.
Proof.
  intros o k d oth k1 e1 ok vs PR NM E B. destruct (begin_ex o k d oth PR NM E) as (k1' & e1' & ok' & B' & E1 & S1 & _ & NO). rewrite B in B'. inversion B'; subst k1' e1' ok'; clear B'.
  split; [exact NO|]. intros k2 e2 oth2 L. destruct (lives_ex vs o k1 d e1 oth PR NM E1 S1) as (k2' & e2' & oth2' & L' & E2 & S2). rewrite L in L'. inversion L'; subst k2' e2' oth2'; clear L'.
  unfold finish. destruct S2 as [F LE].
  assert (W : forall k t, exactly k (map fst t ++ oth2) -> exists k3, sweep k (mkDe (-1) t) = Ok (k3, mkDe (-1) (filter (fun t => negb (snd t)) t)) /\ exactly k3 (own (mkDe (-1) (filter (fun t => negb (snd t)) t)) ++ oth2)).
  { intros k0 t X. destruct (sweep_list_ex t k0 oth2 X) as (k3 & SL & Y). exists k3. unfold sweep. cbn [d_tmrs d_fd]. rewrite SL. cbn [bind]. rewrite own_nofd. auto. }
  assert (TD : exists k3, tcp_drop o k2 e2 = Ok (k3, mkDe (-1) (d_tmrs e2)) /\ exactly k3 (map fst (d_tmrs e2) ++ oth2)).
  { unfold tcp_drop. destruct (tcp_close_ex o _ _ _ F E2) as (k3 & -> & E3). cbn [bind]. destruct (drop_ex k3 (mkDe (-1) (d_tmrs e2)) oth2) as (k4 & -> & E4); [left; auto|auto|]. eauto. }
  assert (OW : forall t, own (mkDe (-1) t) = map fst t) by reflexivity.
  destruct d as [bauds flow|v6 multi server|ip retry|].
  - destruct (drop_ex _ _ _ F E2) as (k3 & -> & E3). cbn [bind]. destruct (W _ _ E3) as (k4 & -> & E4). exists k4. eexists. split; [reflexivity|]. split; [auto|]. split; [auto|].
    rewrite OW, map_length. exact LE.
  - unfold udp_drop. destruct (drop_ex k2 (del_timeouts e2) oth2) as (k3 & -> & E3); [exact F|rewrite own_del; auto|]. cbn [bind].
    destruct (W _ _ E3) as (k4 & -> & E4). exists k4. eexists. split; [reflexivity|]. split; [auto|]. split; [auto|]. rewrite OW. assert (X := alive_del e2). unfold alive in X. rewrite X. reflexivity.
  - destruct TD as (k3 & -> & E3). cbn [bind]. destruct (W _ _ E3) as (k4 & -> & E4). exists k4. eexists. split; [reflexivity|]. split; [auto|]. split; [auto|].
    rewrite OW, map_length. unfold alive in LE. destruct (d_fd e2 <? 0); lia.
  - destruct TD as (k3 & -> & E3). cbn [bind]. destruct (W _ _ E3) as (k4 & -> & E4). exists k4. eexists. split; [reflexivity|]. split; [auto|]. split; [auto|].
    rewrite OW. unfold alive in LE. destruct (filter _ _); [reflexivity|cbn [length] in LE; lia].
Qed.
Print Assumptions C86_closed_partial.

(* The listening socket is closed again when it cannot be used. *)
Theorem C86_server : forall o k oth, exactly k oth -> exists k' d, tcp_listen o k = Ok (k', d) /\ ((d = -1 /\ exactly k' oth) \/ (0 <= d /\ exactly k' (d :: oth))).
Proof.
  intros o k oth E. unfold tcp_listen. destruct (make o k) as [d k1] eqn:M. destruct (make_ex _ _ _ E _ _ M) as [[-> X]|(D & _ & X)]; clear E.
  - change (-1 =? -1) with true. cbn iota. do 2 eexists. split; [reflexivity|]. auto.
  - destruct (Z.eqb_spec d (-1)); [lia|]. next. next. destruct r0.
    + next. do 2 eexists. split; [reflexivity|]. auto.
    + destruct (close_ex _ _ _ X) as (k4 & C & Y). rewrite C. cbn [bind]. do 2 eexists. split; [reflexivity|]. auto.
Qed.
Print Assumptions C86_server.

(* The code leaks a descriptor with every attempt to connect to an IPv6 multicast address (or any other whose text begins with ff0): the configuration is accepted, and after
   n attempts n + 1 descriptors are open that nobody will ever close, until the process has none left. *)
Theorem C86_leak_refuted : exists ip retry k0, validate_ip ip = true /\ 0 < retry /\ exactly k0 [] /\
  exists o k1 e1, begin o k0 (DTcp ip retry) = Ok (k1, e1, true) /\
  forall n, exists k2 e2, lives o k1 (DTcp ip retry) e1 [] (concat (repeat [Fires; Sweep] n)) = Ok (k2, e2, []) /\
  length (k_open k2) = (n + 2)%nat /\ length (own e2) = 1%nat.
Proof.
  exists (lit "[ff02::1]"), 5, (mkK [] 0). split; [vm_compute; reflexivity|]. split; [lia|]. split; [split; [constructor|split; constructor]|].
  exists (fun _ => 0). do 2 eexists. split; [vm_compute; reflexivity|].
  assert (G : forall n k t, (1 <= length (k_open k))%nat -> exists k2, lives (fun _ => 0) k (DTcp (lit "[ff02::1]") 5) (mkDe (-1) [(t, false)]) [] (concat (repeat [Fires; Sweep] n)) = Ok (k2, mkDe (-1) [(t, false)], []) /\
    length (k_open k2) = (n + length (k_open k))%nat).
  { induction n as [|n IH]; intros k t P; cbn [repeat concat app]; [eexists; split; [reflexivity|lia]|].
    cbn [lives]. cbv zeta. assert (H : exists k1, happen (fun _ => 0) k (DTcp (lit "[ff02::1]") 5) (mkDe (-1) [(t, false)]) Fires = Ok (k1, mkDe (-1) [(t, false)]) /\ length (k_open k1) = Datatypes.S (length (k_open k))).
    { cbn [happen]. change (pending (mkDe (-1) [(t, false)])) with true. cbn iota. unfold tcp_retry, tcp_open. change (ip_str_is_ipv6 (lit "[ff02::1]")) with true. cbn iota. unfold tcp_open6, make, call. cbn [k_open k_n].
      change (0 <? 0) with false. cbn iota. set (d := if mem 0 (k_open k) then unused (k_open k) else 0). assert (D : d <> -1) by (unfold d; destruct (mem 0 (k_open k)); [assert (X := unused_pos (k_open k)); lia|lia]).
      destruct (Z.eqb_spec d (-1)); [congruence|]. cbn [bind]. eexists. split; [reflexivity|]. reflexivity. }
    destruct H as (k1 & -> & L1). cbn [bind]. destruct (IH k1 t) as (k2 & R & L2); [lia|]. exists k2. split; [exact R|lia]. }
  intros n. match goal with |- exists _ _, lives _ ?k _ _ _ _ = _ /\ _ => destruct (G n k 3) as (k2 & R & L) end; [cbn [k_open length]; lia|].
  exists k2. eexists. split; [exact R|]. split; [rewrite L; cbn [k_open length]; lia|reflexivity].
Qed.
Print Assumptions C86_leak_refuted.

(* a client that loses its connection, fails to reconnect twice and succeeds, while the rest of the process opens two files *)
Definition ex_tape (n : nat) : Z := nth n [5; 0; 0; 0;  0; 7; 0; 0;  -1;  6; -1;  9; 0; 0; 0] 0.
Example C86_nonvacuous : proper (DTcp (lit "10.0.0.1") 5) /\ ~ tcp_multicast (DTcp (lit "10.0.0.1") 5) /\ exactly (mkK [4] 0) [4] /\
  exists k1 e1, begin ex_tape (mkK [4] 0) (DTcp (lit "10.0.0.1") 5) = Ok (k1, e1, true) /\ own e1 = [5] /\
  exists k2, lives ex_tape k1 (DTcp (lit "10.0.0.1") 5) e1 [4] [Lost; Sweep; Others [4; 12; 13]; Fires; Fires; Fires; Sweep] = Ok (k2, mkDe 9 [], [4; 12; 13]) /\
  k_open k2 = [9; 4; 12; 13].
Proof.
  split; [vm_compute; reflexivity|]. split; [intros [r H]; discriminate H|]. split; [split; [constructor; constructor|split; repeat constructor; [auto|lia]]|].
  do 2 eexists. split; [vm_compute; reflexivity|]. split; [reflexivity|]. eexists. split; vm_compute; reflexivity.
Qed.
