(* Lemmas on routing one message. *)
From Verif Require Import Base Mav Frame FrameProofs FrameRefine Dedup Accept Names Sys LogFile ULog Loggers LogInv LogStep RouterCtl Router.

(* ---- endpoints that differ only in what routing changes ------------------------------------------- *)

Definition same_logger (l l' : logger) : Prop :=
  match l, l' with
  | LFile _ b, LFile _ b' => is_ulog b' = is_ulog b
  | LAuto _, LAuto _ => True
  | _, _ => False
  end.
Lemma same_logger_refl : forall l, same_logger l l.
Proof. destruct l; cbn; auto. Qed.
Lemma same_logger_trans : forall a b c, same_logger a b -> same_logger b c -> same_logger a c.
Proof. intros a b c. destruct a, b; cbn; try tauto; destruct c; cbn; try tauto; congruence. Qed.
Definition same_kind (k k' : kind) : Prop :=
  match k, k' with
  | KTcp r _, KTcp r' _ => r' = r
  | KLog l, KLog l' => same_logger l l'
  | _, _ => k' = k
  end.
Definition is_tcp (e : ep) : bool := match ep_kind e with KTcp _ _ => true | _ => false end.
Definition is_log (e : ep) : bool := match ep_kind e with KLog _ => true | _ => false end.

Record same_ep (e e' : ep) : Prop := mkSame {
  se_ids : ep_ids e' = ep_ids e;
  se_filters : ep_filters e' = ep_filters e;
  se_group : ep_group e' = ep_group e;
  se_members : ep_members e' = ep_members e;
  se_rx : ep_rx e' = ep_rx e;
  se_rstat : ep_rstat e' = ep_rstat e;
  se_kind : same_kind (ep_kind e) (ep_kind e');
  se_poll0 : ep_poll e = None -> ep_poll e' = None;
  se_fd0 : ep_fd e = false -> ep_fd e' = false;
  se_fd : is_tcp e = false -> ep_fd e' = ep_fd e;
  se_poll : is_tcp e = false -> ep_poll e' = ep_poll e \/ ep_poll e' = Some true;
  (* a TCP endpoint keeps its descriptor or loses it together with its registration *)
  se_tcp : is_tcp e = true -> (ep_fd e' = false /\ ep_poll e' = None) \/
                              (ep_fd e' = ep_fd e /\ (ep_poll e' = ep_poll e \/ ep_poll e' = Some true)) }.

Lemma same_kind_refl : forall k, same_kind k k.
Proof. destruct k; cbn; auto using same_logger_refl. Qed.
Lemma same_kind_trans : forall a b c, same_kind a b -> same_kind b c -> same_kind a c.
Proof. intros a b c. destruct a, b; cbn; intros H; try discriminate; destruct c; cbn; intros K; try discriminate; try congruence. eapply same_logger_trans; eauto. Qed.
Lemma same_tcp : forall e e', same_kind (ep_kind e) (ep_kind e') -> is_tcp e' = is_tcp e.
Proof. intros e e' H. unfold is_tcp. destruct (ep_kind e), (ep_kind e'); cbn in H; auto; discriminate. Qed.
Lemma same_log : forall e e', same_kind (ep_kind e) (ep_kind e') -> is_log e' = is_log e.
Proof. intros e e' H. unfold is_log. destruct (ep_kind e), (ep_kind e'); cbn in H; auto; discriminate. Qed.

Lemma same_refl : forall e, same_ep e e.
Proof. intros. split; auto. apply same_kind_refl. Qed.
Lemma same_trans : forall a b c, same_ep a b -> same_ep b c -> same_ep a c.
Proof.
  intros a b c A B. pose proof (same_tcp _ _ (se_kind _ _ A)) as T.
  destruct A as [A1 A2 A3 A4 A5 A6 A7 A8 A9 A10 A11 A12]. destruct B as [B1 B2 B3 B4 B5 B6 B7 B8 B9 B10 B11 B12].
  rewrite T in B10, B11, B12. split; try congruence; auto.
  - eapply same_kind_trans; eauto.
  - intros X. rewrite B10; auto.
  - intros X. destruct (B11 X) as [->| ->]; auto.
  - intros X. destruct (B12 X) as [|[P Q]]; auto. destruct (A12 X) as [[C D]|[C D]].
    + left. split; [congruence|]. auto.
    + right. split; [congruence|]. destruct Q as [->| ->]; auto.
Qed.

(* ---- worlds --------------------------------------------------------------------------------------------- *)

Definition same_opt (a b : option ep) : Prop :=
  match a, b with Some e, Some e' => same_ep e e' | None, None => True | _, _ => False end.

Record routed (w w' : world) : Prop := mkRouted {
  ro_order : w_order w' = w_order w;
  ro_server : w_server w' = w_server w;
  ro_sniffer : w_sniffer w' = w_sniffer w;
  ro_dedup : w_dedup w' = w_dedup w;
  ro_log : w_log w' = w_log w;
  ro_exit : w_exit w' = w_exit w;
  ro_len : length (w_eps w') = length (w_eps w);
  ro_ep : forall i, same_opt (lookup w i) (lookup w' i) }.

Lemma routed_refl : forall w, routed w w.
Proof. intros. split; auto. intros i. destruct (lookup w i); cbn; auto using same_refl. Qed.
Lemma routed_trans : forall a b c, routed a b -> routed b c -> routed a c.
Proof.
  intros a b c [] []. split; try congruence. intros i. specialize (ro_ep0 i). specialize (ro_ep1 i).
  destruct (lookup a i), (lookup b i), (lookup c i); cbn in *; try tauto. eapply same_trans; eauto.
Qed.

Lemma lookup_len : forall w i e, lookup w i = Some e -> (i < length (w_eps w))%nat.
Proof.
  intros w i e H. unfold lookup in H. destruct (nth_error (w_eps w) i) as [[x|]|] eqn:E; try discriminate.
  apply nth_error_Some. congruence.
Qed.
Lemma lookup_put_eq : forall w i e e0, lookup w i = Some e0 -> lookup (put w i e) i = Some e.
Proof.
  intros w i e e0 H. apply lookup_len in H. unfold lookup, put, set_eps. cbn [w_eps]. rewrite nth_error_set_nth_eq; auto.
Qed.
Lemma lookup_put_neq : forall w i j e, i <> j -> lookup (put w i e) j = lookup w j.
Proof. intros w i j e H. unfold lookup, put, set_eps. cbn [w_eps]. rewrite nth_error_set_nth_neq; auto. Qed.
Lemma lookup_sys : forall w y i, lookup (set_sys w y) i = lookup w i.
Proof. reflexivity. Qed.
Lemma get_lookup : forall w i e, get w i = Ok e -> lookup w i = Some e.
Proof. intros w i e H. unfold get in H. destruct (lookup w i); inversion H; auto. Qed.
Lemma lookup_get : forall w i e, lookup w i = Some e -> get w i = Ok e.
Proof. intros w i e H. unfold get. rewrite H. auto. Qed.

Lemma routed_put : forall w y i e e', lookup w i = Some e -> same_ep e e' -> routed w (put (set_sys w y) i e').
Proof.
  intros w y i e e' L S. split; try reflexivity.
  - cbn. apply set_nth_length.
  - intros j. destruct (Nat.eq_dec i j) as [<-|N].
    + rewrite (lookup_put_eq (set_sys w y) i e' e) by exact L. rewrite L. exact S.
    + rewrite lookup_put_neq by auto. rewrite lookup_sys. destruct (lookup w j); cbn; auto using same_refl.
Qed.
Lemma routed_hang : forall w b, routed w (set_hang w b).
Proof. intros. split; try reflexivity. intros i. unfold lookup. cbn. destruct (nth_error _ i) as [[x|]|]; cbn; auto using same_refl. Qed.
Lemma routed_unknown : forall w b, routed w (set_unknown w b).
Proof. intros. split; try reflexivity. intros i. unfold lookup. cbn. destruct (nth_error _ i) as [[x|]|]; cbn; auto using same_refl. Qed.

(* ---- one write -------------------------------------------------------------------------------------------- *)

Lemma same_count : forall e len r, same_ep e (count_sent e len r).
Proof. intros. unfold count_sent. split; auto. apply same_kind_refl. Qed.
Lemma same_lost : forall v y i e retry y' e' b, ep_kind e = KTcp retry b -> tcp_lost v y i e retry = (y', e') -> same_ep e e'.
Proof.
  intros v y i e retry y' e' b K H. unfold tcp_lost, schedule_reconnect in H. destruct (Z.ltb_spec 0 retry) as [A|A].
  - rewrite (proj2 (Z.leb_gt retry 0)) in H by lia. destruct (add_timer _ _ _ _) as [t y1]. inversion H; subst.
    split; cbn; auto; try (rewrite K; reflexivity); unfold is_tcp; rewrite K; discriminate.
  - inversion H; subst. split; cbn; auto; try (rewrite K; reflexivity); unfold is_tcp; rewrite K; discriminate.
Qed.
Lemma same_log_kind : forall e l l', ep_kind e = KLog l -> same_logger l l' -> same_ep e (set_kind e (KLog l')).
Proof. intros e l l' K S. split; cbn; auto; try (rewrite K; exact S); unfold is_tcp; rewrite K; auto. Qed.

Lemma write_same : forall f v y i e mem m y' e' mem' ret call cs,
  write_ep f v y i e mem m = Ok (y', e', mem', ret, call, cs) ->
  same_ep e e' /\ mem_ok mem mem' /\ Forall ctl_ok cs /\ (is_log e = false -> cs = [] /\ mem' = mem /\ call <> DLogged) /\
  (is_log e = true -> call = DLogged /\ ret = Z.of_nat (m_len m)).
Proof.
  intros f v y i e mem m y' e' mem' ret call cs H. unfold write_ep in H. unfold is_log.
  destruct (ep_kind e) as [bd cu tm|conf peer tm|retry vl|[g b|a]] eqn:K.
  - destruct (negb (ep_fd e)). { inversion H; subst. split; [apply same_refl|]. split; [apply mem_refl|]. repeat split; auto; discriminate. }
    destruct (os_write _ _ _) as [r y1]. destruct (r =? - EAGAIN); inversion H; subst; (split; [auto using same_refl, same_count|]);
    (split; [apply mem_refl|]); repeat split; auto; discriminate.
  - destruct (negb (ep_fd e)). { inversion H; subst. split; [apply same_refl|]. split; [apply mem_refl|]. repeat split; auto; discriminate. }
    destruct (snd peer =? 0). { inversion H; subst. split; [apply same_refl|]. split; [apply mem_refl|]. repeat split; auto; discriminate. }
    destruct (os_write _ _ _) as [r y1]. destruct (r <? 0); inversion H; subst; (split; [auto using same_refl, same_count|]);
    (split; [apply mem_refl|]); repeat split; auto; discriminate.
  - destruct (negb (ep_fd e)). { inversion H; subst. split; [apply same_refl|]. split; [apply mem_refl|]. repeat split; auto; discriminate. }
    destruct (os_write _ _ _) as [r y1]. destruct (r <? 0).
    + destruct (r =? - EPIPE).
      * destruct (tcp_lost v y1 i e retry) as [y2 e2] eqn:L. inversion H; subst. split; [eapply same_lost; eauto|].
        split; [apply mem_refl|]. repeat split; auto; discriminate.
      * inversion H; subst. split; [apply same_refl|]. split; [apply mem_refl|]. repeat split; auto; discriminate.
    + inversion H; subst. split; [apply same_count|]. split; [apply mem_refl|]. repeat split; auto; discriminate.
  - inv_bind H. pose proof (ctl_lwrite _ _ _ _ _ _ _ _ _ _ _ _ E) as C. apply mem_lwrite in E. inversion H; subst.
    split; [eapply same_log_kind; eauto; apply E|]. split; [apply E|]. split; auto. split; [discriminate|auto].
  - inv_bind H. pose proof (ctl_auto_write _ _ _ _ _ _ _ _ _ _ E) as C. inversion H; subst.
    split; [eapply same_log_kind; eauto; exact I|]. split; [|split; auto; split; [discriminate|auto]].
    unfold auto_write in E. destruct (a_inner a) as [[g b]|].
    + inv_bind E. apply mem_lwrite in E0. inversion E; subst. apply E0.
    + destruct (negb _). { inversion E; subst; apply mem_refl. } inv_bind E.
      destruct (_ =? 12). { destruct (ask_bytes _ _ _). inversion E; subst; apply mem_refl. }
      destruct (_ =? 3); inversion E; subst; apply mem_refl.
Qed.

Lemma mod_fd_same : forall v y e y' e' r, mod_fd v y e true = (y', e', r) -> same_ep e e' /\ ep_kind e' = ep_kind e.
Proof.
  intros v y e y' e' r H. unfold mod_fd in H. destruct (ask v y) as [a y1]. destruct (ep_poll e) eqn:P.
  - destruct (a <? 0); inversion H; subst; split; auto using same_refl.
    split; cbn; auto; try apply same_kind_refl. congruence.
  - inversion H; subst. split; auto using same_refl.
Qed.

(* the write and the reaction of Mainloop::write_msg *)
Definition deliver (f : nat) (v : env) (w : world) (i : nat) (e : ep) (mem : list Z) (m : minfo)
  : res (world * list Z * delivery * list ctl) :=
  let* bs := slice mem 0 (m_len m) in
  let* (y, e, mem, ret, call, cs) := write_ep f v (w_sys w) i e mem m in
  let '(y, e, req) := (if ret =? - EAGAIN then let '(y, e, r) := mod_fd v y e true in (y, e, Some r) else (y, e, None)) in
  let w := put (set_sys w y) i e in
  Ok (if ret =? - EPIPE then set_hang w true else w, mem, mkDel i bs call req, cs).

Lemma route_each_cons : forall sub f v w i r mem m u, route_each sub f v w (i :: r) mem m u =
  let* e := get w i in
  match accept_msg (w_sniffer w) (ep_ids e) (ep_filters e) m with
  | Accepted =>
    let* (w, mem, d, cs) := deliver f v w i e mem m in
    let* (w, its) := route_ctls sub w i cs in
    let* (w, mem, ds, its', unknown) := route_each sub f v w r mem m false in
    Ok (w, mem, d :: ds, its ++ its', unknown)
  | Filtered => route_each sub f v w r mem m false
  | Rejected => route_each sub f v w r mem m u
  end.
Proof.
  intros. cbn [route_each]. destruct (get w i) as [e| |]; auto. cbn [bind].
  destruct (accept_msg _ _ _ _); auto. unfold deliver. destruct (slice mem 0 (m_len m)); auto. cbn [bind].
  destruct (write_ep f v (w_sys w) i e mem m) as [[[[[[y1 e1] mem1] ret] call] cs]| |]; auto. cbn [bind].
  destruct (if ret =? - EAGAIN then _ else _) as [[y2 e2] req]. cbn [bind].
  destruct (route_ctls _ _ _ _) as [[w1 its]| |]; auto.
Qed.

Lemma deliver_spec : forall f v w i e mem m w' mem' d cs, deliver f v w i e mem m = Ok (w', mem', d, cs) -> lookup w i = Some e ->
  routed w w' /\ mem_ok mem mem' /\ Forall ctl_ok cs /\ (is_log e = false -> cs = [] /\ mem' = mem) /\
  dl_to d = i /\ slice mem 0 (m_len m) = Ok (dl_bytes d) /\
  (forall j, j <> i -> lookup w' j = lookup w j).
Proof.
  intros f v w i e mem m w' mem' d cs H L. unfold deliver in H. inv_bind H. inv_bind H.
  apply write_same in E0. destruct E0 as (S & M & C & N & G).
  match type of H with context [if ?r =? - EAGAIN then _ else _] => destruct (r =? - EAGAIN) end.
  - destruct (mod_fd v s e0 true) as [[y2 e2] rq] eqn:MD. apply mod_fd_same in MD. destruct MD as [MD _].
    assert (S2 : same_ep e e2) by (eapply same_trans; eauto).
    assert (R : routed w (put (set_sys w y2) i e2)) by (eapply routed_put; eauto).
    destruct (_ =? - EPIPE); inversion H; subst; clear H; (split; [try (eapply routed_trans; [exact R|apply routed_hang]); auto|]);
    (split; [exact M|]); (split; [exact C|]); (split; [intros X; destruct (N X) as (? & ? & ?); auto|]); (split; [reflexivity|]); (split; [exact E|]);
    intros j NE; cbn; unfold lookup; cbn; rewrite nth_error_set_nth_neq; auto.
  - assert (R : routed w (put (set_sys w s) i e0)) by (eapply routed_put; eauto).
    destruct (_ =? - EPIPE); inversion H; subst; clear H; (split; [try (eapply routed_trans; [exact R|apply routed_hang]); auto|]);
    (split; [exact M|]); (split; [exact C|]); (split; [intros X; destruct (N X) as (? & ? & ?); auto|]); (split; [reflexivity|]); (split; [exact E|]);
    intros j NE; cbn; unfold lookup; cbn; rewrite nth_error_set_nth_neq; auto.
Qed.

(* ---- one message -------------------------------------------------------------------------------------------- *)

Definition verdict_of (w : world) (m : minfo) (i : nat) : accept_state :=
  match lookup w i with
  | Some e => accept_msg (w_sniffer w) (ep_ids e) (ep_filters e) m
  | None => Rejected
  end.
Definition accepts (w : world) (m : minfo) (i : nat) : bool := match verdict_of w m i with Accepted => true | _ => false end.
Definition rejects (w : world) (m : minfo) (i : nat) : bool := match verdict_of w m i with Rejected => true | _ => false end.

Lemma routed_verdict : forall w w' m i, routed w w' -> verdict_of w' m i = verdict_of w m i.
Proof.
  intros w w' m i R. unfold verdict_of. rewrite (ro_sniffer _ _ R). pose proof (ro_ep _ _ R i) as X.
  destruct (lookup w i), (lookup w' i); cbn in X; try tauto. destruct X. rewrite se_ids0, se_filters0. auto.
Qed.
Lemma routed_accepts : forall w w' m l, routed w w' -> filter (accepts w' m) l = filter (accepts w m) l.
Proof.
  intros. induction l; cbn; auto. unfold accepts. rewrite (routed_verdict w w' m a H).
  destruct (verdict_of w m a); auto. f_equal. exact IHl.
Qed.
Lemma routed_rejects : forall w w' m l, routed w w' -> forallb (rejects w' m) l = forallb (rejects w m) l.
Proof.
  intros. induction l; cbn; auto. unfold rejects. rewrite (routed_verdict w w' m a H).
  destruct (verdict_of w m a); auto.
Qed.

Definition sub_routed (sub : world -> ctl -> res (world * list delivery * list item)) : Prop :=
  forall w c w' ds its, sub w c = Ok (w', ds, its) -> routed w w'.

Lemma ctls_routed : forall sub, sub_routed sub -> forall cs w i w' its, route_ctls sub w i cs = Ok (w', its) -> routed w w'.
Proof.
  intros sub S. induction cs as [|c cs IH]; intros w i w' its H; cbn [route_ctls] in H.
  - inversion H; subst. apply routed_refl.
  - inv_bind H. inv_bind H. inversion H; subst. eapply routed_trans; eauto.
Qed.

Lemma each_spec : forall sub f v, sub_routed sub -> forall order w mem m u w' mem' ds its u',
  route_each sub f v w order mem m u = Ok (w', mem', ds, its, u') ->
  routed w w' /\ mem_ok mem mem' /\ map dl_to ds = filter (accepts w m) order /\ u' = u && forallb (rejects w m) order /\
  (forall i, In i order -> lookup w i <> None).
Proof.
  intros sub f v S. induction order as [|i r IH]; intros w mem m u w' mem' ds its u' H.
  - cbn [route_each] in H. inversion H; subst. cbn. rewrite andb_true_r. split; [apply routed_refl|]. split; [apply mem_refl|]. split; auto.
  - rewrite route_each_cons in H. inv_bind H. apply get_lookup in E. rename a into e.
    cbn [filter forallb]. unfold accepts at 1, rejects at 1, verdict_of. rewrite E.
    destruct (accept_msg _ _ _ _).
    + inv_bind H. inv_bind H. inv_bind H. inversion H; subst; clear H.
      destruct (deliver_spec _ _ _ _ _ _ _ _ _ _ _ E0 E) as (R & M & _ & _ & T & _).
      pose proof (ctls_routed _ S _ _ _ _ _ E1) as R2. assert (R3 : routed w w1) by (eapply routed_trans; eauto).
      destruct (IH _ _ _ _ _ _ _ _ _ E2) as (R4 & M4 & F & U & A).
      split; [eapply routed_trans; eauto|]. split; [eapply mem_trans; eauto|].
      split. { cbn [map]. rewrite T, F. f_equal. apply routed_accepts; auto. }
      split. { rewrite U. destruct u; reflexivity. }
      intros j [<-|J]; [congruence|]. pose proof (ro_ep _ _ R3 j) as X. specialize (A j J). destruct (lookup w j), (lookup w1 j); cbn in X; tauto || congruence.
    + destruct (IH _ _ _ _ _ _ _ _ _ H) as (R4 & M4 & F & U & A). split; auto. split; auto. split; auto.
      split. { rewrite U. destruct u; reflexivity. } intros j [<-|J]; [congruence|auto].
    + destruct (IH _ _ _ _ _ _ _ _ _ H) as (R4 & M4 & F & U & A). split; auto. split; auto. split; auto.
      split. { rewrite U. reflexivity. } intros j [<-|J]; [congruence|auto].
Qed.

Definition nested (k f : nat) (v : env) (w : world) (c : ctl) : res (world * list delivery * list item) :=
  let* (w, _, ds, its) := route k f v w (fst c) (snd c) in Ok (w, ds, its).

Lemma route_S : forall k f v w mem m, route (Datatypes.S k) f v w mem m =
  let* (w, mem, ds, its, unknown) := route_each (nested k f v) f v w (w_order w) mem m true in
  Ok (if unknown then set_unknown w (u32 (w_unknown w + 1)) else w, mem, ds, its).
Proof. reflexivity. Qed.

Lemma route_spec : forall n f v w mem m w' mem' ds its, route n f v w mem m = Ok (w', mem', ds, its) ->
  routed w w' /\ mem_ok mem mem' /\ map dl_to ds = filter (accepts w m) (w_order w) /\
  (forall i, In i (w_order w) -> lookup w i <> None).
Proof.
  induction n; intros f v w mem m w' mem' ds its H; [discriminate|]. rewrite route_S in H. inv_bind H.
  assert (S : sub_routed (nested n f v)).
  { intros w1 c w2 ds2 its2 X. unfold nested in X. inv_bind X. inversion X; subst. apply IHn in E0. apply E0. }
  destruct (each_spec _ _ _ S _ _ _ _ _ _ _ _ _ _ E) as (R & M & F & U & A). inversion H; subst.
  split; auto. destruct (_ && _); auto. eapply routed_trans; [exact R|apply routed_unknown].
Qed.
Lemma nested_routed : forall k f v, sub_routed (nested k f v).
Proof. intros k f v w c w' ds its X. unfold nested in X. inv_bind X. inversion X; subst. apply route_spec in E. apply E. Qed.
