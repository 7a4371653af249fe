(* An invariant of the router: endpoints in use, groups, known systems, receive buffers. *)
From Verif Require Import Base Mav SpecFrame Frame FrameProofs FrameRefine FrameLink Dedup SpecAccept Accept AcceptProofs Names Sys LogFile ULog Loggers LogInv LogStep RouterCtl Router RouterRoute RouterRoute2 RouterSetup RouterActs.

(* ---- receive buffers --------------------------------------------------------------------------------- *)

Definition rx_ok (x : rx) : Prop := bytes (rx_data x) /\ exists s, good x s.

Lemma rx_begin_mem : forall x x', rx_begin x = Ok x' -> mem_ok (rx_data x) (rx_data x').
Proof.
  intros x x' H. unfold rx_begin in H. destruct (_ =? 0)%nat. { inversion H; subst. apply mem_refl. }
  destruct (_ <=? _)%nat; [|discriminate]. inv_bind H. inversion H; subst. cbn [rx_data].
  destruct (0 <? _)%nat. { eapply mem_move; eauto. } inversion E; subst. apply mem_refl.
Qed.
Lemma rx_fill_mem : forall x a x', bytes a -> rx_fill x a = Ok x' -> mem_ok (rx_data x) (rx_data x').
Proof.
  intros x a x' B H. unfold rx_fill in H. inv_bind H. inversion H; subst. cbn [rx_data]. eapply mem_blit; eauto.
  intros _. apply bytes_firstn; auto.
Qed.
Lemma rx_sync_mem : forall x x', rx_sync x = Ok (Some x') -> mem_ok (rx_data x) (rx_data x').
Proof.
  intros x x' H. unfold rx_sync in H. inv_bind H. destruct (is_stx a). { inversion H; subst. apply mem_refl. }
  inv_bind H. destruct a0; [|discriminate]. inv_bind H. inversion H; subst. cbn [rx_data]. eapply mem_move; eauto.
Qed.
Lemma rx_packet_data : forall tbl x st x' st' r, rx_packet tbl x st = Ok (x', st', r) -> rx_data x' = rx_data x.
Proof.
  intros tbl x st x' st' r H. unfold rx_packet in H. inv_bind H. destruct (_ <? _)%nat. { inversion H; subst; auto. }
  inv_bind H. destruct (_ <? _)%nat. { inversion H; subst; auto. } inv_bind H.
  match type of H with context [if negb ?b then _ else _] => destruct (negb b) end. { inversion H; subst; auto. }
  inv_bind H. inv_bind H. inversion H; subst; auto.
Qed.
Lemma read_msg_mem : forall tbl x st rr x' st' r, wf_rd rr -> read_msg tbl x st rr = Ok (x', st', r) -> mem_ok (rx_data x) (rx_data x').
Proof.
  intros tbl x st rr x' st' r W H. unfold read_msg in H. inv_bind H. rename a into x1. apply rx_begin_mem in E. inv_bind H.
  match type of H with match ?o with _ => _ end = _ => destruct o as [x2|] end; [|inversion H; subst; auto].
  assert (M : mem_ok (rx_data x1) (rx_data x2)).
  { destruct (needs_read x).
    - destruct rr as [av|q]; [|inversion E0]. destruct (firstn _ av); [inversion E0|]. inv_bind E0. inversion E0; subst. eapply rx_fill_mem; eauto.
    - inversion E0; subst. apply mem_refl. }
  inv_bind H. destruct a as [x3|].
  - apply rx_sync_mem in E1. apply rx_packet_data in H. rewrite H. eapply mem_trans; [eauto|]. eapply mem_trans; eauto.
  - inversion H; subst. cbn [rx_data]. eapply mem_trans; eauto.
Qed.

Lemma slice_prefix : forall a b, slice (a ++ b) 0 (length a) = Ok a.
Proof.
  intros. unfold slice. rewrite app_length. cbn [Nat.add skipn]. rewrite (proj2 (Nat.leb_le _ _)) by lia.
  rewrite firstn_app, firstn_all, Nat.sub_diag, firstn_O, app_nil_r. reflexivity.
Qed.

Lemma read_msg_ok : forall tbl x st rr x' st' r, wf_table tbl -> rx_ok x -> wf_rd rr -> read_msg tbl x st rr = Ok (x', st', r) ->
  rx_ok x' /\
  (forall k m, r = RetMsg k m -> exists p, wf_packet p /\ acceptable tbl p /\ m = info_of tbl p /\ m_len m = length (encode p) /\
     slice (rx_data x') 0 (m_len m) = Ok (encode p) /\ rx_last x' <> 0%nat).
Proof.
  intros tbl x st rr x' st' r T [B (s & G)] W H. pose proof (read_msg_mem _ _ _ _ _ _ _ W H) as [_ M].
  destruct (read_msg_step tbl x s st rr T G W) as (x2 & st2 & r2 & E & O). rewrite H in E. inversion E; subst x2 st2 r2; clear E.
  assert (BT : bytes (drop_junk (rest_of x s ++ taken x s rr))).
  { apply drop_junk_bytes. apply bytes_app. split.
    - apply bytes_skipn. apply G.
    - unfold taken. destruct rr; [|constructor]. destruct (needs_read x); [|constructor]. apply bytes_firstn; auto. }
  split. { split; auto. eexists. eapply outcome_good; eauto. }
  intros k m ->. inversion O; subst. exists p. repeat split; auto; try (match goal with X : wf_packet p |- _ => apply X end).
  - match goal with X : holds _ _ |- _ => destruct X as (tail & D & _) end. rewrite D.
    match goal with X : drop_junk _ = _ |- _ => rewrite X end. rewrite <- app_assoc. apply slice_prefix.
  - match goal with X : rx_last _ = _ |- _ => rewrite X end. match goal with X : wf_packet p |- _ => pose proof (encode_length_bounds p X) end. lia.
Qed.

(* the buffer after a message was handled; ULog may have changed it *)
Lemma rx_ok_changed : forall x mem, rx_ok x -> mem_ok (rx_data x) mem -> rx_last x <> 0%nat -> rx_ok (mkRx mem (rx_len x) (rx_last x)).
Proof.
  intros x mem [B (s & (tail & D & L & N) & R & BS & I)] [ML MB] NZ. split; cbn [rx_data]; auto.
  assert (LM : length mem = RXMAX) by (rewrite ML, D; auto).
  assert (SL : (length s <= length mem)%nat) by (rewrite ML, D, app_length; lia).
  exists (firstn (length s) mem). split; [|split; [|split]].
  - exists (skipn (length s) mem). cbn [rx_data rx_len]. rewrite firstn_skipn. repeat split; auto. rewrite firstn_length. lia.
  - cbn [rx_last]. rewrite firstn_length. lia.
  - apply bytes_firstn. auto.
  - cbn [rx_last]. intros Z0. contradiction.
Qed.

(* ---- changes that keep what the invariant is about ------------------------------------------------------- *)

Definition class (k k' : kind) : Prop :=
  match k, k' with
  | KUart b _ _, KUart b' _ _ => b' = b
  | KUdp c _ t, KUdp c' _ t' => c' = c /\ t' = t
  | KTcp r _, KTcp r' _ => r' = r
  | KLog l, KLog l' => same_logger l l'
  | _, _ => False
  end.
Lemma class_refl : forall k, class k k.
Proof. destruct k; cbn; auto using same_logger_refl. Qed.
Lemma class_trans : forall a b c, class a b -> class b c -> class a c.
Proof. intros a b c. destruct a, b; cbn; try tauto; destruct c; cbn; try tauto; try (intuition congruence). apply same_logger_trans. Qed.
Lemma class_same : forall a b, same_kind a b -> class a b.
Proof. intros a b. destruct a, b; cbn; auto; intros H; inversion H; subst; auto. Qed.
Lemma class_log : forall e e', class (ep_kind e) (ep_kind e') -> is_log e' = is_log e.
Proof. intros e e'. unfold is_log. destruct (ep_kind e), (ep_kind e'); cbn; tauto. Qed.
Lemma class_tcp : forall e e', class (ep_kind e) (ep_kind e') -> is_tcp e' = is_tcp e.
Proof. intros e e'. unfold is_tcp. destruct (ep_kind e), (ep_kind e'); cbn; tauto. Qed.

Record kept_ep (e e' : ep) : Prop := mkKeptEp {
  ke_ids : ep_ids e' = ep_ids e;
  ke_filters : ep_filters e' = ep_filters e;
  ke_group : ep_group e' = ep_group e;
  ke_members : ep_members e' = ep_members e;
  ke_kind : class (ep_kind e) (ep_kind e');
  ke_rx : rx_ok (ep_rx e) -> rx_ok (ep_rx e');
  ke_fd : is_tcp e = false -> ep_fd e = false -> ep_fd e' = false;
  ke_poll : is_tcp e = false -> ep_poll e = None -> ep_poll e' = None }.

Lemma kept_ep_refl : forall e, kept_ep e e.
Proof. intros. split; auto using class_refl. Qed.
Lemma kept_ep_trans : forall a b c, kept_ep a b -> kept_ep b c -> kept_ep a c.
Proof.
  intros a b c A B. pose proof (class_tcp _ _ (ke_kind _ _ A)) as T. destruct A, B. rewrite T in *.
  split; try congruence; auto. eapply class_trans; eauto.
Qed.
Lemma kept_same : forall e e', same_ep e e' -> kept_ep e e'.
Proof. intros e e' S. split; try apply S. { apply class_same, S. } { rewrite (se_rx _ _ S); auto. } { intros _. apply S. } { intros _. apply S. } Qed.

Definition kept_opt (a b : option ep) : Prop :=
  match a, b with Some e, Some e' => kept_ep e e' | None, None => True | _, _ => False end.

Record kept (w w' : world) : Prop := mkKept {
  kp_order : w_order w' = w_order w;
  kp_server : w_server w' = w_server w;
  kp_sniffer : w_sniffer w' = w_sniffer w;
  kp_log : w_log w' = w_log w;
  kp_len : length (w_eps w') = length (w_eps w);
  kp_unknown : u32 (w_unknown w) = w_unknown w -> logs_ok w -> u32 (w_unknown w') = w_unknown w';
  kp_ep : forall i, kept_opt (lookup w i) (lookup w' i) }.

Lemma kept_lookup : forall w w' i e, kept w w' -> lookup w i = Some e -> exists e', lookup w' i = Some e' /\ kept_ep e e'.
Proof. intros w w' i e K L. pose proof (kp_ep _ _ K i) as X. rewrite L in X. destruct (lookup w' i); cbn in X; [eauto|tauto]. Qed.
Lemma kept_lookup_rev : forall w w' i e, kept w w' -> lookup w' i = Some e -> exists e', lookup w i = Some e' /\ kept_ep e' e.
Proof. intros w w' i e K L. pose proof (kp_ep _ _ K i) as X. rewrite L in X. destruct (lookup w i); cbn in X; [eauto|tauto]. Qed.
Lemma kept_logs : forall w w', kept w w' -> logs_ok w -> logs_ok w'.
Proof.
  intros w w' K L i e E G. destruct (kept_lookup_rev _ _ _ _ K E) as (e0 & E0 & KE). rewrite (ke_ids _ _ KE). apply (L i e0 E0).
  rewrite <- (class_log _ _ (ke_kind _ _ KE)). auto.
Qed.

Lemma kept_opt_refl : forall o, kept_opt o o.
Proof. destruct o; cbn; auto using kept_ep_refl. Qed.
Lemma kept_refl : forall w, kept w w.
Proof. intros. split; auto. intros. apply kept_opt_refl. Qed.
Lemma kept_trans : forall a b c, kept a b -> kept b c -> kept a c.
Proof.
  intros a b c A B. split; try (destruct A, B; congruence).
  - intros U L. apply (kp_unknown _ _ B); [|eapply kept_logs; eauto]. apply (kp_unknown _ _ A); auto.
  - intros i. pose proof (kp_ep _ _ A i) as X. pose proof (kp_ep _ _ B i) as Y.
    destruct (lookup a i), (lookup b i), (lookup c i); cbn in *; try tauto. eapply kept_ep_trans; eauto.
Qed.
Lemma kept_put : forall w y i e e', lookup w i = Some e -> kept_ep e e' -> kept w (put (set_sys w y) i e').
Proof.
  intros w y i e e' L S. split; try reflexivity; auto.
  - cbn. apply set_nth_length.
  - intros j. destruct (Nat.eq_dec i j) as [<-|N].
    + rewrite (lookup_put_eq (set_sys w y) i e' e) by exact L. rewrite L. exact S.
    + rewrite lookup_put_neq by auto. rewrite lookup_sys. apply kept_opt_refl.
Qed.
Lemma set_sys_id : forall w, set_sys w (w_sys w) = w.
Proof. destruct w; reflexivity. Qed.
Lemma kept_put0 : forall w i e e', lookup w i = Some e -> kept_ep e e' -> kept w (put w i e').
Proof. intros. rewrite <- (set_sys_id w) at 2. eapply kept_put; eauto. Qed.
Lemma kept_sys : forall w y, kept w (set_sys w y).
Proof. intros. split; auto. intros i. rewrite lookup_sys. apply kept_opt_refl. Qed.
Lemma kept_hang : forall w b, kept w (set_hang w b).
Proof. intros. split; auto. intros i. apply kept_opt_refl. Qed.
Lemma kept_exit : forall w b, kept w (set_exit w b).
Proof. intros. split; auto. intros i. apply kept_opt_refl. Qed.
Lemma kept_dedup : forall w b, kept w (set_dedup w b).
Proof. intros. split; auto. intros i. apply kept_opt_refl. Qed.
Lemma kept_routed : forall w w', routed w w' -> (u32 (w_unknown w) = w_unknown w -> logs_ok w -> u32 (w_unknown w') = w_unknown w') -> kept w w'.
Proof.
  intros w w' R U. pose proof (ro_ep _ _ R) as P. destruct R. split; auto. intros i. specialize (P i).
  destruct (lookup w i), (lookup w' i); cbn in *; auto using kept_same.
Qed.

Lemma kept_route : forall f v w mem m w' mem' ds its, route NEST f v w mem m = Ok (w', mem', ds, its) -> kept w w'.
Proof.
  intros f v w mem m w' mem' ds its H. apply kept_routed. { apply route_spec in H. apply H. }
  intros U L. rewrite (route_unknown 0 f v w mem m w' mem' ds its L U H). apply u32_idem.
Qed.
Lemma kept_ctls : forall f v w i cs w' its, Forall ctl_ok cs -> route_ctls (route_sub f v) w i cs = Ok (w', its) -> kept w w'.
Proof.
  intros f v w i cs w' its C H. apply kept_routed. { eapply ctls_routed; [|exact H]. apply (nested_routed NEST). }
  intros U L. rewrite (ctls_unknown 1 f v cs w i w' its L C U H). apply u32_idem.
Qed.

(* ---- the invariant ------------------------------------------------------------------------------------------- *)

Definition grouped (e e' : ep) : Prop := ep_group e' = ep_group e /\ ep_group e <> [].

Record Inv (w : world) : Prop := mkInv {
  i_nodup : NoDup (w_order w);
  i_alive : forall i, In i (w_order w) -> lookup w i <> None;
  i_logs : forall i e, lookup w i = Some e -> is_log e = true -> ep_ids e = [512] /\ ep_group e = [] /\ ep_fd e = false /\ ep_poll e = None;
  i_mem : forall i e j, lookup w i = Some e -> In j (ep_members e) -> j <> i /\ exists e', lookup w j = Some e' /\ grouped e e';
  i_clique : forall i e j e', lookup w i = Some e -> lookup w j = Some e' -> i <> j -> grouped e e' -> In j (ep_members e);
  i_same : forall i e j e', lookup w i = Some e -> lookup w j = Some e' -> grouped e e' -> ep_ids e' = ep_ids e;
  i_ids : forall i e, lookup w i = Some e -> NoDup (ep_ids e) /\ wf_ids (ep_ids e);
  i_rx : forall i e, lookup w i = Some e -> rx_ok (ep_rx e);
  i_unknown : u32 (w_unknown w) = w_unknown w }.

Lemma inv_logs : forall w, Inv w -> logs_ok w.
Proof. intros w I i e L G. destruct (i_logs w I i e L G) as (-> & _). left; auto. Qed.

Lemma kept_inv : forall w w', kept w w' -> Inv w -> Inv w'.
Proof.
  intros w w' K I. split.
  - rewrite (kp_order _ _ K). apply I.
  - intros i H. rewrite (kp_order _ _ K) in H. apply (i_alive w I) in H. pose proof (kp_ep _ _ K i) as X. destruct (lookup w i), (lookup w' i); cbn in X; congruence || tauto.
  - intros i e L G. destruct (kept_lookup_rev _ _ _ _ K L) as (e0 & L0 & KE). pose proof (class_log _ _ (ke_kind _ _ KE)) as C.
    destruct (i_logs w I i e0 L0) as (A & B & D & E). { congruence. }
    assert (T : is_tcp e0 = false) by (unfold is_log in *; unfold is_tcp; destruct (ep_kind e0); congruence).
    rewrite (ke_ids _ _ KE), (ke_group _ _ KE). repeat split; auto; [apply (ke_fd _ _ KE)|apply (ke_poll _ _ KE)]; auto.
  - intros i e j L M. destruct (kept_lookup_rev _ _ _ _ K L) as (e0 & L0 & KE). rewrite (ke_members _ _ KE) in M.
    destruct (i_mem w I i e0 j L0 M) as (N & e1 & L1 & G). split; auto. destruct (kept_lookup _ _ _ _ K L1) as (e1' & L1' & KE1). exists e1'. split; auto.
    unfold grouped in *. rewrite (ke_group _ _ KE1), (ke_group _ _ KE). auto.
  - intros i e j e' L L' N G. destruct (kept_lookup_rev _ _ _ _ K L) as (e0 & L0 & KE). destruct (kept_lookup_rev _ _ _ _ K L') as (e1 & L1 & KE1).
    rewrite (ke_members _ _ KE). eapply (i_clique w I); eauto. unfold grouped in *. rewrite <- (ke_group _ _ KE1), <- (ke_group _ _ KE). auto.
  - intros i e j e' L L' G. destruct (kept_lookup_rev _ _ _ _ K L) as (e0 & L0 & KE). destruct (kept_lookup_rev _ _ _ _ K L') as (e1 & L1 & KE1).
    rewrite (ke_ids _ _ KE), (ke_ids _ _ KE1). eapply (i_same w I); eauto. unfold grouped in *. rewrite <- (ke_group _ _ KE1), <- (ke_group _ _ KE). auto.
  - intros i e L. destruct (kept_lookup_rev _ _ _ _ K L) as (e0 & L0 & KE). rewrite (ke_ids _ _ KE). eapply (i_ids w I); eauto.
  - intros i e L. destruct (kept_lookup_rev _ _ _ _ K L) as (e0 & L0 & KE). apply (ke_rx _ _ KE). eapply (i_rx w I); eauto.
  - apply (kp_unknown _ _ K); [apply I|apply inv_logs; auto].
Qed.
