(* C99: whose messages a flight-stack logger takes. *)
From Verif Require Import Base Mav SpecFrame Frame FrameProofs Names Sys LogFile LogFileProofs ULog Loggers LogInv LogStep SpecLog LogRun LogModes LogModes2
  ExFrame BinProofs Prop_LogModes Prop_BinLog Prop_ULogEx Prop_ULogNew SpecAsk LogAsk.

(* the messages of the logging protocols *)
Definition of_protocol (k : protocol) (p : packet) : bool :=
  match k with Blocks => p_id p =? 184 | Streaming => (p_id p =? 77) || (p_id p =? 266) || (p_id p =? 267) | NoProtocol => true end.

Definition sx_block (s : Z) : packet := seal 159 (mkPacket (V2 0 0 []) 0 s 1 184 ([0; 0; 0; 0; 2; 0] ++ repeat 9 200) 0 0).
Definition sx_evs : list lev := [LMsg (lx_hb 1 81 3) []; LMsg (sx_block 7) []].

(* Not so for the messages of the protocol: the log of system 1 is filled by system 7, which also answers the start request and is
   acknowledged, although system 1 sent no data. *)
Theorem C99_sender_refuted : exists v y evs y' g' b' cs data,
  fresh_in y 0 /\ Forall wf_packet (offered evs) /\ log_dialect v (offered evs) /\
  lrun 9 v y (lg_new 0 ext_bin 0 0 MAlways 1) (BBin 0) evs = Ok (y', g', b', cs) /\
  monitored 1 (offered evs) = 1 /\ (forall p, In p (offered evs) -> p_sys p = 1 -> of_protocol Blocks p = false) /\
  content y' (l_name g') data /\ data = repeat 9 200 /\ l_tstart g' = None /\ acks cs = [(0, 1)].
Proof.
  exists lx_env, lx_sys, sx_evs.
  destruct (Ok_witness _ (lrun 9 lx_env lx_sys (lg_new 0 ext_bin 0 0 MAlways 1) (BBin 0) sx_evs)
    (fun t => let '(y, g, b, cs) := t in contentb y (l_name g) (repeat 9 200) && (match l_tstart g with None => true | _ => false end) &&
       (beqs (map fst (acks cs)) [0] && beqs (map snd (acks cs)) [1]))) as ([[[y' g'] b'] cs] & R & O); [vm_compute; reflexivity|].
  exists y', g', b', cs, (repeat 9 200). apply andb_prop in O. destruct O as [O O3]. apply andb_prop in O. destruct O as [O1 O2].
  split. { split; [split; constructor|intros t []]. }
  split. { cbn [sx_evs offered]. repeat apply Forall_cons; [wfb|wfb|apply Forall_nil]. }
  split. { split. { exists (mkEntry 159 206 (Some 4%nat) (Some 5%nat)). split; reflexivity. }
           intros p [<-|[<-|[]]] ID; [discriminate ID|split; [wfb|intros X; discriminate X]]. }
  split; [exact R|]. split; [reflexivity|]. split. { intros p [<-|[<-|[]]] S; [reflexivity|discriminate S]. }
  split; [apply contentb_ok; exact O1|]. split; [reflexivity|]. split. { destruct (l_tstart g'); [discriminate O2|reflexivity]. }
  apply andb_prop in O3. destruct O3 as [A1 A2]. apply beqs_eq in A1, A2. destruct (acks cs) as [|[a c] [|]]; try discriminate A1. inversion A1; inversion A2; reflexivity.
Qed.

Lemma levent_kind : forall f v y g b e y' g' b' cs, levent f v y g b e = Ok (y', g', b', cs) -> sys_ok y -> linv y g -> kind_of b' = kind_of b.
Proof.
  intros f v y g b e y' g' b' cs H S L. destruct e as [p t| |]; cbn [levent] in H.
  - inv_bind H. inversion H; subst. eapply lwrite_kind; eauto.
  - destruct (l_tstart g). 2:{ inversion H; subst; auto. } destruct (lcb_start y g b) as [[y1 g1] c]. inversion H; subst; auto.
  - destruct (l_talive g). 2:{ inversion H; subst; auto. } unfold lcb_alive in H. inv_bind H. inversion H; subst. destruct (_ =? _).
    + inv_bind E. inv_bind E. inversion E; subst. assert (K : forall b1 b2, proto b1 = proto b2 -> kind_of b1 = kind_of b2) by (intros [] []; cbn; congruence).
      destruct (lstop_ask _ _ _ _ _ _ _ _ _ E0) as (_ & O & _ & P & _). destruct (lstart_ask _ _ _ _ _ _ _ _ E1 O) as (_ & _ & _ & _ & P2). apply K. congruence.
    + inversion E; subst; auto.
Qed.

(* What holds: a message of another system that is not of the protocol changes nothing and sends nothing, except that in mode "always"
   it can be the one that opens the next log. *)
Theorem C99_unrelated_partial : forall fuel v y ep ext mf ml mode fcu b before y1 g1 b1 c1 p tail,
  fresh_in y ep -> Forall wf_packet (offered before) ->
  lrun fuel v y (lg_new ep ext mf ml mode fcu) b before = Ok (y1, g1, b1, c1) ->
  monitored fcu (offered before) <> -1 -> p_sys p <> monitored fcu (offered before) -> of_protocol (proto b) p = false ->
  l_mode g1 <> MAlways \/ l_open g1 = true ->
  levent fuel v y1 g1 b1 (LMsg p tail) = Ok (y1, g1, b1, []).
Proof.
  intros fuel v y ep ext mf ml mode fcu b before y1 g1 b1 c1 p tail (S & N) W R M NS NP MO.
  assert (L : linv y (lg_new ep ext mf ml mode fcu)) by (apply linv_new; auto).
  pose proof (run_target _ _ _ _ _ _ _ _ _ _ _ R S L W eq_refl) as T. change (l_target (lg_new ep ext mf ml mode fcu)) with fcu in T.
  assert (P : kind_of b1 = kind_of b).
  { clear - R S L. revert S L R. generalize (lg_new ep ext mf ml mode fcu) as g. revert y b y1 g1 b1 c1.
    induction before as [|e evs IH]; intros y b y1 g1 b1 c1 g S L R; cbn [lrun] in R. { inversion R; subst; auto. }
    inv_bind R. inv_bind R. inversion R; subst. destruct (levent_step _ _ _ _ _ _ _ _ _ _ E S L) as (S1 & L1 & _).
    rewrite (IH _ _ _ _ _ _ _ S1 L1 E0). eapply levent_kind; eauto. }
  cbn [levent]. unfold lwrite. assert (LT : learn_target g1 (info_of (v_tbl v) p) = g1).
  { unfold learn_target. rewrite T, (proj2 (Z.eqb_neq _ _) M). reflexivity. }
  rewrite LT. assert (AU : auto_start_stop fuel v y1 g1 b1 (encode p ++ tail) (info_of (v_tbl v) p) = Ok (y1, g1, b1, [])).
  { unfold auto_start_stop. rewrite T, (proj2 (Z.eqb_neq _ _) M). cbn [m_id m_ssys m_scomp info_of]. rewrite (proj2 (Z.eqb_neq _ _) NS), andb_false_r. cbn [andb].
    destruct (l_mode g1); auto. destruct MO as [MO| ->]; [congruence|reflexivity]. }
  rewrite AU. cbn [bind]. destruct b, b1; try discriminate P; cbn [proto of_protocol] in NP; try discriminate NP.
  - unfold bin_write. cbn [m_id info_of]. rewrite NP. reflexivity.
  - unfold ul_write. cbn [m_id info_of]. rewrite NP. reflexivity.
Qed.

(* a heartbeat of another vehicle that is armed, and its other telemetry, do not concern the log *)
Example C99_nonvacuous :
  match lrun 9 lx_env lx_sys (lg_new 0 ext_bin 0 0 MWhileArmed (-1)) (BBin 0) [LMsg (lx_hb 1 81 3) []] with
  | Ok (y, g, b, _) => l_mode g <> MAlways /\ l_open g = false /\ monitored (-1) [lx_hb 1 81 3] = 1 /\ p_sys (lx_hb 2 209 3) = 2 /\ says_armed (lx_hb 2 209 3) = true /\
      of_protocol Blocks (lx_hb 2 209 3) = false /\ levent 9 lx_env y g b (LMsg (lx_hb 2 209 3) []) = Ok (y, g, b, [])
  | _ => False end /\
  match lrun 9 un_env lx_sys (lg_new 0 ext_ulg 0 0 MAlways 1) ux_new [LMsg (lx_hb 1 81 3) []; LMsg ux_ack []] with
  | Ok (y, g, b, _) => l_open g = true /\ levent 9 un_env y g b (LMsg (lx_hb 2 209 3) [5]) = Ok (y, g, b, [])
  | _ => False end.
Proof. split; vm_compute; repeat split; discriminate. Qed.

Print Assumptions C99_sender_refuted.
Print Assumptions C99_unrelated_partial.
