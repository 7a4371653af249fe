(* C102: what the binary logger acknowledges is in its log file, in every run of the program. *)
From Verif Require Import Base Mav SpecFrame Frame FrameProofs Names Sys LogFile LogFileProofs ULog Loggers LogInv LogStep SpecLog LogRun LogModes LogModes2
  ExFrame Accept BinProofs Prop_LogModes Prop_BinLog SpecAsk LogAsk LogAsk2 LogAsk3 Prop_Ask Router RouterSetup RouterLogs RouterTimers SpecRouter LogHist RouterLives ExRouter SpecTalk LogLive LogLive2 Prop_Dialogue
  LogSpare TeleRun BinRun.

(* ---- specification ------------------------------------------------------------------------------------------------- *)

(* logger [i] tells the vehicle that it has block [n]: REMOTE_LOG_BLOCK_STATUS (185) with that number and status 1 *)
Definition acknowledges (n : Z) (i : nat) (x : item) : Prop := exists bs m ds, x = ICtl i bs m ds /\ raw_id bs = 185 /\ status_of bs = (n, 1).
(* a message with block [n] (REMOTE_LOG_DATA_BLOCK, 184); one whose byte [j] is [c] *)
Definition block (n : Z) (p : packet) : bool := (p_id p =? 184) && (block_number p =? n).
Definition block_byte (n : Z) (j : nat) (c : Z) (p : packet) : bool := block n p && (nth j (block_data p) 0 =? c).

(* logger [i] is writing the file [name], which holds [d] *)
Definition recording (w : world) (i : nat) (name d : list Z) : Prop :=
  (exists e, lookup w i = Some e /\
   match ep_kind e with
   | KLog (LFile g _) => l_open g = true /\ l_name g = name
   | KLog (LAuto a) => exists g b, a_inner a = Some (g, b) /\ l_open g = true /\ l_name g = name
   | _ => False
   end) /\ content (w_sys w) name d.

(* logs below 4 GiB, no MAVLink 1 message too short for its fields *)
Definition fitting_trace (its : list item) : Prop :=
  forall j p m d ds, In (IRecv j (encode p) m d ds) its -> wf_packet p -> p_id p = 184 -> block_number p < 21474836 /\ (p_ver p = V1 -> (206 <= length (p_payload p))%nat).

(* ---- theorems ------------------------------------------------------------------------------------------------------- *)

Section Run.
Variables (f : nat) (v : env) (c : config) (lc : logconf) (its : list item) (w : world).
Hypothesis WT : wf_table (v_tbl v).
Hypothesis RUN : runs f v c its w.
Hypothesis LOG : cf_log c = Some lc.
Hypothesis TK : talks w (length (confs c)) Blocks.
Hypothesis KN : knows v Blocks.
Hypothesis FIT : fitting_trace its.
Let i : nat := length (confs c).

Lemma logged : exists l, at_log i w l /\ log_ok flight_names i its (w_sys w) l /\ exists g a, inner l = Some (g, BBin a).
Proof.
  destruct KN as (ent & T & M). destruct (lives_runs f v c its w lc WT RUN LOG) as (y0 & l0 & l & NF & S & TO & AT & LV). exists l. split; [exact AT|]. split.
  - refine (ok_lives flight_names v ent T M f _ _ _ _ _ _ _ LV _ _ _).
    + intros k t. left. apply log_name_ext.
    + split; auto.
    + intros j p m d ds I W. split; auto. intros ID. destruct (FIT _ _ _ _ _ I W ID) as [A B]. split; auto.
    + unfold log_ok. unfold new_flight in NF. destruct (lc_dialect lc).
      * rewrite NF. cbn [inner]. split; [reflexivity|]. split; [intros X; discriminate X|]. intros _ n a z b (E & _). destruct a; discriminate.
      * destruct NF as (uj & _ & ->). cbn [inner]. exact I.
      * rewrite NF. cbn [inner a_inner]. intros bs m ds [].
  - destruct AT as (e & L & K). destruct TK as (e' & L' & Q). fold (flight c) in L'. rewrite L in L'. injection L' as <-. rewrite K in Q. destruct l as [g b|a]; cbn [inner].
    + destruct b; try discriminate Q. eauto.
    + destruct Q as (g & b & E & Q). rewrite E. destruct b; try discriminate Q. eauto.
Qed.

(* A block that was acknowledged and not taken back (no stop request since) is in the file being written: each of its bytes is
   that of the message that was acknowledged, or of a later message with the same block; and the acknowledged message reached
   the logger just before (nothing but messages of loggers in between). *)
Theorem C102_acknowledged_is_stored : forall a z b n, its = a ++ z :: b -> 0 <= n < 21474836 -> acknowledges n i z -> (forall s, In s b -> ~ stops Blocks i s) ->
  exists name d a0 x r, recording w i name d /\ (Z.to_nat (200 * n) + 200 <= length d)%nat /\
    a = a0 ++ x :: r /\ messages r /\ gets (block n) i x /\
    forall j, (j < 200)%nat -> exists y, In y (x :: r ++ z :: b) /\ gets (block_byte n j (nth (Z.to_nat (200 * n) + j) d 0)) i y.
Proof.
  intros a z b n E N A NS. destruct logged as (l & (e & L & K) & OK & g & q & IN). unfold log_ok in OK. rewrite IN in OK. destruct OK as (_ & OO & OC).
  assert (LV : live i its n a z b) by (split; auto).
  destruct (l_open g) eqn:O; [|destruct (OC eq_refl _ _ _ _ LV)]. destruct (OO eq_refl) as (_ & d & KF & BK). destruct (BK _ _ _ _ LV) as (LD & a0 & x & r & EA & M & G & BY).
  exists (l_name g), d, a0, x, r. split; [|repeat (split; auto)]. split; [|apply kept_content in KF; apply KF]. exists e. split; auto. rewrite K.
  destruct l as [g0 b0|au]; cbn [inner] in IN. { injection IN as -> ->. auto. } exists g, (BBin q). auto.
Qed.

(* In particular, if every message with that block carries the same data (repetitions are repetitions), that is what the file holds. *)
Theorem C102_acknowledged_data : forall a z b n D, its = a ++ z :: b -> 0 <= n < 21474836 -> acknowledges n i z -> (forall s, In s b -> ~ stops Blocks i s) ->
  (forall j p m d ds, In (IRecv j (encode p) m d ds) its -> wf_packet p -> block n p = true -> block_data p = D) ->
  exists name d, recording w i name d /\ firstn 200 (skipn (Z.to_nat (200 * n)) d) = D.
Proof.
  intros a z b n D E N A NS SAME. destruct (C102_acknowledged_is_stored a z b n E N A NS) as (name & d & a0 & x & r & R & LD & EA & _ & G & BY). exists name, d. split; auto.
  assert (IT : forall y, In y (x :: r ++ z :: b) -> In y its). { intros y Y. rewrite E, EA, <- app_assoc. apply in_or_app. right. exact Y. }
  assert (LEN : length D = 200%nat). { destruct G as (j & p & m & dd & ds & -> & W & B & _). rewrite <- (SAME _ _ _ _ _ (IT _ (or_introl eq_refl)) W B). apply block_data_length. }
  apply (nth_ext _ _ 0 0). { rewrite firstn_length, skipn_length. lia. }
  intros j J. rewrite firstn_length, skipn_length in J. rewrite nth_firstn_lt by lia. rewrite nth_skipn0. destruct (BY j) as (y & IY & k & p & m & dd & ds & -> & W & B & _); [lia|].
  unfold block_byte in B. apply andb_prop in B. destruct B as [B1 B2]. apply Z.eqb_eq in B2. rewrite (SAME _ _ _ _ _ (IT _ IY) W B1) in B2. auto.
Qed.

(* While the logger writes no file, everything it acknowledged has been taken back. *)
Theorem C102_closed_takes_back : forall a z b n, its = a ++ z :: b -> 0 <= n < 21474836 -> acknowledges n i z -> (forall name d, ~ recording w i name d) -> ~ forall s, In s b -> ~ stops Blocks i s.
Proof. intros a z b n E N A NR NS. destruct (C102_acknowledged_is_stored a z b n E N A NS) as (name & d & _ & _ & _ & R & _). apply (NR _ _ R). Qed.
End Run.

(* ---- example ---------------------------------------------------------------------------------------------------------- *)

(* blocks 0 and 1 are acknowledged; nothing is taken back afterwards *)
Definition bk_events : list (list event) := firstn 7 dg_events.
Definition bk_packets : list packet := firstn 4 dg_packets.
Definition bk_file (w : world) : option (list Z) := match y_fs (w_sys w) with Some [e] => Some (d_data e) | _ => None end.
Lemma map_split : forall (A B : Type) (F : A -> B) l l1 k l2, map F l = l1 ++ k :: l2 -> exists a z b, l = a ++ z :: b /\ F z = k /\ map F b = l2.
Proof.
  induction l as [|x l IH]; intros l1 k l2 E. { destruct l1; discriminate. } destruct l1 as [|y l1]; cbn [map app] in E.
  - injection E as E1 E2. exists [], x, l. auto.
  - injection E as E1 E2. destruct (IH _ _ _ E2) as (a & z & b & -> & X & Y). exists (x :: a), z, b. auto.
Qed.
Definition bk_show (x : item) : list Z := match x with ICtl j bs _ _ => [raw_id bs; fst (status_of bs); snd (status_of bs); Z.of_nat j] | _ => [] end.
Lemma show_ack : forall x n, bk_show x = [185; n; 1; 1] -> acknowledges n 1 x.
Proof. intros x n H. destruct x as [|j bs m d ds|j bs m ds|t cb| |]; try discriminate H. cbn [bk_show] in H. destruct (status_of bs) as [p q] eqn:S. cbn [fst snd] in H. injection H as H1 -> -> H4. assert (j = 1%nat) by lia. subst j. exists bs, m, ds. auto. Qed.
Lemma show_stop : forall x, stops Blocks 1 x -> nth 1 (bk_show x) 0 = 2147483645.
Proof. intros x (bs & m & ds & t & -> & _ & H & _). exact H. Qed.
Definition bk_before : list (list Z) := [[]; []; []; [185; 2147483646; 1; 1]; []; []; [185; 2147483645; 1; 1]; []; [185; 2147483646; 1; 1]; []; []].
Definition bk_after : list (list Z) := [[]; []; []] ++ [[185; 1; 1; 1]].
Example C102_nonvacuous : exists its w a z b, wf_table (v_tbl (rx_env [])) /\ runs 9 (rx_env []) dg_conf its w /\ talks w (length (confs dg_conf)) Blocks /\ knows (rx_env []) Blocks /\ fitting_trace its /\
  its = a ++ z :: b /\ acknowledges 0 (length (confs dg_conf)) z /\ (forall s, In s b -> ~ stops Blocks (length (confs dg_conf)) s) /\ (exists x, In x b /\ acknowledges 1 (length (confs dg_conf)) x) /\
  bk_file w = Some (repeat 0 200 ++ repeat 1 200).
Proof.
  destruct (view_runs _ (fun w its => (map bk_show its, dg_received its, dg_proto w, bk_file w))
    (bk_before ++ [185; 0; 1; 1] :: bk_after, map encode bk_packets, Some Blocks, Some (repeat 0 200 ++ repeat 1 200))
    9 (rx_env []) (Some []) dg_conf bk_events) as (w & its & R & X). { vm_compute. reflexivity. }
  injection X as X1 X2 X3 X4. destruct (map_split _ _ bk_show its bk_before [185; 0; 1; 1] bk_after X1) as (a & z & b & E & SZ & SB). exists its, w, a, z, b.
  split; [apply rx_tbl_wf|]. split; [exact R|]. split; [|split; [|split; [|split; [exact E|split; [|split; [|split; [|exact X4]]]]]]].
  - unfold dg_proto in X3. unfold talks. change (length (confs dg_conf)) with 1%nat. destruct (lookup w 1) as [e|] eqn:L; [|discriminate X3]. exists e. split; [reflexivity|].
    destruct (ep_kind e) as [| | |[g q|q]]; try discriminate X3. injection X3 as X3. exact X3.
  - cbn [knows]. exists (mkEntry 159 206 (Some 4%nat) (Some 5%nat)). split; reflexivity.
  - intros j p m d ds I W. assert (J : In (encode p) (dg_received its)). { unfold dg_received. apply in_flat_map. eexists. split; [exact I|]. left; reflexivity. }
    change (dg_received its = map encode bk_packets) in X2. rewrite X2 in J. apply in_map_iff in J. destruct J as (q & EQ & J).
    assert (WQ : wf_packet q). { cbn [bk_packets dg_packets firstn In] in J. repeat (destruct J as [<-|J]; [wfb|]). destruct J. }
    apply encode_inj in EQ; auto. subst q. clear - J. cbn [bk_packets dg_packets firstn In] in J. intros ID. repeat (destruct J as [<-|J]; [split; [vm_compute; reflexivity|discriminate]|]). destruct J.
  - apply show_ack. exact SZ.
  - intros s I S. apply show_stop in S. apply (in_map bk_show) in I. rewrite SB in I. cbn [In app bk_after] in I. repeat (destruct I as [I|I]; [rewrite <- I in S; discriminate S|]). destruct I.
  - destruct (map_split _ _ bk_show b [[]; []; []] [185; 1; 1; 1] [] SB) as (b1 & x & b2 & -> & SX & _). exists x. split; [apply in_or_app; right; left; reflexivity|]. apply show_ack. exact SX.
Qed.

Print Assumptions C102_acknowledged_is_stored.
Print Assumptions C102_acknowledged_data.
Print Assumptions C102_closed_takes_back.
Print Assumptions C102_nonvacuous.
