(* C104: serial ports pass bytes unchanged, in the configured way. *)
From Verif Require Import Base Tty SpecTty.

Lemma off_bit : forall w m k, 0 <= k -> bit (off w m) k = bit w k && negb (Z.testbit m k).
Proof. intros. unfold bit, off. apply Z.ldiff_spec. Qed.
Lemma on_bit : forall w m k, bit (on w m) k = bit w k || Z.testbit m k.
Proof. intros. unfold bit, on. apply Z.lor_spec. Qed.

(* ---- settings ------------------------------------------------------------------------------------------------------------ *)

(* what does not depend on the speed or the hardware flow control *)
Definition plain (t : tty) : Prop :=
  (forall k, In k [0; 1; 3; 5; 6; 7; 8; 9; 10; 12] -> bit (t_iflag t) k = false) /\ bit (t_oflag t) 0 = false /\
  (forall k, In k [0; 1; 3; 6; 15] -> bit (t_lflag t) k = false).

Lemma raw_plain : forall t, plain (raw (at_1200 (sane t))).
Proof.
  intros t. split; [|split].
  - intros k I. cbn [raw at_1200 sane t_iflag]. cbn [In] in I. repeat (destruct I as [<-|I]; [rewrite !off_bit, on_bit by lia; cbn -[bit]; rewrite ?orb_false_r, ?orb_true_r, ?andb_false_r; reflexivity|]). destruct I.
  - cbn [raw at_1200 sane t_oflag]. rewrite !off_bit, on_bit by lia. cbn -[bit]. rewrite ?andb_false_r. reflexivity.
  - intros k I. cbn [raw at_1200 sane t_lflag]. cbn [In] in I. repeat (destruct I as [<-|I]; [rewrite !off_bit, on_bit by lia; cbn -[bit]; rewrite ?orb_false_r, ?orb_true_r, ?andb_false_r; reflexivity|]). destruct I.
Qed.
Lemma raw_cflag : forall t, t_cflag (raw (at_1200 (sane t))) = 2233. Proof. intros t. reflexivity. Qed.

Lemma plain_transparent : forall t, plain t -> transparent t.
Proof.
  intros t (I & O & L). split.
  - intros c C. split; [|unfold leaves; rewrite O; reflexivity]. unfold arrives. cbv zeta.
    rewrite (I 5), (I 9), (I 10), (I 7), (I 8), (I 6), (I 3), (L 15), (L 0), (L 3), (L 1), (L 6) by (cbn; auto 12). cbn [andb orb app]. rewrite ?andb_false_r. reflexivity.
  - unfold breaks. rewrite (I 0), (I 1), (I 3) by (cbn; auto 12). intros [X|[]]. discriminate X.
Qed.

(* the control flags of a port that has been set up *)
Definition flags (speed flow : Z) : Z := any [CREAD; CLOCAL; CS8; speed; flow].
Definition tuned (t : tty) (speed : Z) (flow : bool) : Prop := t_cflag t = flags speed (if flow then CRTSCTS else 0).
Lemma tuned_format : forall t s flow, s = BOTHER \/ s = B1200 -> tuned t s flow -> plain t -> eight_n_one t /\ hardware_flow t = flow.
Proof.
  intros t s flow S T (I & _). unfold eight_n_one, data_bits, parity, stop_bits, receives, modem_lines, software_flow, hardware_flow. unfold tuned in T. rewrite T.
  rewrite (I 10), (I 12) by (cbn; auto 12). destruct S as [-> | ->]; destruct flow; repeat split; reflexivity.
Qed.
Lemma tuned_speed : forall t flow, tuned t BOTHER flow -> t_ispeed t = t_ospeed t -> runs_at t (t_ospeed t).
Proof. intros t flow T E. unfold runs_at, in_speed, out_speed. unfold tuned in T. rewrite T. destruct flow; split; reflexivity. Qed.
Lemma tuned_slow : forall t flow, tuned t B1200 flow -> runs_at t 1200.
Proof. intros t flow T. unfold runs_at, in_speed, out_speed. unfold tuned in T. rewrite T. destruct flow; split; reflexivity. Qed.

(* ---- the calls ------------------------------------------------------------------------------------------------------------ *)

Definition fits (t : tty) (b : Z) (flow : bool) : Prop := plain t /\ tuned t BOTHER flow /\ t_ispeed t = b /\ t_ospeed t = b.
Definition slow (t : tty) (flow : bool) : Prop := plain t /\ tuned t B1200 flow.

Ltac go H := cbv beta iota zeta delta [negb pt_tty pt_calls] in H.
Lemma open_slow : forall o p p', uart_open o p = (true, p') -> slow (pt_tty p') false.
Proof.
  intros o [t n] p' H. unfold uart_open, reset_uart, call, set in H. go H.
  destruct (0 <=? o n); go H; [|discriminate H]. destruct (0 <=? o (Datatypes.S n)); go H; [|discriminate H]. destruct (0 <=? o (Datatypes.S (Datatypes.S n))); go H; [|discriminate H].
  destruct (0 <=? o (Datatypes.S (Datatypes.S (Datatypes.S n)))); go H; [|discriminate H]. destruct (0 <=? o (Datatypes.S (Datatypes.S (Datatypes.S (Datatypes.S n))))); go H; [|discriminate H].
  assert (X : pt_tty p' = raw (at_1200 (sane t))). { destruct (0 <=? o (Datatypes.S (Datatypes.S (Datatypes.S (Datatypes.S (Datatypes.S n)))))); go H; injection H as _ <-; reflexivity. }
  rewrite X. split; [apply raw_plain|]. unfold tuned. rewrite raw_cflag. reflexivity.
Qed.
Lemma speed_set : forall o p b ok p' flow, set_speed o p b = (ok, p') -> plain (pt_tty p) -> tuned (pt_tty p) BOTHER flow \/ tuned (pt_tty p) B1200 flow ->
  fits (pt_tty p') b flow \/ ok = false /\ pt_tty p' = pt_tty p.
Proof.
  intros o [t n] b ok p' flow H P T. unfold set_speed, call, set in H. go H. destruct (0 <=? o n); go H; [|injection H as <- <-; right; auto].
  destruct (0 <=? o (Datatypes.S n)); go H; [|injection H as <- <-; right; auto]. injection H as _ <-. left. cbn [pt_tty with_speed t_iflag t_oflag t_lflag t_ispeed t_ospeed]. split; [exact P|]. split; [|split; reflexivity].
  unfold tuned in *. cbn [with_speed t_cflag pt_tty] in *. destruct T as [-> | ->]; destruct flow; reflexivity.
Qed.
Lemma flow_set : forall o p p', set_flow_control o p true = (true, p') -> (forall b, fits (pt_tty p) b false -> fits (pt_tty p') b true) /\ (slow (pt_tty p) false -> slow (pt_tty p') true).
Proof.
  intros o [t n] p' H. unfold set_flow_control, call, set in H. go H. destruct (0 <=? o n); go H; [|discriminate H]. injection H as H <-. rewrite H. cbn [pt_tty].
  split; [intros b (P & T & S1 & S2)|intros (P & T)]; (split; [exact P|]); unfold tuned in *; cbn [with_flow t_cflag t_ispeed t_ospeed pt_tty] in *; rewrite T; [split; [reflexivity|auto]|reflexivity].
Qed.
Lemma setup_state : forall o p bauds flow p', uart_setup o p bauds flow = (true, p') -> fits (pt_tty p') (hd 0 bauds) flow \/ (length bauds <> 1)%nat /\ slow (pt_tty p') flow.
Proof.
  intros o p bauds flow p' H. unfold uart_setup in H. destruct (uart_open o p) as [ok1 p1] eqn:E1. destruct ok1; go H; [|discriminate]. apply open_slow in E1. destruct E1 as [P1 T1].
  destruct (set_speed o p1 (hd 0 bauds)) as [ok2 p2] eqn:E2. destruct (speed_set _ _ _ _ _ false E2 P1 (or_intror T1)) as [F|[-> S]].
  - destruct ((length bauds =? 1)%nat && (if ok2 then false else true)); [discriminate H|]. left. destruct flow; [apply (flow_set _ _ _ H); auto|injection H as <-; auto].
  - destruct (Nat.eqb_spec (length bauds) 1) as [L|L]; cbv beta iota delta [negb andb] in H; [discriminate H|]. right. split; auto. rewrite <- S in P1, T1. destruct flow; [apply (flow_set _ _ _ H); split; auto|injection H as <-; split; auto].
Qed.

(* ---- theorems -------------------------------------------------------------------------------------------------------------- *)

(* Whatever the port was set to before and whichever calls fail: a port that has been set up passes every byte unchanged, with 8 data bits, no
   parity and one stop bit, and uses hardware flow control exactly if that was asked for. *)
Theorem C104_transparent : forall o p bauds flow p', uart_setup o p bauds flow = (true, p') ->
  transparent (pt_tty p') /\ eight_n_one (pt_tty p') /\ hardware_flow (pt_tty p') = flow.
Proof.
  intros o p bauds flow p' H. destruct (setup_state _ _ _ _ _ H) as [(P & T & _)|(_ & P & T)]; (split; [apply plain_transparent; auto|]); [apply (tuned_format _ BOTHER)|apply (tuned_format _ B1200)]; auto.
Qed.

(* It runs at the configured baud rate, in both directions, if there is just one. *)
Theorem C104_speed_partial : forall o p b flow p', uart_setup o p [b] flow = (true, p') -> runs_at (pt_tty p') b.
Proof.
  intros o p b flow p' H. destruct (setup_state _ _ _ _ _ H) as [(_ & T & S1 & S2)|(X & _)]; [|destruct X; reflexivity]. cbn [hd] in *. rewrite <- S2. eapply tuned_speed; eauto. congruence.
Qed.
(* With several it runs at the first one if no call fails; *)
Theorem C104_first_speed_partial : forall o p b bauds flow p', uart_setup o p (b :: bauds) flow = (true, p') -> (forall k, 0 <= o k) -> runs_at (pt_tty p') b.
Proof.
  intros o p b bauds flow p' H O. assert (A : forall k, 0 <=? o k = true) by (intros; apply Z.leb_le; auto).
  unfold uart_setup in H. destruct (uart_open o p) as [ok1 p1] eqn:E1. destruct ok1; cbv beta iota delta [negb] in H; [|discriminate H]. apply open_slow in E1. destruct E1 as [P1 T1].
  destruct (set_speed o p1 (hd 0 (b :: bauds))) as [ok2 p2] eqn:E2. assert (OK : ok2 = true). { unfold set_speed, call, set in E2. cbn [pt_tty pt_calls] in E2. rewrite !A in E2. cbv beta iota delta [negb pt_calls] in E2. rewrite ?A in E2. injection E2 as <- _. reflexivity. }
  destruct (speed_set _ _ _ _ _ false E2 P1 (or_intror T1)) as [F|[X _]]; [|congruence]. subst ok2. rewrite andb_false_r in H.
  assert (F' : fits (pt_tty p') b flow). { destruct flow; [apply (flow_set _ _ _ H); auto|injection H as <-; auto]. } destruct F' as (_ & T & S1 & S2). rewrite <- S2. eapply tuned_speed; eauto. congruence.
Qed.
(* if the device refuses that one, the set-up succeeds all the same and the port runs at 1200 baud. *)
Theorem C104_speed_refuted : exists o p b bauds p', uart_setup o p (b :: bauds) false = (true, p') /\ ~ runs_at (pt_tty p') b /\ runs_at (pt_tty p') 1200.
Proof.
  exists (fun k => if Nat.eqb k 9 then -1 else 0), (mkPort (mkTty 0 0 0 0 [] 0 0) 0), 57600, [115200]. eexists. split; [vm_compute; reflexivity|]. split; [|split; reflexivity]. intros [X _]. vm_compute in X. discriminate X.
Qed.

(* Trying the next baud rate changes the speed and nothing else; if a call fails, not even that. *)
Definition settled (t : tty) (flow : bool) : Prop := transparent t /\ eight_n_one t /\ hardware_flow t = flow.
Inductive cycled (o : nat -> Z) (bauds : list Z) (flow : bool) : port -> nat -> Prop :=
| cy_start : forall p p', uart_setup o p bauds flow = (true, p') -> cycled o bauds flow p' 0
| cy_next : forall p idx idx' p', cycled o bauds flow p idx -> change_baud o p bauds idx = (idx', p') -> cycled o bauds flow p' idx'
(* calls in between that change no settings *)
| cy_other : forall p idx n, cycled o bauds flow p idx -> cycled o bauds flow (mkPort (pt_tty p) (pt_calls p + n)) idx.

Lemma cycled_state : forall o bauds flow p idx, bauds <> [] -> cycled o bauds flow p idx -> (exists b, In b bauds /\ fits (pt_tty p) b flow) \/ slow (pt_tty p) flow.
Proof.
  intros o bauds flow p idx NE C. induction C as [p p' H|p idx idx' p' C IH H|p idx n C IH]; auto.
  - destruct (setup_state _ _ _ _ _ H) as [F|[_ F]]; auto. left. exists (hd 0 bauds). split; auto. destruct bauds; [destruct NE; auto|left; auto].
  - unfold change_baud in H. destruct (set_speed o p _) as [ok q] eqn:E. injection H as <- <-.
    assert (PT : plain (pt_tty p) /\ (tuned (pt_tty p) BOTHER flow \/ tuned (pt_tty p) B1200 flow)). { destruct IH as [(b & _ & P & T & _)|(P & T)]; auto. }
    destruct PT as [P T]. destruct (speed_set _ _ _ _ _ flow E P T) as [F|[_ ->]]; auto. left. eexists. split; [|exact F]. apply nth_In. apply Nat.mod_upper_bound. destruct bauds; [destruct NE; auto|discriminate].
Qed.
Theorem C104_cycling : forall o bauds flow p idx, bauds <> [] -> cycled o bauds flow p idx ->
  settled (pt_tty p) flow /\ exists b, runs_at (pt_tty p) b /\ (In b bauds \/ b = 1200).
Proof.
  intros o bauds flow p idx NE C. destruct (cycled_state _ _ _ _ _ NE C) as [(b & I & P & T & S1 & S2)|(P & T)].
  - split; [split; [apply plain_transparent; auto|apply (tuned_format _ BOTHER); auto]|]. exists b. split; auto. rewrite <- S2. eapply tuned_speed; eauto. congruence.
  - split; [split; [apply plain_transparent; auto|apply (tuned_format _ B1200); auto]|]. exists 1200. split; auto. eapply tuned_slow; eauto.
Qed.
Theorem C104_next_speed : forall o bauds flow p idx idx' p', bauds <> [] -> cycled o bauds flow p idx -> change_baud o p bauds idx = (idx', p') ->
  idx' = Nat.modulo (S idx) (length bauds) /\ (runs_at (pt_tty p') (nth idx' bauds 0) \/ pt_tty p' = pt_tty p).
Proof.
  intros o bauds flow p idx idx' p' NE C H. unfold change_baud in H. destruct (set_speed o p _) as [ok q] eqn:E. injection H as <- <-. split; auto.
  destruct (cycled_state _ _ _ _ _ NE C) as [(b & I & P & T & _)|(P & T)];
    (destruct (speed_set _ _ _ _ _ flow E P) as [(_ & T' & S1 & S2)|[_ X]]; [auto|left|right; exact X]); rewrite <- S2; eapply tuned_speed; eauto; congruence.
Qed.

(* ---- example ------------------------------------------------------------------------------------------------------------------ *)

(* a port used as a console before: it edits lines, echoes, translates, uses XON/XOFF, seven bits with parity and two stop bits *)
Definition console : tty := mkTty (any [BRKINT; ICRNL; IXON; IXOFF; ISTRIP; IUCLC]) (any [OPOST; ONLCR]) (any [32; 64; CREAD; PARENB; 13]) (any [ISIG; ICANON; ECHO; ECHOE; IEXTEN]) default_cc 9600 9600.
Example C104_nonvacuous :
  arrives console 13 = [Echo 10; Edit 10] /\ arrives console 3 = [Signal] /\ arrives console 200 = [Echo 104; Edit 104] /\ arrives console 19 = [Flow] /\ leaves console 10 = [13; 10] /\
  breaks console = [Signal] /\ data_bits console = 7 /\ stop_bits console = 2 /\
  exists p', uart_setup (fun k => if Nat.eqb k 5 then -1 else 0) (mkPort console 0) [57600; 115200] true = (true, p') /\ runs_at (pt_tty p') 57600 /\
    change_baud (fun _ => 0) p' [57600; 115200] 0 = (1%nat, snd (change_baud (fun _ => 0) p' [57600; 115200] 0)) /\ runs_at (pt_tty (snd (change_baud (fun _ => 0) p' [57600; 115200] 0))) 115200.
Proof. repeat (split; [vm_compute; reflexivity|]). eexists. split; [vm_compute; reflexivity|]. vm_compute. auto. Qed.

Print Assumptions C104_transparent.
Print Assumptions C104_speed_partial.
Print Assumptions C104_first_speed_partial.
Print Assumptions C104_speed_refuted.
Print Assumptions C104_cycling.
Print Assumptions C104_next_speed.
Print Assumptions C104_nonvacuous.
