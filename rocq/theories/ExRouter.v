(* Runs of the router on concrete configurations and events, for the examples beside the theorems. *)
From Verif Require Import Base Mav SpecCrc SpecFrame Frame FrameProofs FrameLink Dedup Accept Names Sys LogFile ULog Loggers ExFrame Router RouterSetup.

Definition byteb (b : Z) : bool := (0 <=? b) && (b <? 256).
Definition wf_readb (o : osread) : bool :=
  match o with OsData bs _ => forallb byteb bs | OsAgain => true | OsErr n => 0 <? n end.
Definition wf_eventb (w : world) (ev : event) : bool :=
  registered w ev && match ev with EEp _ (Some o) _ _ => wf_readb o | _ => true end.

Lemma wf_readb_ok : forall o, wf_readb o = true -> wf_read o.
Proof.
  intros [bs a| |n] H; cbn in *; auto; [|lia]. apply Forall_forall. intros b B. rewrite forallb_forall in H. apply H in B. unfold byteb in B. unfold is_byte. lia.
Qed.
Lemma wf_eventb_ok : forall w ev, wf_eventb w ev = true -> wf_event w ev.
Proof.
  intros w ev H. unfold wf_eventb in H. apply andb_prop in H. destruct H as [A B]. split; auto. destruct ev; auto. destruct rd; auto. apply wf_readb_ok; auto.
Qed.

Fixpoint drive (f : nat) (v : env) (w : world) (its : list item) (batches : list (list event)) : option (world * list item) :=
  match batches with
  | [] => Some (w, its)
  | b :: r =>
    match w_exit w with
    | Some _ => None
    | None =>
      if forallb (wf_eventb w) b
      then match step f v w b with Ok (w', its') => drive f v w' (its ++ its') r | _ => None end
      else None
    end
  end.

Definition session (f : nat) (v : env) (d : fs) (c : config) (batches : list (list event)) : option (world * list item) :=
  match start v (boot d 0) c with Some w => drive f v w [] batches | None => None end.

Lemma drive_exec : forall f v w0 batches w its w' its', exec f v w0 its w -> drive f v w its batches = Some (w', its') -> exec f v w0 its' w'.
Proof.
  intros f v w0. induction batches as [|b r IH]; intros w its w' its' E H; cbn [drive] in H. { inversion H; subst; auto. }
  destruct (w_exit w) eqn:X; [discriminate|]. destruct (forallb (wf_eventb w) b) eqn:W; [|discriminate]. destruct (step f v w b) as [[w1 i1]| |] eqn:S; try discriminate.
  eapply IH; [|exact H]. apply exec_step with (w := w) (evs := b); auto. apply Forall_forall. intros ev EV. rewrite forallb_forall in W. apply wf_eventb_ok. auto.
Qed.
Lemma session_runs : forall f v d c batches w its, session f v d c batches = Some (w, its) -> runs f v c its w.
Proof.
  intros f v d c batches w its H. unfold session in H. destruct (start v (boot d 0) c) as [w0|] eqn:S; [|discriminate].
  exists d, 0%nat, w0. split; auto. eapply drive_exec; [apply exec_start|eauto].
Qed.

Definition after (r : option (world * list item)) (P : world -> list item -> bool) : bool :=
  match r with Some (w, its) => P w its | None => false end.
Lemma after_runs : forall f v d c batches P, after (session f v d c batches) P = true ->
  exists w its, session f v d c batches = Some (w, its) /\ runs f v c its w /\ P w its = true.
Proof. intros. destruct (session f v d c batches) as [[w its]|] eqn:S; [|discriminate]. exists w, its. split; auto. split; auto. eapply session_runs; eauto. Qed.

Definition view {A} (r : option (world * list item)) (F : world -> list item -> A) : option A :=
  match r with Some (w, its) => Some (F w its) | None => None end.
Lemma view_runs : forall A (F : world -> list item -> A) a f v d c batches, view (session f v d c batches) F = Some a ->
  exists w its, runs f v c its w /\ F w its = a.
Proof. intros. unfold view in H. destruct (session f v d c batches) as [[w its]|] eqn:S; [|discriminate]. exists w, its. inversion H. split; auto. eapply session_runs; eauto. Qed.

(* ---- a session --------------------------------------------------------------------------------------------- *)

Definition rx_tbl : table := fun id =>
  if id =? 0 then Some (mkEntry 50 9 None None)                                    (* HEARTBEAT *)
  else if id =? 76 then Some (mkEntry 152 33 (Some 30%nat) (Some 31%nat))         (* COMMAND_LONG *)
  else if id =? 184 then Some (mkEntry 159 206 (Some 4%nat) (Some 5%nat))
  else if id =? 266 then Some (mkEntry 193 255 (Some 2%nat) (Some 3%nat))
  else None.
Lemma rx_tbl_wf : wf_table rx_tbl.
Proof. intros id e. unfold rx_tbl. repeat (destruct (_ =? _); [intros H; inversion H; subst; unfold is_byte; cbn; lia|]). discriminate. Qed.

Definition rx_orc (bad : list (nat * Z)) (k : nat) : Z :=
  match find (fun p => Nat.eqb (fst p) k) bad with Some p => snd p | None => 65536 end.
Definition rx_env (bad : list (nat * Z)) : env := mkEnv rx_tbl (fun bs => fold_left (fun a b => a * 256 + b + 1) bs 0) (rx_orc bad) (fun _ => true).

Definition rx_hb (s c : Z) (seq : Z) : packet := seal 50 (mkPacket (V2 0 0 []) seq s c 0 [0; 0; 0; 0; 2; 3; 81; 4; 3] 0 0).
Definition rx_cmd (s c ts tc : Z) (seq : Z) : packet := seal 152 (mkPacket V1 seq s c 76 (repeat 7 30 ++ [ts; tc; 1]) 0 0).
Definition rx_from (i : nat) (a : addr) (p : packet) : event := EEp i (Some (OsData (encode p) a)) false false.
