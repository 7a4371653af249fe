(* Concrete packets used to show that the hypotheses of the theorems are met. *)
From Verif Require Import Base Mav SpecCrc SpecFrame Frame FrameProofs FrameRefine FrameLink.

(* Three real message types: HEARTBEAT (0), COMMAND_LONG (76), PING (4). *)
Definition ex_tbl : table := fun id =>
  if id =? 0 then Some (mkEntry 50 9 None None)
  else if id =? 76 then Some (mkEntry 152 33 (Some 30%nat) (Some 31%nat))
  else if id =? 4 then Some (mkEntry 237 14 (Some 12%nat) (Some 13%nat))
  else None.

Lemma ex_tbl_wf : wf_table ex_tbl.
Proof.
  intros id e H. unfold ex_tbl in H.
  repeat (destruct (id =? _); [injection H; intros; subst; unfold is_byte; cbn; lia|]).
  discriminate.
Qed.

(* Fill in the correct checksum. *)
Definition seal (extra : Z) (p : packet) : packet :=
  let c := crc_spec (body p ++ [extra]) in
  mkPacket (p_ver p) (p_seq p) (p_sys p) (p_comp p) (p_id p) (p_payload p) (c mod 256) (c / 256).

Definition ex_hb (sq : Z) : packet :=
  seal 50 (mkPacket (V2 0 0 []) sq 1 1 0 [0;0;0;0;2;3;81;4;3] 0 0).
Definition ex_hb1 (sq : Z) : packet :=
  seal 50 (mkPacket V1 sq 7 1 0 [0;0;0;0;2;3;81;4;3] 0 0).
(* a command to system 1, component trimmed away (0) *)
Definition ex_cmd (sq : Z) : packet :=
  seal 152 (mkPacket (V2 0 0 []) sq 255 190 76 (repeat 7 30 ++ [1]) 0 0).
Definition ex_signed (sq : Z) : packet :=
  seal 50 (mkPacket (V2 1 0 (repeat 9 13)) sq 1 1 0 [0;0;0;0;2;3;81;4;3] 0 0).
Definition ex_unknown (sq : Z) : packet :=
  mkPacket (V2 0 0 []) sq 1 1 9999 [253; 254] 1 2.
Definition ex_bad (sq : Z) : packet :=
  mkPacket (V2 0 0 []) sq 1 1 0 [1;2;3] 0 0.

Ltac wfp := unfold wf_packet; vm_compute; repeat split; try (discriminate || reflexivity);
  repeat (constructor; try (split; [discriminate|reflexivity])).

Lemma ex_hb_wf : wf_packet (ex_hb 0).      Proof. wfp. Qed.
Lemma ex_hb_wf1 : wf_packet (ex_hb 1).     Proof. wfp. Qed.
Lemma ex_hb_wf4 : wf_packet (ex_hb 4).     Proof. wfp. Qed.
Lemma ex_hb1_wf : wf_packet (ex_hb1 5).    Proof. wfp. Qed.
Lemma ex_cmd_wf : wf_packet (ex_cmd 2).    Proof. wfp. Qed.
Lemma ex_signed_wf : wf_packet (ex_signed 3). Proof. wfp. Qed.
Lemma ex_unknown_wf : wf_packet (ex_unknown 4). Proof. wfp. Qed.
Lemma ex_bad_wf : wf_packet (ex_bad 0).    Proof. wfp. Qed.

Lemma ex_hb_ok : acceptable ex_tbl (ex_hb 0). Proof. vm_compute. reflexivity. Qed.
Lemma ex_bad_ko : ~ acceptable ex_tbl (ex_bad 0). Proof. vm_compute. discriminate. Qed.

Definition ex_junk : list Z := repeat 170 RXMAX.
Lemma ex_junk_len : length ex_junk = RXMAX. Proof. apply repeat_length. Qed.

Definition bytesb (l : list Z) : bool := forallb (fun b => (0 <=? b) && (b <? 256)) l.
Lemma bytesb_ok : forall l, bytesb l = true -> bytes l.
Proof.
  intros l H. unfold bytesb in H. rewrite forallb_forall in H. apply Forall_forall. intros x Hx.
  specialize (H x Hx). apply andb_true_iff in H. unfold is_byte. lia.
Qed.
Lemma bytesb_all : forall l, forallb bytesb l = true -> Forall bytes l.
Proof.
  intros l H. rewrite forallb_forall in H. apply Forall_forall. intros x Hx. apply bytesb_ok. auto.
Qed.

Definition byteb (b : Z) : bool := (0 <=? b) && (b <? 256).
Definition wf_packetb (p : packet) : bool :=
  byteb (p_seq p) && byteb (p_sys p) && byteb (p_comp p) && byteb (p_crc0 p) && byteb (p_crc1 p) &&
  bytesb (p_payload p) && (length (p_payload p) <? 256)%nat &&
  match p_ver p with
  | V1 => byteb (p_id p)
  | V2 fl cf sg => (0 <=? p_id p) && (p_id p <? 16777216) && byteb fl && byteb cf && bytesb sg &&
                   Nat.eqb (length sg) (if Z.odd fl then 13 else 0)
  end.
Lemma byteb_ok : forall b, byteb b = true -> is_byte b.
Proof. intros b H. unfold byteb in H. unfold is_byte. lia. Qed.
Lemma wf_packetb_ok : forall p, wf_packetb p = true -> wf_packet p.
Proof.
  intros p H. unfold wf_packetb in H. do 7 (apply andb_prop in H; destruct H as [H ?]).
  unfold wf_packet. split; [apply byteb_ok; auto|]. split; [apply byteb_ok; auto|]. split; [apply byteb_ok; auto|].
  split; [apply byteb_ok; auto|]. split; [apply byteb_ok; auto|]. split; [apply bytesb_ok; auto|]. split; [apply Nat.ltb_lt; auto|].
  destruct (p_ver p).
  - apply byteb_ok; auto.
  - do 5 match goal with X : _ && _ = true |- _ => apply andb_prop in X; destruct X end.
    split; [lia|]. split; [apply byteb_ok; auto|]. split; [apply byteb_ok; auto|]. split; [apply bytesb_ok; auto|].
    apply Nat.eqb_eq; auto.
Qed.
Ltac wfb := apply wf_packetb_ok; vm_compute; reflexivity.
