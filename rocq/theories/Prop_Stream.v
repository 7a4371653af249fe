(* C96, C97: the packets the peers of the endpoints receive. *)
From Coq Require Import Permutation.
From Verif Require Import Base Mav SpecCrc SpecFrame Frame FrameProofs FrameRefine FrameLink Dedup SpecAccept Accept AcceptProofs Names Sys LogFile LogFileProofs ULog ULogProofs Loggers SpecOwn Pack RouterCtl Router
  RouterRoute RouterRoute2 RouterSetup RouterActs RouterInv RouterLearn RouterStep RouterStart RouterHist SpecRouter RouterTrace SpecLife RouterBytes RouterOwn RouterTarget SpecStream Prop_Router ExFrame ExRouter.

(* ---- C97 ------------------------------------------------------------------------------------------------------------- *)

(* every message the program makes itself is a well formed MAVLink 2 packet with a correct checksum, from 2/0 and to the
   system its logger monitors, and is handed to the endpoints as it is *)
Theorem C97_own_messages : forall f v c its w i bs m ds, wf_table (v_tbl v) -> runs f v c its w -> In (ICtl i bs m ds) its ->
  (exists p, bs = encode p /\ own_packet p (u8 (m_tsys m)) /\ m_id m = p_id p /\ m_ssys m = p_sys p /\ m_scomp m = p_comp p) /\
  Forall (fun d => dl_bytes d = bs) ds.
Proof.
  intros f v c its w i bs m ds WT R X. pose proof (own_runs f v c its w WT R) as O. rewrite Forall_forall in O. destruct (O _ X) as [C B]. split; auto.
  destruct C as (C1 & C2 & C3 & C4 & p & E & I & W). cbn [fst snd] in *. exists p. split; [auto|]. split; [auto|]. split; [auto|].
  destruct W as (_ & _ & S & K & _). split; congruence.
Qed.

(* and that system is the configured one or, without one, one whose autopilot was heard before; none is written as 255 *)
Theorem C97_target : forall f v c its w pre i bs m ds post, wf_table (v_tbl v) -> runs f v c its w -> its = pre ++ ICtl i bs m ds :: post ->
  target_from c pre (m_tsys m).
Proof. intros f v c its w pre i bs m ds post WT R E. eapply targets_runs; eauto. Qed.

(* the start request to a vehicle heard on the serial port, sent there *)
Definition own_conf : config := mkCf [mkEc (CUart [57600; 115200] false) true no_filters []] [] [] 5760 (Some (mkLc DArdupilot 0 0 MAlways (-1) true)) 0 false 0.
Example own_nonvacuous : exists w its, runs 9 (rx_env []) own_conf its w /\ wf_table (v_tbl (rx_env [])) /\
  flat_map (fun x => match x with ICtl i bs m ds => [(i, bs, m_tsys m, map dl_to ds)] | _ => [] end) its =
    [(1%nat, [253; 7; 0; 0; 0; 2; 0; 185; 0; 0; 254; 255; 255; 127; 7; 0; 1; 69; 143], 7, [0%nat])].
Proof.
  destruct (view_runs _ (fun w its => flat_map (fun x => match x with ICtl i bs m ds => [(i, bs, m_tsys m, map dl_to ds)] | _ => [] end) its)
    [(1%nat, [253; 7; 0; 0; 0; 2; 0; 185; 0; 0; 254; 255; 255; 127; 7; 0; 1; 69; 143], 7, [0%nat])]
    9 (rx_env []) (Some []) own_conf [[rx_from 0 (0, 0) (rx_hb 7 1 0)]; [ETimer 2 true false]]) as (w & its & R & X). { vm_compute. reflexivity. }
  exists w, its. split; auto. split; [apply rx_tbl_wf|exact X].
Qed.

(* ---- C96 ------------------------------------------------------------------------------------------------------------- *)

Definition sound (tbl : table) (p : packet) : Prop := wf_packet p /\ (acceptable tbl p \/ exists t, own_packet p t).

Lemma handed_sound : forall f v c its w d k, wf_table (v_tbl v) -> runs f v c its w -> In d (sends its k) ->
  (k <= length (confs c))%nat \/ ~ ulog_configured c -> exists p, sound (v_tbl v) p /\ dl_bytes d = encode p.
Proof.
  intros f v c its w d k WT R D Q. unfold sends, tok in D. apply filter_In in D. destruct D as [D T]. apply Nat.eqb_eq in T. subst k.
  apply in_flat_map in D. destruct D as (x & X & D). destruct x as [|i bs m vd ds|i bs m ds| | |]; try destruct D; cbn [made] in D.
  - destruct (C18_received_is_packet f v c its w i bs m vd ds WT R X) as (p & P1 & P2 & P3 & _). destruct vd; try (destruct (C16_incoming f v c its w i bs m _ ds WT R X) as [Z _]; rewrite Z in D by discriminate; destruct D).
    exists p. split; [split; auto|]. rewrite <- P3. apply (C18_bytes_partial f v c its w i bs m ds d); auto.
  - destruct (C97_own_messages f v c its w i bs m ds WT R X) as [(p & -> & P2 & _) F]. rewrite Forall_forall in F. exists p. split; [|apply F; auto].
    split; [apply P2|eauto].
Qed.

Lemma packets_of : forall tbl l, Forall (fun d => exists p, sound tbl p /\ dl_bytes d = encode p) l -> Forall whole l ->
  exists ps, Forall (sound tbl) ps /\ stream l = concat (map encode ps) /\ map encode ps = map dl_bytes (filter took l).
Proof.
  intros tbl. induction l as [|d l IH]; intros H W. { exists []. repeat split; constructor. }
  inversion H as [|? ? (p & S & E) H']; subst. inversion W as [|? ? Wd Wl]; subst. destruct (IH H' Wl) as (ps & P1 & P2 & P3). cbn [stream flat_map filter].
  fold (stream l). destruct Wd as [Z|Z].
  - exists ps. unfold took at 1. rewrite Z. cbn [app]. auto.
  - exists (p :: ps). rewrite P2, Z, E. cbn [map concat]. split; [constructor; auto|]. split; auto. unfold took at 1. rewrite Z.
    destruct (dl_bytes d) eqn:EE. { exfalso. unfold encode in E. destruct (p_ver p); discriminate. } cbn [map]. rewrite P3, EE, E. reflexivity.
Qed.

Definition served_untouched (c : config) (k : nat) : Prop :=
  (k <= length (confs c))%nat \/ ~ (exists lc, cf_log c = Some lc /\ lc_dialect lc <> DArdupilot).

(* As long as the system takes every message completely or not at all, the peer receives exactly the messages taken, and
   each is a packet that was received or that the program made.  [mid]: any stretch of the run, as a connection's life.
   l is any order of the write calls on endpoint k in it. *)
Theorem C96_whole_partial : forall f v c its w pre mid post k l, wf_table (v_tbl v) -> runs f v c its w -> its = pre ++ mid ++ post ->
  served_untouched c k -> Permutation l (sends mid k) -> Forall whole l ->
  exists ps, segments (stream l) ps [] /\ stream l = concat (map encode ps) /\ map encode ps = map dl_bytes (filter took l) /\
    Forall (fun p => acceptable (v_tbl v) p \/ exists t, own_packet p t) ps.
Proof.
  intros f v c its w pre mid post k l WT R E Q P W. destruct (packets_of (v_tbl v) l) as (ps & P1 & P2 & P3); auto.
  - apply Forall_forall. intros d D. apply (handed_sound f v c its w d k WT R); auto. apply (Permutation_in _ P) in D. rewrite E. unfold sends, tok in *.
    rewrite !flat_map_app, !filter_app. apply in_or_app. right. apply in_or_app. auto.
  - exists ps. rewrite P2. split; [apply segments_concat; eapply Forall_impl; [|exact P1]; intros p [? _]; auto|]. repeat split; auto. eapply Forall_impl; [|exact P1]. intros p [_ X]; auto.
Qed.

(* Up to the first message taken in part, nothing is lost: however the peer cuts the stream into packets, it begins with
   the messages taken before. *)
Theorem C96_until_partial : forall f v c its w pre mid post k l l' ps r, wf_table (v_tbl v) -> runs f v c its w -> its = pre ++ mid ++ post ->
  served_untouched c k -> Permutation (l ++ l') (sends mid k) -> Forall whole l ->
  segments (stream (l ++ l')) ps r -> exists qs rest, ps = qs ++ rest /\ map encode qs = map dl_bytes (filter took l).
Proof.
  intros f v c its w pre mid post k l l' ps r WT R E Q P W S.
  assert (H : Forall (fun d => exists p, sound (v_tbl v) p /\ dl_bytes d = encode p) (l ++ l')).
  { apply Forall_forall. intros d D. apply (handed_sound f v c its w d k WT R); auto. apply (Permutation_in _ P) in D. rewrite E. unfold sends, tok in *.
    rewrite !flat_map_app, !filter_app. apply in_or_app. right. apply in_or_app. auto. }
  apply Forall_app in H. destruct H as [H H']. destruct (packets_of (v_tbl v) l H W) as (qs & P1 & P2 & P3).
  assert (B : bytes (stream l')).
  { clear - H'. induction H' as [|d l (p & [S _] & E) _ IH]; [constructor|]. cbn [stream flat_map]. apply bytes_app. split; auto. unfold put_out. destruct (dl_call d); try constructor.
    apply bytes_firstn. rewrite E. apply encode_bytes; auto. }
  destruct (segments_exist _ B) as (rest & r' & S'). exists qs, rest. split; auto.
  assert (T : segments (stream (l ++ l')) (qs ++ rest) r').
  { unfold stream. rewrite flat_map_app. fold (stream l). fold (stream l'). rewrite P2. clear - P1 S'. induction P1 as [|p qs [Sp _] _ IH]; auto. cbn [map concat app]. rewrite <- app_assoc. constructor; auto. }
  destruct (segments_unique _ _ _ S _ _ T). auto.
Qed.

(* A message taken in part costs the next one: a TCP peer of a router that hands on two heartbeats, the first of which the
   system takes only the first five bytes of, finds one packet in what it receives, and it is neither of the two. *)
Definition short_conf : config := mkCf [] [mkEc (CUdp true 8 14551) true no_filters []] [mkEc (CTcp 5 5760) true no_filters []] 0 None 0 false 0.
Definition short_events : list (list event) := [[rx_from 0 (9, 9) (rx_hb 1 1 0)]; [rx_from 0 (9, 9) (rx_hb 1 1 1)]].
Definition short_env : env := rx_env [(2245%nat, 5)].
(* what the peer finds: a packet made of the five bytes and the first sixteen of the second heartbeat *)
Definition torn : packet := mkPacket (V2 0 0 []) 0 253 9 65536 [1; 1; 0; 0; 0; 0; 0; 0; 0] 2 3.

Theorem C96_short_refuted : exists f v c its w k, wf_table (v_tbl v) /\ runs f v c its w /\ served_untouched c k /\
  map dl_bytes (sends its k) = [encode (rx_hb 1 1 0); encode (rx_hb 1 1 1)] /\ Forall (fun d => accepted d = true) (sends its k) /\
  segments (stream (sends its k)) [torn] [] /\ encode torn <> encode (rx_hb 1 1 0) /\ encode torn <> encode (rx_hb 1 1 1).
Proof.
  destruct (view_runs _ (fun w its => sends its 1) [mkDel 1 (encode (rx_hb 1 1 0)) (DSent None 5) None; mkDel 1 (encode (rx_hb 1 1 1)) (DSent None 21) None]
    9 short_env (Some []) short_conf short_events) as (w & its & R & X). { vm_compute. reflexivity. }
  exists 9%nat, short_env, short_conf, its, w, 1%nat. split; [apply rx_tbl_wf|]. split; auto. split; [left; vm_compute; lia|]. rewrite X. split; [reflexivity|].
  split; [repeat constructor|]. split; [|split; intros E; apply (f_equal (fun l => nth 5 l 0)) in E; vm_compute in E; discriminate].
  match goal with |- segments ?s _ _ => let t := eval vm_compute in s in change s with t; let u := eval vm_compute in (skipn 21 t) in change t with (encode torn ++ u) end.
  apply seg_packet; [repeat split; try (unfold is_byte; cbn; lia); repeat constructor; unfold is_byte; cbn; lia|].
  repeat (apply seg_skip; [intros [Y|Y]; discriminate Y|]). constructor.
Qed.

(* the same two heartbeats, both taken, and the first refused *)
Example whole_nonvacuous : exists w its, runs 9 (rx_env []) short_conf its w /\ served_untouched short_conf 1 /\ Forall whole (sends its 1) /\
  stream (sends its 1) = encode (rx_hb 1 1 0) ++ encode (rx_hb 1 1 1).
Proof.
  destruct (view_runs _ (fun w its => sends its 1) [mkDel 1 (encode (rx_hb 1 1 0)) (DSent None 21) None; mkDel 1 (encode (rx_hb 1 1 1)) (DSent None 21) None]
    9 (rx_env []) (Some []) short_conf short_events) as (w & its & R & X). { vm_compute. reflexivity. }
  exists w, its. split; auto. split; [left; vm_compute; lia|]. rewrite X. split; [|vm_compute; reflexivity]. repeat constructor; right; vm_compute; reflexivity.
Qed.
Example again_nonvacuous : exists w its, runs 9 (rx_env [(2245%nat, - EAGAIN)]) short_conf its w /\ Forall whole (sends its 1) /\
  length (sends its 1) = 2%nat /\ stream (sends its 1) = encode (rx_hb 1 1 1).
Proof.
  destruct (view_runs _ (fun w its => sends its 1) [mkDel 1 (encode (rx_hb 1 1 0)) (DSent None (- EAGAIN)) (Some 65536); mkDel 1 (encode (rx_hb 1 1 1)) (DSent None 21) None]
    9 (rx_env [(2245%nat, - EAGAIN)]) (Some []) short_conf short_events) as (w & its & R & X). { vm_compute. reflexivity. }
  exists w, its. split; auto. rewrite X. split; [|split; [reflexivity|vm_compute; reflexivity]]. constructor; [left; vm_compute; reflexivity|]. constructor; [right; vm_compute; reflexivity|constructor].
Qed.

Print Assumptions C97_own_messages.
Print Assumptions C97_target.
Print Assumptions C96_whole_partial.
Print Assumptions C96_until_partial.
Print Assumptions C96_short_refuted.
