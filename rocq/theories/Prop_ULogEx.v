(* Properties C53-C58: concrete sessions and counterexamples. *)
From Verif Require Import Base Mav SpecCrc SpecFrame Frame FrameProofs Names NamesProofs Sys LogFile LogFileProofs ULog Loggers LogInv LogStep
  SpecLog SpecULog LogRun LogModes LogModes2 BinProofs ULogProofs ULogStream ULogRun ULogMore CrcProofs ExFrame Prop_LogModes Prop_BinLog Prop_ULog.

(* ---- concrete sessions ------------------------------------------------------------------------------------------------ *)

Definition ux_tbl : table := fun id =>
  if id =? 0 then Some (mkEntry 50 9 None None)
  else if id =? 266 then Some (mkEntry 193 255 (Some 2%nat) (Some 3%nat))
  else if id =? 267 then Some (mkEntry 35 255 (Some 2%nat) (Some 3%nat))
  else None.
Definition ux_env : env := mkEnv ux_tbl (fun _ => 0) (fun _ => 65536) (fun _ => true).
(* a packet with log data, its trailing zeros removed *)
Definition ux_data (seq off : Z) (data : list Z) : packet :=
  seal 193 (mkPacket (V2 0 0 []) 0 1 1 266 (le16 seq ++ [1; 1; Z.of_nat (length data); off] ++ data) 0 0).
Definition ux_acked (seq off : Z) (data : list Z) : packet :=
  seal 35 (mkPacket (V2 0 0 []) 0 1 1 267 (le16 seq ++ [1; 1; Z.of_nat (length data); off] ++ data) 0 0).
Definition ux_hd : list Z := ulog_magic ++ [1; 2; 3; 4; 5; 6; 7; 8; 9].
Definition ux_msg : list Z := [3; 0; 65; 7; 8; 9].
Definition ux_new : backend := BULog (ul_new (repeat 0 3072)).
Definition ux_run (fuel : nat) (evs : list lev) := lrun fuel ux_env lx_sys (lg_new 0 ext_ulg 0 0 MAlways 1) ux_new evs.
Definition ux_at (fuel : nat) (evs : list lev) : sys * lg * ulst :=
  match ux_run fuel evs with Ok (y, g, BULog u, _) => (y, g, u) | _ => (lx_sys, lg_new 0 ext_ulg 0 0 MAlways 1, ul_new []) end.

Lemma ux_dialect : ulog_dialect ux_env.
Proof. intros id [-> | ->]; eexists; split; reflexivity. Qed.

Lemma ux_reached : forall fuel evs, Forall lev_bytes evs -> (match ux_run fuel evs with Ok (_, _, BULog _, _) => true | _ => false end) = true ->
  ulog_reached ux_env (fst (fst (ux_at fuel evs))) (snd (fst (ux_at fuel evs))) (snd (ux_at fuel evs)).
Proof.
  intros fuel evs F R. unfold ux_at. destruct (ux_run fuel evs) as [[[[y g] b] cs]| |] eqn:E; try discriminate. destruct b; try discriminate. cbn [fst snd].
  exists fuel, lx_sys, 0%nat, 0, 0, MAlways, 1, (repeat 0 3072), evs, cs. split. { split; [split; constructor|intros t []]. }
  split; [apply repeat_length|]. split. { apply Forall_forall. intros x X. apply repeat_spec in X. subst. unfold is_byte. lia. }
  split; auto.
Qed.

(* deciding what a file contains *)
Definition contentb (y : sys) (name data : list Z) : bool :=
  match y_fs y with
  | Some l => existsb (fun e => beqs (d_name e) name) l && forallb (fun e => negb (beqs (d_name e) name) || beqs (d_data e) data) l
  | None => false
  end.
Lemma contentb_ok : forall y name data, contentb y name data = true -> content y name data.
Proof.
  intros y name data H. unfold contentb in H. destruct (y_fs y) as [l|] eqn:E; [|discriminate]. apply andb_prop in H. destruct H as [H1 H2].
  exists l. split; auto. apply existsb_exists in H1. destruct H1 as (e & I & B). apply beqs_eq in B. split; [eauto|].
  intros e' I' N. rewrite forallb_forall in H2. specialize (H2 e' I'). apply orb_prop in H2. destruct H2 as [H2|H2]; [|apply beqs_eq; auto].
  apply negb_true_iff in H2. rewrite (proj2 (beqs_eq _ _) N) in H2. discriminate.
Qed.

Definition ux_hb : lev := LMsg (lx_hb 1 81 3) [].
(* header and one message; two messages after a loss, the first one without its beginning; a retransmission; the rest of a message *)
Definition ux_head : lev := LMsg (ux_data 0 16 (ux_hd ++ ux_msg ++ [2; 0; 66])) [].
Definition ux_session : list lev :=
  [LMsg (ux_data 1 255 [1]) []; LMsg (ux_acked 4 2 ([9; 9] ++ ux_msg ++ [1; 0; 67])) []; LMsg (ux_data 2 255 [5; 5]) []; LMsg (ux_data 5 1 [4; 1; 0; 68]) []].

Ltac levs := repeat (apply Forall_cons; [split; [wfb|repeat constructor]|]); apply Forall_nil.

Lemma ux_started : ulog_started (fst (fst (ux_at 9 [ux_hb]))) (snd (fst (ux_at 9 [ux_hb]))) (snd (ux_at 9 [ux_hb])).
Proof.
  split; [vm_compute; reflexivity|]. split; [vm_compute; reflexivity|]. split; [vm_compute; reflexivity|]. split.
  { apply contentb_ok. vm_compute. reflexivity. }
  exists (repeat 0 2048), (repeat 0 1024). split; [vm_compute; reflexivity|]. rewrite !repeat_length. split; auto. split; auto.
  apply Forall_forall. intros x X. apply repeat_spec in X. subst. unfold is_byte. lia.
Qed.

Lemma ux_opens : opens_stream (ux_data 0 16 (ux_hd ++ ux_msg ++ [2; 0; 66])) [] ux_hd (ux_msg ++ [2; 0; 66]).
Proof. split; [vm_compute; reflexivity|]. split; [vm_compute; reflexivity|]. split; [vm_compute; discriminate|]. split; [left; vm_compute; discriminate|]. split; [vm_compute; reflexivity|]. split; reflexivity. Qed.

Lemma ux_ok : Forall (ul_event_ok ux_env) (ux_head :: ux_session).
Proof.
  repeat (apply Forall_cons; [split; [apply Forall_nil|]; split; [split; [wfb|exact I]|]; split; [vm_compute; discriminate|first [left; vm_compute; reflexivity|right; vm_compute; discriminate]]|]).
  apply Forall_nil.
Qed.

Example C58_nonvacuous :
  let r := runs 1 false (ux_msg ++ [2; 0; 66]) (ulogs ux_session) in
  r = [ux_msg ++ [2; 0; 66; 1]; ux_msg ++ [1; 0; 67; 4; 1; 0; 68]] /\ unambiguous 1 (ulogs ux_session) /\
  (forall s, In s r -> exists ms q, ulog_stream s ms q) /\
  match lrun 700 ux_env (fst (fst (ux_at 9 [ux_hb]))) (snd (fst (ux_at 9 [ux_hb]))) (BULog (snd (ux_at 9 [ux_hb]))) (ux_head :: ux_session) with
  | Ok (y, g, BULog u, _) => contentb y (l_name g) (ux_hd ++ ux_msg ++ ux_msg ++ [1; 0; 67; 4]) = true /\ staged u = [1; 0; 68]
  | _ => False end.
Proof.
  split; [vm_compute; reflexivity|]. split; [vm_compute; repeat split; discriminate|]. split.
  - intros s [<-|[<-|[]]].
    + exists [ux_msg], [2; 0; 66; 1]. split; [reflexivity|]. split.
      * repeat constructor. { exists 3, 0, 65, [7; 8; 9]. repeat split; unfold is_byte; lia. } { cbn. lia. }
      * exists [7]. split; [discriminate|]. split. { exists 2, 0, 66, [1; 7]. repeat split; unfold is_byte; lia. } { cbn. lia. }
    + exists [ux_msg; [1; 0; 67; 4]], [1; 0; 68]. split; [reflexivity|]. split.
      * repeat constructor. { exists 3, 0, 65, [7; 8; 9]. repeat split; unfold is_byte; lia. } { cbn. lia. }
        { exists 1, 0, 67, [4]. repeat split; unfold is_byte; lia. } { cbn. lia. }
      * exists [7]. split; [discriminate|]. split. { exists 1, 0, 68, [7]. repeat split; unfold is_byte; lia. } { cbn. lia. }
  - vm_compute. repeat split.
Qed.

(* a session for C53: the second packet completes a message of the first *)
Definition ux_inorder : list lev := [LMsg (ux_data 1 1 ([1] ++ [7] ++ ux_msg)) []; LMsg (ux_acked 2 255 [1; 0]) [9]].

Example C53_nonvacuous :
  in_order 1 (ulogs ux_inorder) /\ Forall (ul_event_ok ux_env) (ux_head :: ux_inorder) /\
  ulog_stream ((ux_msg ++ [2; 0; 66]) ++ concat (map ul_bytes (ulogs ux_inorder))) [ux_msg; [2; 0; 66; 1; 7]; ux_msg] [1; 0] /\
  match lrun 700 ux_env (fst (fst (ux_at 9 [ux_hb]))) (snd (fst (ux_at 9 [ux_hb]))) (BULog (snd (ux_at 9 [ux_hb]))) (ux_head :: ux_inorder) with
  | Ok (y, g, BULog u, _) => contentb y (l_name g) (ux_hd ++ ux_msg ++ [2; 0; 66; 1; 7] ++ ux_msg) = true /\ staged u = [1; 0]
  | _ => False end.
Proof.
  split; [vm_compute; repeat split|]. split.
  { repeat (apply Forall_cons; [split; [repeat constructor; unfold is_byte; lia|]; split; [split; [wfb|exact I]|]; split; [vm_compute; discriminate|first [left; vm_compute; reflexivity|right; vm_compute; discriminate]]|]).
    apply Forall_nil. }
  split.
  - split; [vm_compute; reflexivity|]. split.
    + repeat constructor; cbn; try lia; [exists 3, 0, 65, [7; 8; 9]|exists 2, 0, 66, [1; 7]|exists 3, 0, 65, [7; 8; 9]]; repeat split; unfold is_byte; lia.
    + exists [65; 7]. split; [discriminate|]. split. { exists 1, 0, 65, [7]. repeat split; unfold is_byte; lia. } { cbn. lia. }
  - vm_compute. repeat split.
Qed.

(* the same session up to the second packet, with a disk that takes 1024 bytes, then nothing, ...: the hypotheses of C53_conserved_partial *)
Example C53_conserved_nonvacuous : let s := ux_at 700 [ux_hb; ux_head] in let y := fst (fst s) in let g := snd (fst s) in let u := snd s in
  ulog_reached ux_env y g u /\ u_hdr u = false /\ u_first u = false /\ l_open g = true /\ content y (l_name g) (ux_hd ++ ux_msg) /\ l_off g = 22%nat /\
  staged u = [2; 0; 66] /\ ul_seq (ux_data 1 1 [1; 7]) = u_exp u /\ u_len u + 2 <= 2048 /\
  match levent 700 (mkEnv ux_tbl (fun _ => 0) (fun _ => 0) (fun _ => true)) y g (BULog u) (LMsg (ux_data 1 1 [1; 7]) []) with
  | Ok (y', g', BULog u', _) => contentb y' (l_name g) (ux_hd ++ ux_msg) = true /\ staged u' = [2; 0; 66; 1; 7] | _ => False end.
Proof.
  cbv zeta. split. { apply ux_reached; [levs|vm_compute; reflexivity]. }
  split; [vm_compute; reflexivity|]. split; [vm_compute; reflexivity|]. split; [vm_compute; reflexivity|].
  split. { apply contentb_ok. vm_compute. reflexivity. } split; [vm_compute; reflexivity|]. split; [vm_compute; reflexivity|].
  split; [vm_compute; reflexivity|]. split; [vm_compute; discriminate|]. vm_compute. split; reflexivity.
Qed.

(* C53 fails for messages that do not fit the staging buffer: a message of 2192 bytes arrives in nine packets, in order,
   every write succeeds, and the message is not in the file (nor still buffered). *)
Definition ux_big : list Z := [141; 8; 68] ++ repeat 7 2189.
Fixpoint ux_cut (k : nat) (seq : Z) (d : list Z) : list lev :=
  match k with
  | O => []
  | Datatypes.S k => LMsg (ux_data seq 255 (firstn 249 d)) [] :: ux_cut k (seq + 1) (skipn 249 d)
  end.
Definition ux_big_head : packet := ux_data 0 255 (ux_hd ++ firstn 200 ux_big).
Definition ux_big_rest : list lev := ux_cut 8 1 (skipn 200 ux_big).

Theorem C53_large_refuted : exists v y g u p0 evs hd x m y' g' u' cs data,
  ulog_dialect v /\ ulog_started y g u /\ full_writes v y /\ opens_stream p0 [] hd x /\ Forall (ul_event_ok v) (LMsg p0 [] :: evs) /\
  in_order 1 (ulogs evs) /\ x ++ concat (map ul_bytes (ulogs evs)) = m /\ ulog_message m /\
  lrun 700 v y g (BULog u) (LMsg p0 [] :: evs) = Ok (y', g', BULog u', cs) /\
  content y' (l_name g) data /\ data = hd /\ staged u' = [].
Proof.
  set (s := ux_at 9 [ux_hb]).
  destruct (Ok_witness _ (lrun 700 ux_env (fst (fst s)) (snd (fst s)) (BULog (snd s)) (LMsg ux_big_head [] :: ux_big_rest))
    (fun t => match t with (y, g, BULog u, _) => contentb y (l_name (snd (fst s))) ux_hd && beqs (staged u) [] | _ => false end)) as ([[[y' g'] b'] cs] & R & P); [vm_compute; reflexivity|].
  destruct b' as [|u'|]; [discriminate P| |discriminate P]. apply andb_prop in P. destruct P as [P1 P2].
  exists ux_env, (fst (fst s)), (snd (fst s)), (snd s), ux_big_head, ux_big_rest, ux_hd, (firstn 200 ux_big), ux_big, y', g', u', cs, ux_hd.
  split; [exact ux_dialect|]. split; [exact ux_started|]. split; [intros k _; vm_compute; discriminate|].
  split. { split; [vm_compute; reflexivity|]. split; [vm_compute; reflexivity|]. split; [vm_compute; discriminate|]. split; [left; vm_compute; discriminate|]. split; [vm_compute; reflexivity|]. split; reflexivity. }
  split. { unfold ux_big_rest. cbn [ux_cut]. repeat (apply Forall_cons; [split; [apply Forall_nil|]; split; [split; [wfb|exact I]|]; split; [vm_compute; discriminate|left; vm_compute; reflexivity]|]). apply Forall_nil. }
  split; [vm_compute; repeat split|]. split; [vm_compute; reflexivity|].
  split. { exists 141, 8, 68, (repeat 7 2189). rewrite repeat_length. repeat split; unfold is_byte; lia. }
  split; [exact R|]. split; [apply contentb_ok; exact P1|]. split; [reflexivity|]. apply beqs_eq. exact P2.
Qed.

Example C54_nonvacuous : let s := ux_at 700 [ux_hb; ux_head] in
  ulog_reached ux_env (fst (fst s)) (snd (fst s)) (snd s) /\ l_open (snd (fst s)) = true /\ u_hdr (snd s) = false /\ u_exp (snd s) = 1 /\
  ahead 1 (ul_seq (ux_data 300 255 [1])) = 299 /\ ahead 1 (ul_seq (ux_data 0 255 [1])) = 65535 /\ ul_packet (ux_data 300 255 [1]) /\ ul_packet (ux_data 0 255 [1]).
Proof.
  cbv zeta. split. { apply ux_reached; [levs|vm_compute; reflexivity]. }
  split; [vm_compute; reflexivity|]. split; [vm_compute; reflexivity|]. split; [vm_compute; reflexivity|]. split; [vm_compute; reflexivity|]. split; [vm_compute; reflexivity|].
  split; (split; [wfb|exact I]).
Qed.

(* C54 fails at the border: a packet that is 32767 behind the expected one, more than half the number space ahead, is processed as new. *)
Theorem C54_half_refuted : exists v y g u p u' y' g' cs, ulog_dialect v /\ ulog_reached v y g u /\ l_open g = true /\ u_hdr u = false /\
  is_ulog p = true /\ ul_packet p /\ ahead (u_exp u) (ul_seq p) = 32769 /\
  levent 700 v y g (BULog u) (LMsg p []) = Ok (y', g', BULog u', cs) /\ u_exp u = 40000 /\ u_exp u' = 7234.
Proof.
  set (evs := [ux_hb; ux_head; LMsg (ux_data 20000 255 [1]) []; LMsg (ux_data 39999 255 [1]) []]). set (s := ux_at 700 evs).
  destruct (Ok_witness _ (levent 700 ux_env (fst (fst s)) (snd (fst s)) (BULog (snd s)) (LMsg (ux_data 7233 255 [1]) []))
    (fun t => match t with (y, g, BULog u, _) => u_exp u =? 7234 | _ => false end)) as ([[[y' g'] b'] cs] & R & P); [vm_compute; reflexivity|].
  destruct b' as [|u'|]; [discriminate P| |discriminate P]. exists ux_env, (fst (fst s)), (snd (fst s)), (snd s), (ux_data 7233 255 [1]), u', y', g', cs.
  split; [exact ux_dialect|]. split. { apply ux_reached; [levs|vm_compute; reflexivity]. }
  split; [vm_compute; reflexivity|]. split; [vm_compute; reflexivity|]. split; [reflexivity|]. split. { split; [wfb|exact I]. }
  split; [vm_compute; reflexivity|]. split; [exact R|]. split; [vm_compute; reflexivity|]. apply Z.eqb_eq in P. exact P.
Qed.

Example C55_nonvacuous : let s := ux_at 700 [ux_hb; ux_head] in ulog_reached ux_env (fst (fst s)) (snd (fst s)) (snd s) /\ u_idx (snd s) = 6 /\ u_len (snd s) = 3 /\
  match ul_process 700 ux_env (fst (fst s)) (snd (fst s)) (snd s) ([1; 0; 1; 1; 255; 255] ++ repeat 254 600) 0 with Ok (_, _, u, _, _) => u_len u = 253 | _ => False end.
Proof.
  cbv zeta. split. { apply ux_reached; [levs|vm_compute; reflexivity]. }
  split; [vm_compute; reflexivity|]. split; [vm_compute; reflexivity|]. vm_compute. reflexivity.
Qed.

(* C56 fails: a message header that announces a body of 65533 bytes makes the total size 65536, which is 0 in the 16 bit
   variable that holds it; the logger then writes 0 bytes for ever. *)
Theorem C56_refuted : exists v y g u p, ulog_dialect v /\ ulog_reached v y g u /\ l_open g = true /\ is_ulog p = true /\ ul_packet p /\ ul_consistent p /\
  forall fuel, levent fuel v y g (BULog u) (LMsg p []) = Fuel.
Proof.
  set (evs := [ux_hb; LMsg (ux_data 0 16 (ux_hd ++ ux_msg)) []]). set (s := ux_at 700 evs). set (p := ux_data 1 0 [253; 255; 65]).
  assert (RE : ulog_reached ux_env (fst (fst s)) (snd (fst s)) (snd s)). { apply ux_reached; [levs|vm_compute; reflexivity]. }
  assert (UP : ul_packet p) by (split; [wfb|exact I]). assert (O : l_open (snd (fst s)) = true) by (vm_compute; reflexivity). assert (IU : is_ulog p = true) by reflexivity.
  exists ux_env, (fst (fst s)), (snd (fst s)), (snd s), p. split; [exact ux_dialect|]. split; auto. split; auto. split; auto. split; auto.
  split. { split; [vm_compute; discriminate|]. right. vm_compute. discriminate. }
  intros fuel. destruct (reached_inv _ _ _ _ RE) as (I & _).
  destruct (ul_levent fuel _ _ _ _ p [] ux_dialect RE O UP IU (Forall_nil _)) as (mm & b & y1 & g1 & HO & _ & S & L & E1 & E2 & E3 & E4 & E5 & cs0 & W).
  rewrite W. clear W. pose proof (holds_seq _ _ _ HO) as HS. pose proof HO as (BM & LM & _).
  pose proof (holds_nth mm b p 4 HO ltac:(lia)) as N4. pose proof (holds_nth mm b p 5 HO ltac:(lia)) as N5. fold (ul_size p) in N4. fold (ul_offset p) in N5.
  assert (SZ : ul_size p = 3) by (vm_compute; reflexivity). assert (OF : ul_offset p = 0) by (vm_compute; reflexivity). assert (SQ : ul_seq p = 1) by (vm_compute; reflexivity).
  assert (SX : u_exp (snd s) = 1 /\ u_hdr (snd s) = false /\ u_first (snd s) = false /\ u_len (snd s) = 0 /\ u_plen (snd s) = 0) by (vm_compute; auto).
  assert (UB3 : ul_bytes p = [253; 255; 65]) by (vm_compute; reflexivity).
  pose proof (holds_bytes _ _ _ HO) as HB. rewrite UB3, SZ in HB. rewrite SZ in N4. rewrite OF in N5. rewrite SQ in HS.
  revert I SX. generalize (snd s) as u. clearbody s p. clear RE UP O IU. intros u I (X1 & X2 & X3 & X4 & X5).
  unfold ul_process. rewrite !rd_Ok by lia. cbn [bind]. rewrite HS. unfold logging_seq. rewrite X1. cbn [Z.eqb Pos.eqb].
  set (ux := set_exp u (u16 (1 + 1))).
  assert (IX : ul_inv ux).
  { destruct I as [B XX FI HI]. unfold ux. split; cbn [set_exp u_exp u_hdr u_first u_len u_idx u_plen]; auto.
    - destruct B; split; cbn [set_exp u_buf u_part u_len u_idx u_plen]; auto.
    - apply u16_range. }
  assert (HDX : u_hdr ux = false) by exact X2. assert (FX : u_first ux = false) by exact X3. rewrite HDX.
  assert (LX : u_len ux = 0) by exact X4. assert (PX : u_plen ux = 0) by exact X5. clearbody ux. clear u I X1 X2 X3 X4 X5.
  destruct (ul_data_append fuel ux_env y1 g1 ux mm b IX HDX BM) as (u4 & mm4 & E & B4 & H4 & F4 & X4 & P4 & PA4 & W4); rewrite ?N4, ?N5, ?FX in *; try lia; auto; try discriminate.
  rewrite E. clear E. unfold ul_flush. assert (FP : flush_part fuel ux_env y1 g1 u4 = Ok (y1, g1, u4, None)).
  { destruct fuel; cbn [flush_part]; rewrite P4, PX; reflexivity. }
  rewrite FP. cbn [bind]. assert (WX : window ux = []) by (apply window_nil; auto).
  rewrite WX, HB in W4 by lia. change (Z.to_nat 0) with 0%nat in W4. cbn [app skipn] in W4.
  assert (L4 : u_len u4 = 3).
  { pose proof (f_equal (@length Z) W4) as LW. unfold window in LW. destruct B4 as [K1 KB K2 K3 K4 K5 K6]. unfold UBUF in K1. rewrite firstn_length, skipn_length in LW. cbn [length] in LW. lia. }
  assert (N0 : forall k, (k < 3)%nat -> nth (Z.to_nat (u_idx u4) + k) (u_buf u4) 0 = nth k [253; 255; 65] 0).
  { intros k K. rewrite <- W4. unfold window. rewrite nth_firstn_lt by lia. rewrite nth_skipn0. reflexivity. }
  rewrite flush_msgs_spin; auto; try lia.
  - rewrite <- (Nat.add_0_r (Z.to_nat _)). rewrite N0 by lia. reflexivity.
  - rewrite N0 by lia. reflexivity.
  - intros k _. vm_compute. discriminate.
Qed.

Example C56_nonvacuous : let s := ux_at 700 [ux_hb; ux_head] in
  ulog_reached ux_env (fst (fst s)) (snd (fst s)) (snd s) /\ l_open (snd (fst s)) = true /\ u_hdr (snd s) = false /\
  no_size_65533 (window (snd s) ++ ul_bytes (ux_data 1 255 [1; 7; 4; 0; 66])).
Proof.
  cbv zeta. split. { apply ux_reached; [levs|vm_compute; reflexivity]. } split; [vm_compute; reflexivity|]. split; [vm_compute; reflexivity|].
  assert (E : window (snd (ux_at 700 [ux_hb; ux_head])) ++ ul_bytes (ux_data 1 255 [1; 7; 4; 0; 66]) = [2; 0; 66; 1; 7; 4; 0; 66]) by (vm_compute; reflexivity).
  rewrite E. intros a b H. repeat (destruct a as [|? a]; [cbn in H; congruence|cbn [app] in H; injection H as ? H; subst]). destruct a; discriminate.
Qed.

(* C57 fails for a header packet whose data is longer than 233 bytes and whose trailing zeros were removed: the header is cut
   off by moving 240 bytes that begin 22 bytes into a 255 byte copy of the payload. *)
Theorem C57_header_refuted : exists v y g u p, ulog_dialect v /\ ulog_reached v y g u /\ l_open g = true /\ is_ulog p = true /\ ul_packet p /\ ul_consistent p /\
  forall tail, bytes tail -> levent 700 v y g (BULog u) (LMsg p tail) = UB.
Proof.
  set (s := ux_at 9 [ux_hb]). set (p := ux_data 0 255 (ux_hd ++ repeat 7 224)).
  assert (RE : ulog_reached ux_env (fst (fst s)) (snd (fst s)) (snd s)). { apply ux_reached; [levs|vm_compute; reflexivity]. }
  assert (UP : ul_packet p) by (split; [wfb|exact I]). assert (O : l_open (snd (fst s)) = true) by (vm_compute; reflexivity). assert (IU : is_ulog p = true) by reflexivity.
  exists ux_env, (fst (fst s)), (snd (fst s)), (snd s), p. split; [exact ux_dialect|]. split; auto. split; auto. split; auto. split; auto.
  split. { split; [vm_compute; discriminate|]. left. vm_compute. reflexivity. }
  intros tail BT. destruct (reached_inv _ _ _ _ RE) as (I & _).
  destruct (ul_levent 700 _ _ _ _ p tail ux_dialect RE O UP IU BT) as (mm & b & y1 & g1 & HO & WH & S & L & E1 & E2 & E3 & E4 & E5 & cs0 & W).
  rewrite W. clear W. pose proof (holds_seq _ _ _ HO) as HS. pose proof HO as (BM & LM & _).
  assert (WH' : length mm = 255%nat /\ b = 0%nat). { destruct WH as [(_ & _ & X)|X]; auto. exfalso. vm_compute in X. discriminate. } destruct WH' as [LL ->].
  pose proof (holds_nth mm 0 p 4 HO ltac:(lia)) as N4. fold (ul_size p) in N4.
  assert (SZ : ul_size p = 240) by (vm_compute; reflexivity). assert (SQ : ul_seq p = 0) by (vm_compute; reflexivity).
  assert (SX : u_exp (snd s) = 0 /\ u_hdr (snd s) = true) by (vm_compute; auto).
  assert (MG : firstn 7 (ul_bytes p) = ULOG_MAGIC) by (vm_compute; reflexivity).
  pose proof (holds_bytes _ _ _ HO) as HB. rewrite SZ in HB. rewrite SZ in N4. rewrite SQ in HS. rewrite <- HB, firstn_firstn in MG by lia. clear HB.
  revert I SX. generalize (snd s) as u. clearbody s p. clear RE UP O IU. intros u I (X1 & X2).
  unfold ul_process. rewrite !rd_Ok by lia. cbn [bind]. rewrite HS. unfold logging_seq. rewrite X1. cbn [Z.eqb]. cbn [set_exp u_hdr]. rewrite X2.
  cbn [Nat.add] in *. rewrite N4. change (240 <? 16) with false. cbv iota. rewrite !slice_Ok by lia. cbn [bind].
  change (Nat.min 7 (Z.to_nat 240)) with 7%nat in MG. rewrite MG. change (negb (beqs ULOG_MAGIC ULOG_MAGIC)) with false. cbv iota.
  set (hd := firstn 16 _). assert (LH : length hd = 16%nat) by (unfold hd; rewrite firstn_length, skipn_length; lia).
  destruct I as [[K1 KB K2 K3 K4 K5 K6] _ _ _]. unfold UPART in K2. rewrite blit_Ok by (cbn [set_exp u_part]; lia). cbn [bind].
  assert (MV : memmove mm 6 22 (Z.to_nat 240) = UB). { unfold memmove, slice. change (Z.to_nat 240) with 240%nat. destruct (Nat.leb_spec (22 + 240) (length mm)); [lia|reflexivity]. }
  rewrite MV. reflexivity.
Qed.

(* And after a loss, for a packet whose first message offset lies behind its data. *)
Theorem C57_offset_refuted : exists v y g u p, ulog_dialect v /\ ulog_reached v y g u /\ l_open g = true /\ u_hdr u = false /\ is_ulog p = true /\ ul_packet p /\
  ul_size p = 3 /\ ul_offset p = 200 /\ levent 700 v y g (BULog u) (LMsg p []) = UB.
Proof.
  set (s := ux_at 700 [ux_hb; ux_head]). exists ux_env, (fst (fst s)), (snd (fst s)), (snd s), (ux_data 9 200 [1; 0; 65]).
  split; [exact ux_dialect|]. split. { apply ux_reached; [levs|vm_compute; reflexivity]. }
  split; [vm_compute; reflexivity|]. split; [vm_compute; reflexivity|]. split; [reflexivity|]. split; [split; [wfb|exact I]|].
  split; [vm_compute; reflexivity|]. split; [vm_compute; reflexivity|]. vm_compute. reflexivity.
Qed.

Example C57_nonvacuous : let s := ux_at 700 [ux_hb; ux_head] in
  ulog_reached ux_env (fst (fst s)) (snd (fst s)) (snd s) /\ l_open (snd (fst s)) = true /\ ul_consistent (ux_data 9 2 [1; 0; 65]) /\ ul_packet (ux_data 9 2 [1; 0; 65]).
Proof.
  cbv zeta. split. { apply ux_reached; [levs|vm_compute; reflexivity]. } split; [vm_compute; reflexivity|].
  split. { split; [vm_compute; discriminate|right; vm_compute; discriminate]. } split; [wfb|exact I].
Qed.

Print Assumptions C53_large_refuted.
Print Assumptions C54_half_refuted.
Print Assumptions C56_refuted.
Print Assumptions C57_header_refuted.
Print Assumptions C57_offset_refuted.
