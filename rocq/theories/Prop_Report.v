(* C92: the statistics report. *)
From Coq Require Import String.
From Verif Require Import Base Names Num NumProofs SpecNum Frame FrameLink Report SpecReport.
Open Scope string_scope. Open Scope list_scope. Open Scope Z_scope.

Lemma dec_decimal : forall k n, 0 <= n < 10 ^ Z.of_nat k -> (0 < k)%nat -> decimal (dec k n) n.
Proof.
  induction k as [|k IH]; intros n R K; [lia|]. cbn [dec]. destruct (Z.ltb_spec n 10); [constructor; lia|].
  rewrite (Z.div_mod n 10) at 3 by lia. apply d_more; [|apply Z.div_str_pos; lia|apply Z.mod_pos_bound; lia].
  rewrite Nat2Z.inj_succ, Z.pow_succ_r in R by lia. apply IH; [split; [apply Z.div_pos; lia|apply Z.div_lt_upper_bound; lia]|].
  destruct k; [|lia]. change (10 ^ Z.of_nat 0) with 1 in R. lia.
Qed.
Lemma put_u_decimal : forall n, 0 <= n < 18446744073709551616 -> decimal (put_u n) n.
Proof. intros n R. unfold put_u, print_pad. cbn [Nat.sub repeat app]. apply dec_decimal; [|lia]. change (10 ^ Z.of_nat 20) with 100000000000000000000. lia. Qed.

(* counters as the program keeps them *)
Record counters (st : rstat) (wt wb : Z) : Prop := mkCnt {
  k_crc : 0 <= s_crc_err st < 4294967296; k_drop : 0 <= s_drop st < 4294967296; k_handled : 0 <= s_handled st < 4294967296;
  k_total : 0 <= s_total st < 4294967296; k_wt : 0 <= wt < 4294967296;
  k_cb : 0 <= s_crc_err_bytes st < 18446744073709551616; k_hb : 0 <= s_handled_bytes st < 18446744073709551616; k_wb : 0 <= wb < 18446744073709551616 }.

Lemma kb_ok : forall b, 0 <= b < 18446744073709551616 -> kilobytes b (b / 1000) /\ 0 <= b / 1000 < 18446744073709551616.
Proof.
  intros b R. unfold kilobytes. pose proof (Z.div_mod b 1000 ltac:(lia)). pose proof (Z.mod_pos_bound b 1000 ltac:(lia)).
  assert (0 <= b / 1000) by (apply Z.div_pos; lia). lia.
Qed.
Lemma pc_range : forall x n, 0 < n -> 0 <= percent x n < 18446744073709551616.
Proof.
  intros x n P. unfold percent. assert (0 <= u32 (x * 100) < 4294967296) by (unfold u32; apply Z.mod_pos_bound; lia).
  split; [apply Z.div_pos; lia|]. apply Z.div_lt_upper_bound; nia.
Qed.
Lemma pc_ok : forall x n, 0 <= x <= 42949672 -> 0 <= n -> (n = 0 -> x = 0) -> percentage x n (percent x (if n =? 0 then 1 else n)).
Proof.
  intros x n R P E. unfold percentage, percent. destruct (Z.eqb_spec n 0) as [->|NE]; [rewrite E by auto; reflexivity|].
  unfold u32. rewrite Z.mod_small by lia. pose proof (Z.div_mod (x * 100) n NE). pose proof (Z.mod_pos_bound (x * 100) n ltac:(lia)). nia.
Qed.

(* The report says, whatever the counters are, what they are, how many bytes that is, and quotients for percentages. *)
Theorem report_says : forall type fd name st wt wb, counters st wt wb ->
  let tot := if s_total st =? 0 then 1 else s_total st in
  says (report type fd name st wt wb) (type ++ lit " Endpoint [" ++ put_d fd ++ lit "]" ++ name ++ lit " {")
    (mkFig (s_crc_err st) (percent (s_crc_err st) tot) (s_crc_err_bytes st / 1000) (s_drop st) (percent (s_drop st) tot)
       (s_handled st) (s_handled_bytes st / 1000) (s_total st) wt (wb / 1000)).
Proof.
  intros type fd name st wt wb [K1 K2 K3 K4 K5 K6 K7 K8] tot.
  assert (T : 0 < tot) by (unfold tot; destruct (Z.eqb_spec (s_total st) 0); lia).
  destruct (kb_ok _ K6) as [_ B1]. destruct (kb_ok _ K7) as [_ B2]. destruct (kb_ok _ K8) as [_ B3].
  pose proof (pc_range (s_crc_err st) tot T) as P1. pose proof (pc_range (s_drop st) tot T) as P2.
  unfold says. cbn [f_crc f_crc_pc f_crc_kb f_lost f_lost_pc f_handled f_handled_kb f_total f_sent f_sent_kb].
  do 5 eexists.
  split; [eexists; split; [apply nb_more; [apply put_u_decimal; lia|apply nb_more; [apply put_u_decimal; exact P1|apply nb_last; apply put_u_decimal; exact B1]]|reflexivity]|].
  split; [eexists; split; [apply nb_more; [apply put_u_decimal; lia|apply nb_last; apply put_u_decimal; exact P2]|reflexivity]|].
  split; [eexists; split; [apply nb_more; [apply put_u_decimal; lia|apply nb_last; apply put_u_decimal; exact B2]|reflexivity]|].
  split; [eexists; split; [apply nb_last; apply put_u_decimal; lia|reflexivity]|].
  split; [eexists; split; [apply nb_more; [apply put_u_decimal; lia|apply nb_last; apply put_u_decimal; exact B3]|reflexivity]|].
  unfold report. fold tot. unfold nl, tab. cbn [unlines].
  change (lit "") with (@nil Z). change (lit "% ") with (lit "%" ++ lit " "). 
  repeat rewrite <- app_assoc. reflexivity.
Qed.

(* As long as the total is the sum of the other counters (C09: it is, modulo 2^32), the percentages are right until more than 42949672 messages
   were lost or wrong. *)
Theorem C92_says_partial : forall type fd name st wt wb, counters st wt wb -> s_total st = s_handled st + s_crc_err st + s_drop st ->
  s_crc_err st <= 42949672 -> s_drop st <= 42949672 ->
  exists f head, says (report type fd name st wt wb) head f /\
    f_crc f = s_crc_err st /\ f_lost f = s_drop st /\ f_handled f = s_handled st /\ f_total f = s_total st /\ f_sent f = wt /\
    kilobytes (s_crc_err_bytes st) (f_crc_kb f) /\ kilobytes (s_handled_bytes st) (f_handled_kb f) /\ kilobytes wb (f_sent_kb f) /\
    percentage (s_crc_err st) (s_total st) (f_crc_pc f) /\ percentage (s_drop st) (s_total st) (f_lost_pc f).
Proof.
  intros type fd name st wt wb K T L1 L2. do 2 eexists. split; [apply report_says; exact K|]. destruct K as [K1 K2 K3 K4 K5 K6 K7 K8].
  cbn [f_crc f_crc_pc f_crc_kb f_lost f_lost_pc f_handled f_handled_kb f_total f_sent f_sent_kb].
  do 5 (split; [reflexivity|]). split; [apply kb_ok; auto|]. split; [apply kb_ok; auto|]. split; [apply kb_ok; auto|].
  split; apply pc_ok; lia.
Qed.
Print Assumptions C92_says_partial.

(* Refuted: of 42949673 messages, all with a wrong checksum, 0 per cent are reported as wrong. *)
Definition all_wrong : rstat := mkRstat 0 0 42949673 42949673 0 0 0.
Theorem C92_overflow_refuted : counters all_wrong 0 0 /\ s_total all_wrong = s_handled all_wrong + s_crc_err all_wrong + s_drop all_wrong /\
  percentage (s_crc_err all_wrong) (s_total all_wrong) 100 /\
  report (lit "UDP") 5 (lit "x") all_wrong 0 0 =
  unlines [lit "UDP Endpoint [5]x {"; 9 :: lit "Received messages {"; 9 :: 9 :: lit "CRC error: 42949673 0% 0KB"; 9 :: 9 :: lit "Sequence lost: 0 0%";
           9 :: 9 :: lit "Handled: 0 0KB"; 9 :: 9 :: lit "Total: 42949673"; 9 :: lit "}"; 9 :: lit "Transmitted messages {"; 9 :: 9 :: lit "Total: 0 0KB"; 9 :: lit "}"; lit "}"].
Proof.
  split; [constructor; cbn; lia|]. split; [reflexivity|]. split; [unfold percentage; cbn; lia|]. vm_compute. reflexivity.
Qed.
Print Assumptions C92_overflow_refuted.

Example C92_nonvacuous : let st := mkRstat 4321 123456 200 7 190 3 9 in
  report (lit "UART") 6 (lit "fc") st 55 9999 =
  unlines [lit "UART Endpoint [6]fc {"; 9 :: lit "Received messages {"; 9 :: 9 :: lit "CRC error: 7 3% 4KB"; 9 :: 9 :: lit "Sequence lost: 3 1%";
           9 :: 9 :: lit "Handled: 190 123KB"; 9 :: 9 :: lit "Total: 200"; 9 :: lit "}"; 9 :: lit "Transmitted messages {"; 9 :: 9 :: lit "Total: 55 9KB"; 9 :: lit "}"; lit "}"].
Proof. vm_compute. reflexivity. Qed.
