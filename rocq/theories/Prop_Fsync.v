(* C91: the log reaches the disk. *)
From Verif Require Import Base Fsync.

Lemma aio_app : forall x y a, aio_run a (x ++ y) = let* b := aio_run a x in aio_run b y.
Proof. induction x as [|e x IH]; intros y a; [reflexivity|]. cbn [app aio_run]. destruct (aio_step a e); cbn [bind]; auto. Qed.
(* what happens while a file is open *)
Definition running (e : aevent) : Prop := match e with AWrite n => 0 <= n | ATick _ | ADone | AStart _ => True | _ => False end.
Record sound (a : aio) : Prop := mkSnd {
  s_open : 0 <= a_file a;
  s_cb : forall n, a_busy a = Some n -> 0 <= a_cb a /\ 0 <= n <= a_written a;
  s_disk : 0 <= a_disk a <= a_written a }.
Lemma running_step : forall a e, sound a -> running e -> exists b, aio_step a e = Ok b /\ sound b /\ a_file b = a_file a /\ a_written a <= a_written b /\ a_disk a <= a_disk b.
Proof.
  intros a e [O C D] R. destruct e as [fd|n|ok| | |]; cbn [running] in R; try contradiction; cbn [aio_step].
  - destruct (Z.eqb_spec (a_file a) (-1)); [lia|]. exists a. cbn [negb]. split; [reflexivity|]. split; [constructor; auto|lia].
  - destruct (Z.ltb_spec (a_file a) 0); [lia|]. eexists. split; [reflexivity|]. cbn [a_file a_written a_disk]. split; [|lia]. constructor; cbn [a_file a_cb a_busy a_written a_disk]; [auto| |lia].
    intros m B. specialize (C m B). lia.
  - destruct (Z.ltb_spec (a_file a) 0); [lia|]. destruct (a_busy a) as [m|] eqn:B.
    + destruct (C m eq_refl) as [C1 C2]. replace (0 <=? a_cb a) with true by lia. cbn [andb]. exists a. split; [reflexivity|]. split; [|lia]. constructor; auto. rewrite B. auto.
    + rewrite andb_false_r. eexists. split; [reflexivity|]. cbn [a_file a_written a_disk]. split; [|lia]. constructor; cbn [a_file a_cb a_busy a_written a_disk]; auto.
      intros m E. destruct ok; inversion E; subst. lia.
  - destruct (a_busy a) as [m|] eqn:B.
    + destruct (C m eq_refl) as [C1 C2]. eexists. split; [reflexivity|]. cbn [a_file a_written a_disk]. split; [|lia]. constructor; cbn [a_file a_cb a_busy a_written a_disk]; auto; try lia. discriminate.
    + exists a. split; [reflexivity|]. split; [|lia]. constructor; auto. rewrite B. auto.
Qed.
Lemma running_run : forall es a, sound a -> Forall running es -> exists b, aio_run a es = Ok b /\ sound b /\ a_file b = a_file a /\ a_written a <= a_written b /\ a_disk a <= a_disk b.
Proof.
  induction es as [|e es IH]; intros a S F; cbn [aio_run]; [exists a; split; [reflexivity|]; split; [exact S|]; split; [reflexivity|lia]|]. pose proof (Forall_inv F) as RE. apply Forall_inv_tail in F.
  destruct (running_step a e S) as (b & E & SB & FB & W & D); auto. rewrite E. cbn [bind]. destruct (IH b SB) as (c & EC & SC & FC & WC & DC); auto. exists c. split; [auto|]. split; [auto|]. split; [congruence|]. lia.
Qed.
Lemma started : forall fd, 0 <= fd -> aio_step aio_new (AStart fd) = Ok (mkAio fd (-1) None 0 0) /\ sound (mkAio fd (-1) None 0 0).
Proof. intros fd H. cbn [aio_step aio_new a_file]. change (-1 =? -1) with true. cbn [negb]. destruct (Z.ltb_spec fd 0); [lia|]. split; [reflexivity|]. constructor; cbn; try lia. discriminate. Qed.

Definition no_done (e : aevent) : Prop := e <> ADone.
Lemma busy_keeps : forall es a n, sound a -> Forall running es -> Forall no_done es -> a_busy a = Some n -> exists b, aio_run a es = Ok b /\ sound b /\ a_busy b = Some n.
Proof.
  induction es as [|e es IH]; intros a n S F N B; cbn [aio_run]; [eauto|]. inversion F as [|? ? RE FE]; subst. inversion N as [|? ? NE NEs]; subst.
  destruct (running_step a e S RE) as (b & E & SB & _). rewrite E. cbn [bind]. apply IH; auto. destruct S as [O C D]. destruct (C n B) as [C1 C2].
  destruct e as [fd|m|ok| | |]; cbn [running] in RE; try contradiction; try (exfalso; apply NE; reflexivity); cbn [aio_step] in E.
  - destruct (Z.eqb_spec (a_file a) (-1)); [lia|]. cbn [negb] in E. inversion E; subst; auto.
  - destruct (Z.ltb_spec (a_file a) 0); [lia|]. inversion E; subst; auto.
  - destruct (Z.ltb_spec (a_file a) 0); [lia|]. rewrite B in E. replace (0 <=? a_cb a) with true in E by lia. cbn [andb] in E. inversion E; subst; auto.
Qed.
(* While a file is open, whatever is written, however long requests take and whether or not they are taken: nothing undefined
   happens, and when a request made by a tick has ended, all that was written before that tick is on the disk, whatever
   follows (until the log is stopped). *)
Theorem C91_ticks_partial : forall fd h1 h2 h3, 0 <= fd -> Forall running (h1 ++ h2 ++ h3) -> Forall no_done h2 ->
  exists a b, aio_run aio_new (AStart fd :: h1) = Ok a /\ aio_run aio_new (AStart fd :: h1 ++ ATick true :: h2 ++ ADone :: h3) = Ok b /\
    (a_busy a = None -> a_written a <= a_disk b).
Proof.
  intros fd h1 h2 h3 P F N. apply Forall_app in F. destruct F as [F1 F]. apply Forall_app in F. destruct F as [F2 F3]. destruct (started fd P) as [E S].
  cbn [aio_run]. rewrite E. cbn [bind]. rewrite aio_app. destruct (running_run h1 _ S F1) as (a & EA & SA & _). rewrite EA. cbn [bind]. exists a.
  cbn [aio_run]. destruct (running_step a (ATick true) SA I) as (b & EB & SB & FB & WB & DB). rewrite EB. cbn [bind]. rewrite aio_app.
  destruct (running_run h2 b SB F2) as (c & EC & SC & _). rewrite EC. cbn [bind aio_run]. destruct (running_step c ADone SC I) as (d & ED & SD & _ & _ & DD). rewrite ED. cbn [bind].
  destruct (running_run h3 d SD F3) as (x & EX & SX & _ & _ & DX). exists x. split; [auto|]. split; [auto|]. intros BA.
  assert (BB : a_busy b = Some (a_written a)). { cbn [aio_step] in EB. rewrite BA, andb_false_r in EB. destruct SA as [O _ _]. destruct (Z.ltb_spec (a_file a) 0); [lia|]. inversion EB. reflexivity. }
  destruct (busy_keeps h2 b (a_written a) SB F2 N BB) as (c' & EC' & _ & BC). rewrite EC in EC'. inversion EC'; subst c'.
  cbn [aio_step] in ED. rewrite BC in ED. inversion ED; subst d. cbn [a_disk] in DX. lia.
Qed.
Print Assumptions C91_ticks_partial.
(* When the log is stopped while no request is in progress, the whole file is on the disk, and the next log can start. *)
Theorem C91_stop_partial : forall fd h a, 0 <= fd -> Forall running h -> aio_run aio_new (AStart fd :: h) = Ok a -> a_busy a = None ->
  exists b, aio_step a AStop = Ok b /\ a_disk b = a_written a /\ a_file b = -1 /\ a_cb b = -1 /\ a_busy b = None.
Proof.
  intros fd h a P F R B. destruct (started fd P) as [E S]. cbn [aio_run] in R. rewrite E in R. cbn [bind] in R. destruct (running_run h _ S F) as (a' & EA & SA & _). rewrite R in EA. inversion EA; subst a'.
  cbn [aio_step]. rewrite B. eexists. split; [reflexivity|]. cbn [a_disk a_file a_cb a_busy]. destruct SA as [O _ _]. destruct (Z.ltb_spec (a_file a) 0); [lia|]. auto.
Qed.
Print Assumptions C91_stop_partial.
(* Refuted: stopping the log (disarming, no data for ten seconds, the end of the program) while a request is in progress. *)
Theorem C91_stop_refuted : forall fd n, 0 <= fd -> 0 <= n -> aio_run aio_new [AStart fd; AWrite n; ATick true; AStop] = UB /\
  aio_run aio_new [AStart fd; AWrite n; ATick true; ADestroy] = UB.
Proof.
  intros fd n P N. destruct (started fd P) as [E S]. cbn [aio_run]. rewrite E. cbn [bind aio_step a_file]. destruct (Z.ltb_spec fd 0); [lia|]. cbn [bind aio_step a_file a_cb a_busy]. destruct (Z.ltb_spec fd 0); [lia|].
  change (0 <=? -1) with false. cbn [andb bind aio_step a_busy]. auto.
Qed.
Print Assumptions C91_stop_refuted.
Example C91_nonvacuous : aio_run aio_new [AStart 5; AWrite 100; ATick true; AWrite 10; ATick true; ADone; AWrite 1] = Ok (mkAio 5 5 None 111 100).
Proof. reflexivity. Qed.
