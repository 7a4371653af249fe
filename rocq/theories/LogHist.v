(* The history of one logger inside the router: its messages and timers, with anything else happening in between. *)
From Verif Require Import Base Mav SpecFrame Frame FrameProofs Names Sys LogFile LogFileProofs ULog Loggers LogInv LogStep LogRun Router RouterTimers LogSpare.

(* the live timers that call logger [i] are those recorded in its state *)
Definition timers_of (y : sys) (i : nat) (l : logger) : Prop :=
  match l with
  | LFile g _ => l_ep g = i /\ linv y g
  | LAuto a => a_ep a = i /\ match a_inner a with Some (g, _) => l_ep g = i /\ linv y g | None => forall t, alive y t -> LogInv.log_cb (tm_cb t) <> Some i end
  end.

(* an event, for both kinds of loggers *)
Definition kevent (f : nat) (v : env) (y : sys) (l : logger) (e : lev) : res (sys * logger * list ctl) :=
  match l with
  | LFile g b => let* (y, g, b, cs) := levent f v y g b e in Ok (y, LFile g b, cs)
  | LAuto a =>
    match e with
    | LMsg p tail => let* (y, a, _, cs) := auto_write f v y a (encode p ++ tail) (info_of (v_tbl v) p) in Ok (y, LAuto a, cs)
    | _ =>
      match a_inner a with
      | Some (g, b) =>
        let* (y, g, b, cs) := levent f v y g b e in
        Ok (y, LAuto (mkAuto (a_ep a) (a_minfree a) (a_maxlogs a) (a_mode a) (a_fcu a) (a_target a) (Some (g, b))), cs)
      | None => Ok (y, LAuto a, [])
      end
    end
  end.

(* a timer expires only while the logger has it *)
Definition due (l : logger) (e : lev) : Prop :=
  match l with LFile g _ => Some g | LAuto a => option_map fst (a_inner a) end = None /\ (exists p t, e = LMsg p t) \/
  exists g, match l with LFile g _ => Some g | LAuto a => option_map fst (a_inner a) end = Some g /\
    match e with LMsg _ _ => True | LStart => l_tstart g <> None | LAlive => l_talive g <> None end.
Lemma due_msg : forall l p t, due l (LMsg p t).
Proof. intros l p t. unfold due. destruct (match l with LFile g _ => Some g | LAuto a => option_map fst (a_inner a) end) as [g|] eqn:E; [right|left]; eauto. Qed.

(* In between, the rest of the program makes system calls, adds and removes its own timers, sends messages and works on other log files; files
   that are being written and whose name satisfies [P] keep their content. *)
Inductive lhist (P : list Z -> Prop) (f : nat) (v : env) (i : nat) : sys -> logger -> list lev -> sys -> logger -> list ctl -> Prop :=
| lh_nil : forall y l, lhist P f v i y l [] y l []
| lh_event : forall y l e y1 l1 cs evs y' l' cs', due l e -> kevent f v y l e = Ok (y1, l1, cs) -> lhist P f v i y1 l1 evs y' l' cs' ->
    lhist P f v i y l (e :: evs) y' l' (cs ++ cs')
| lh_other : forall y l y1 evs y' l' cs, sys_ok y1 -> timers_of y1 i l -> spared P y y1 -> lhist P f v i y1 l evs y' l' cs ->
    lhist P f v i y l evs y' l' cs.

Lemma lhist_app : forall P f v i y l a y1 l1 c1 b y2 l2 c2, lhist P f v i y l a y1 l1 c1 -> lhist P f v i y1 l1 b y2 l2 c2 ->
  lhist P f v i y l (a ++ b) y2 l2 (c1 ++ c2).
Proof.
  intros P f v i y l a y1 l1 c1 b y2 l2 c2 H. induction H; intros K; cbn [app]; auto.
  - rewrite <- app_assoc. eapply lh_event; eauto.
  - eapply lh_other; eauto.
Qed.
Lemma lhist_split : forall P f v i y l a b y2 l2 c, lhist P f v i y l (a ++ b) y2 l2 c -> exists y1 l1 c1 c2, c = c1 ++ c2 /\
  lhist P f v i y l a y1 l1 c1 /\ lhist P f v i y1 l1 b y2 l2 c2.
Proof.
  intros P f v i y l a b y2 l2 c H. remember (a ++ b) as ab eqn:E. revert a E. induction H; intros a E.
  - symmetry in E. apply app_eq_nil in E. destruct E as [-> ->]. exists y, l, [], []. repeat split; constructor.
  - destruct a as [|x a]; cbn [app] in E.
    + exists y, l, [], (cs ++ cs'). split; auto. split; [constructor|]. subst b. eapply lh_event; eauto.
    + injection E as <- E. destruct (IHlhist a E) as (ya & la & c1 & c2 & -> & A & B). exists ya, la, (cs ++ c1), c2. split; [apply app_assoc|]. split; auto. eapply lh_event; eauto.
  - destruct (IHlhist a E) as (ya & la & c1 & c2 & -> & A & B). exists ya, la, c1, c2. split; auto. split; auto. eapply lh_other; eauto.
Qed.
Lemma lhist_cons : forall P f v i y l e evs y2 l2 c, lhist P f v i y l (e :: evs) y2 l2 c -> exists y0 y1 l1 c1 c2, c = c1 ++ c2 /\
  lhist P f v i y l [] y0 l [] /\ due l e /\ kevent f v y0 l e = Ok (y1, l1, c1) /\ lhist P f v i y1 l1 evs y2 l2 c2.
Proof.
  intros P f v i y l e evs y2 l2 c H. remember (e :: evs) as ab eqn:E. induction H; try discriminate.
  - injection E as <- <-. exists y, y1, l1, cs, cs'. repeat split; auto. constructor.
  - destruct (IHlhist E) as (y0 & ya & la & c1 & c2 & -> & A & D & B & C). exists y0, ya, la, c1, c2. repeat split; auto. eapply lh_other; eauto.
Qed.
(* ---- what the router does with the logger ---------------------------------------------------------------------------- *)

(* the items that concern logger [i], the events they are, and the messages it sent *)
Definition concerns (i : nat) (x : item) : bool :=
  match x with
  | IRecv _ _ _ _ ds => existsb (Nat.eqb i) (map dl_to ds)
  | IFire _ (CbLogStart j) | IFire _ (CbAlive j) => Nat.eqb i j
  | _ => false
  end.
Definition ev_of (v : env) (x : item) (e : lev) : Prop :=
  match x, e with
  | IRecv _ bs m _ _, LMsg p tail => wf_packet p /\ bs = encode p /\ m = info_of (v_tbl v) p /\ bytes tail
  | IFire _ (CbLogStart _), LStart => True
  | IFire _ (CbAlive _), LAlive => True
  | _, _ => False
  end.
Definition heard (v : env) (i : nat) (its : list item) (evs : list lev) : Prop := Forall2 (ev_of v) (filter (concerns i) its) evs.
Definition sent_by (i : nat) (its : list item) : list ctl :=
  flat_map (fun x => match x with ICtl j bs m _ => if Nat.eqb i j then [(bs, m)] else [] | _ => [] end) its.

Lemma heard_app : forall v i a b ea eb, heard v i a ea -> heard v i b eb -> heard v i (a ++ b) (ea ++ eb).
Proof. intros. unfold heard. rewrite filter_app. apply Forall2_app; auto. Qed.
Lemma sent_app : forall i a b, sent_by i (a ++ b) = sent_by i a ++ sent_by i b.
Proof. intros. unfold sent_by. apply flat_map_app. Qed.

(* ---- the trace and the logger ------------------------------------------------------------------------------------------ *)

Definition only_ctls (r : list item) : Prop := forall x, In x r -> exists j bs m ds, x = ICtl j bs m ds.
(* what happened to the logger while the program's history was [its]: every item that concerns it is an event, and the messages it sends for
   it follow immediately *)
Inductive lives (P : list Z -> Prop) (f : nat) (v : env) (i : nat) (y : sys) (l : logger) : list item -> sys -> logger -> Prop :=
| lv_nil : lives P f v i y l [] y l
| lv_event : forall its y1 l1 y2 e x r y3 l3 cs y4, lives P f v i y l its y1 l1 -> lhist P f v i y1 l1 [] y2 l1 [] ->
    concerns i x = true -> ev_of v x e -> due l1 e -> kevent f v y2 l1 e = Ok (y3, l3, cs) -> only_ctls r -> sent_by i r = cs ->
    lhist P f v i y3 l3 [] y4 l3 [] -> lives P f v i y l (its ++ x :: r) y4 l3
| lv_other : forall its y1 l1 r y2, lives P f v i y l its y1 l1 -> filter (concerns i) r = [] -> sent_by i r = [] -> lhist P f v i y1 l1 [] y2 l1 [] ->
    lives P f v i y l (its ++ r) y2 l1.

Lemma lhist_none : forall P f v i y l y' l' cs, lhist P f v i y l [] y' l' cs -> l' = l /\ cs = [].
Proof. intros P f v i y l y' l' cs H. remember [] as n eqn:E. induction H; auto; discriminate. Qed.
