(* C11: the forwarding decision of an endpoint is the documented one. *)
From Verif Require Import Base Frame Accept SpecAccept AcceptProofs.

(* [knows ids a] : the address a (system, component) has been learned on the endpoint;
   [letter_of m]: the message as the routing rules see it; [out_ok f l]: the letter passes the three
   outgoing allow/block filter pairs (message id, source component, source system). *)
Theorem C11_accepts_iff : forall sniffer ids f m,
  wf_meta m -> wf_ids ids -> 0 <= sniffer < 256 ->
  let l := letter_of m in
  (accept_msg sniffer ids f m = Accepted <->
   ~ knows ids (lt_from l) /\ out_ok f l /\ (addressed_to l (knows ids) \/ sniffs sniffer (knows ids))).
Proof.
  intros sn ids f m W I SN l. pose proof (accept_spec sn ids f m W I SN) as H. cbv zeta in H. fold l in H.
  destruct (accept_msg sn ids f m); split; intros X; try discriminate; try tauto.
Qed.

(* and a message that is not forwarded is told apart: stopped by a filter or not wanted *)
Theorem C11_filtered_iff : forall sniffer ids f m,
  wf_meta m -> wf_ids ids -> 0 <= sniffer < 256 ->
  let l := letter_of m in
  (accept_msg sniffer ids f m = Filtered <-> ~ knows ids (lt_from l) /\ ~ out_ok f l).
Proof.
  intros sn ids f m W I SN l. pose proof (accept_spec sn ids f m W I SN) as H. cbv zeta in H. fold l in H.
  destruct (accept_msg sn ids f m); split; intros X; try discriminate; try tauto.
Qed.

(* non-vacuity: an endpoint that knows 1/1 and 1/50; messages from 255/190 *)
Definition ex_ids : list Z := [1 * 256 + 1; 1 * 256 + 50].
Definition ex_m (tsys tcomp : Z) : minfo := mkInfo 76 tsys tcomp 255 190 33 10 45.
Example C11_ex_hyp : wf_meta (ex_m 1 50) /\ wf_ids ex_ids.
Proof.
  split.
  - unfold wf_meta, is_byte; cbn; lia.
  - unfold wf_ids, ex_ids. repeat apply Forall_cons; try apply Forall_nil; lia.
Qed.
Example C11_ex_cases :
  accept_msg 0 ex_ids no_filters (ex_m 1 50) = Accepted /\
  accept_msg 0 ex_ids no_filters (ex_m 1 0) = Accepted /\
  accept_msg 0 ex_ids no_filters (ex_m 1 (-1)) = Accepted /\
  accept_msg 0 ex_ids no_filters (ex_m 0 7) = Accepted /\
  accept_msg 0 ex_ids no_filters (ex_m 1 7) = Rejected /\
  accept_msg 0 ex_ids no_filters (ex_m 2 0) = Rejected /\
  accept_msg 1 ex_ids no_filters (ex_m 2 0) = Accepted /\
  accept_msg 1 ex_ids (mkFilters [] [76] [] [] [] [] [] [] [] [] [] []) (ex_m 2 0) = Filtered.
Proof. vm_compute. repeat split. Qed.

Print Assumptions C11_accepts_iff.
Print Assumptions C11_filtered_iff.
