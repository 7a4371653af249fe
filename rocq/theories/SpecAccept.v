(* The routing rules of README.md ("Message Routing", "Message filters", "Message Sniffing") as
   propositions, on addresses (system, component); independent of the model in Accept.v. *)
From Coq Require Import List ZArith.
Import ListNotations.
Open Scope Z_scope.

Definition address : Type := (Z * Z)%type.   (* system, component *)

(* A message as the routing rules see it.  Targets: None = the message type has no such field. *)
Record letter : Type := mkLetter {
  lt_id : Z; lt_from : address; lt_tsys : option Z; lt_tcomp : option Z }.

(* "Allow: allow all messages matching (and discard all other ones); Block: discard all matching";
   an empty list does nothing. *)
Definition passes (allow block : list Z) (x : Z) : Prop :=
  (allow = [] \/ In x allow) /\ ~ In x block.

(* Rule 3.  Component 0 is a broadcast to all components of a system, system 0 to all systems;
   a message without target counts as broadcast. *)
Definition broadcast_sys (l : letter) : Prop := lt_tsys l = None \/ lt_tsys l = Some 0.
Definition broadcast_comp (l : letter) : Prop := lt_tcomp l = None \/ lt_tcomp l = Some 0.

Definition addressed_to (l : letter) (known : address -> Prop) : Prop :=
  broadcast_sys l \/
  exists s, lt_tsys l = Some s /\
    ((broadcast_comp l /\ exists c, known (s, c)) \/
     (exists c, lt_tcomp l = Some c /\ c <> 0 /\ known (s, c))).

(* "forward all traffic to endpoints on which this system ID is connected"; 0 = not configured *)
Definition sniffs (sniffer : Z) (known : address -> Prop) : Prop :=
  sniffer <> 0 /\ exists c, known (sniffer, c).
