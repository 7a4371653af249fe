(* Model of the forwarding decision of one endpoint: filters, known addresses and
   Endpoint::accept_msg, src/endpoint.cpp and src/endpoint.h. *)
From Verif Require Import Base Frame.

(* endpoint.h:279-291 *)
Record filters : Type := mkFilters {
  f_allow_msg_out : list Z;  f_block_msg_out : list Z;
  f_allow_comp_out : list Z; f_block_comp_out : list Z;
  f_allow_sys_out : list Z;  f_block_sys_out : list Z;
  f_allow_msg_in : list Z;   f_block_msg_in : list Z;
  f_allow_comp_in : list Z;  f_block_comp_in : list Z;
  f_allow_sys_in : list Z;   f_block_sys_in : list Z }.

Definition no_filters : filters := mkFilters [] [] [] [] [] [] [] [] [] [] [] [].

(* common/util.h:54 vector_contains *)
Definition contains (l : list Z) (x : Z) : bool := existsb (Z.eqb x) l.

Definition is_empty (l : list Z) : bool := match l with [] => true | _ => false end.

Definition UINT32_MAX : Z := 4294967295.

(* endpoint.h:170-174 and endpoint.cpp:492-501: has_sys_comp_id(sysid, compid); the pair
   is packed into 16 bits, both parts masked with 0xff *)
Definition has_sys_comp_id (ids : list Z) (sysid compid : Z) : bool :=
  contains ids (u8 sysid * 256 + u8 compid).

(* endpoint.cpp:482-490 *)
Definition has_sys_id (ids : list Z) (sysid : Z) : bool :=
  existsb (fun id => id / 256 =? u8 sysid) ids.

Inductive accept_state : Type := Accepted | Filtered | Rejected.

(* one allow list and one block list on the same identifier; true = discard *)
Definition discard (allow block : list Z) (x : Z) : bool :=
  (negb (is_empty allow) && negb (contains allow x)) || (negb (is_empty block) && contains block x).

(* Endpoint::accept_msg, endpoint.cpp:503-586.  The six filter tests return the same value, so their
   order among each other does not matter and they are grouped by identifier. *)
Definition accept_msg (sniffer : Z) (ids : list Z) (f : filters) (m : minfo) : accept_state :=
  if has_sys_comp_id ids (m_ssys m) (m_scomp m) then Rejected
  else if negb (m_id m =? UINT32_MAX) &&
          (discard (f_allow_msg_out f) (f_block_msg_out f) (m_id m) ||
           discard (f_allow_comp_out f) (f_block_comp_out f) (m_scomp m) ||
           discard (f_allow_sys_out f) (f_block_sys_out f) (m_ssys m)) then Filtered
  else if (m_tsys m =? 0) || (m_tsys m =? -1) then Accepted
  else if (0 <? m_tcomp m) && has_sys_comp_id ids (m_tsys m) (m_tcomp m) then Accepted
  else if ((m_tcomp m =? 0) || (m_tcomp m =? -1)) && has_sys_id ids (m_tsys m) then Accepted
  else if negb (sniffer =? 0) && has_sys_id ids sniffer then Accepted
  else Rejected.

(* Endpoint::allowed_by_incoming_filters, endpoint.cpp:593-633 *)
Definition allowed_in (f : filters) (m : minfo) : bool :=
  negb ((negb (m_id m =? UINT32_MAX) && discard (f_allow_msg_in f) (f_block_msg_in f) (m_id m)) ||
        discard (f_allow_comp_in f) (f_block_comp_in f) (m_scomp m) ||
        discard (f_allow_sys_in f) (f_block_sys_in f) (m_ssys m)).
