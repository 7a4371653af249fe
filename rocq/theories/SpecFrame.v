(* Specification of MAVLink framing, from the wire format tables of the MAVLink
   guide; independent of the parser model in Frame.v. *)
From Verif Require Import Base Mav SpecCrc.

(* A packet: its fields and how they are laid out. *)
Inductive version : Type :=
| V1
| V2 (incompat compat : Z) (signature : list Z).

Record packet : Type := mkPacket {
  p_ver : version;
  p_seq : Z;
  p_sys : Z;
  p_comp : Z;
  p_id : Z;
  p_payload : list Z;
  p_crc0 : Z;
  p_crc1 : Z }.

Definition plen (p : packet) : Z := Z.of_nat (length (p_payload p)).

(* Everything between the start marker and the checksum. *)
Definition body (p : packet) : list Z :=
  match p_ver p with
  | V1 => [plen p; p_seq p; p_sys p; p_comp p; p_id p] ++ p_payload p
  | V2 fl cf _ =>
      [plen p; fl; cf; p_seq p; p_sys p; p_comp p;
       p_id p mod 256; (p_id p / 256) mod 256; p_id p / 65536] ++ p_payload p
  end.

Definition encode (p : packet) : list Z :=
  match p_ver p with
  | V1 => 254 :: body p ++ [p_crc0 p; p_crc1 p]
  | V2 _ _ sig => 253 :: body p ++ [p_crc0 p; p_crc1 p] ++ sig
  end.

Definition wf_packet (p : packet) : Prop :=
  is_byte (p_seq p) /\ is_byte (p_sys p) /\ is_byte (p_comp p) /\
  is_byte (p_crc0 p) /\ is_byte (p_crc1 p) /\
  bytes (p_payload p) /\ (length (p_payload p) < 256)%nat /\
  match p_ver p with
  | V1 => is_byte (p_id p)
  | V2 fl cf sig =>
      0 <= p_id p < 16777216 /\ is_byte fl /\ is_byte cf /\ bytes sig /\
      length sig = (if Z.odd fl then 13 else 0)%nat
  end.

(* A byte that starts a packet. *)
Definition marker (b : Z) : Prop := b = 253 \/ b = 254.

(* Cutting a byte stream into packets: bytes that are no marker are skipped, a
   marker starts a packet whose length its header gives, and what is left at the
   end is a packet that is not complete yet. *)
Inductive segments : list Z -> list packet -> list Z -> Prop :=
| seg_end : segments [] [] []
| seg_partial : forall r missing p,
    wf_packet p -> encode p = r ++ missing -> r <> [] -> missing <> [] ->
    segments r [] r
| seg_skip : forall b s ps r,
    ~ marker b -> segments s ps r -> segments (b :: s) ps r
| seg_packet : forall p s ps r,
    wf_packet p -> segments s ps r -> segments (encode p ++ s) (p :: ps) r.

(* Checksum rule: ids outside the dialect are not checked. *)
Definition crc_matches (extra : Z) (p : packet) : Prop :=
  crc_spec (body p ++ [extra]) = p_crc0 p + 256 * p_crc1 p.

Definition acceptable (tbl : table) (p : packet) : Prop :=
  match tbl (p_id p) with
  | None => True
  | Some e => crc_matches (e_crc_extra e) p
  end.

Definition acceptable_dec (tbl : table) (p : packet) : {acceptable tbl p} + {~ acceptable tbl p}.
Proof.
  unfold acceptable. destruct (tbl (p_id p)); [|left; exact I].
  unfold crc_matches. apply Z.eq_dec.
Defined.

Definition acceptableb (tbl : table) (p : packet) : bool :=
  if acceptable_dec tbl p then true else false.

(* The target of a packet: the payload byte at the field's offset, 0 when
   trimmed, -1 when the message type has no such field or is unknown. *)
Definition target_spec (p : packet) (field : option (option nat)) : Z :=
  match field with
  | Some (Some ofs) => nth ofs (p_payload p) 0
  | _ => -1
  end.

(* entries are bytes-sized *)
Definition wf_table (tbl : table) : Prop :=
  forall id e, tbl id = Some e ->
    is_byte (e_crc_extra e) /\ 0 <= e_max_len e < 256 /\
    match e_tsys e with Some o => (o < 256)%nat | None => True end /\
    match e_tcomp e with Some o => (o < 256)%nat | None => True end.
