(* Model of the packet framing of one endpoint: Endpoint::read_msg and the
   read loop of Endpoint::handle_read, src/endpoint.cpp. *)
From Verif Require Import Base Mav.

(* endpoint.cpp:50  RX_BUF_MAX_SIZE = MAVLINK_MAX_PACKET_LEN * 4 *)
Definition RXMAX : nat := 1120.

(* endpoint.h:247,252 and comm.h:27-29: the receive buffer and _last_packet_len.
   [rx_data] is the whole malloc'ed array, including stale bytes past [rx_len]. *)
Record rx : Type := mkRx { rx_data : list Z; rx_len : nat; rx_last : nat }.

(* endpoint.h:260-269 _stat.read *)
Record rstat : Type := mkRstat {
  s_crc_err_bytes : Z;
  s_handled_bytes : Z;
  s_total : Z;
  s_crc_err : Z;
  s_handled : Z;
  s_drop : Z;
  s_eseq : Z }.

Definition rstat0 : rstat := mkRstat 0 0 0 0 0 0 0.

(* comm.h:35-43 buffer::curr, plus buffer::len.  The payload pointer is an
   offset into the buffer. *)
Record minfo : Type := mkInfo {
  m_id : Z;
  m_tsys : Z;
  m_tcomp : Z;
  m_ssys : Z;
  m_scomp : Z;
  m_plen : Z;
  m_poff : nat;
  m_len : nat }.

(* Result of the virtual _read_msg(): bytes the OS has ready for us, or a value <= 0. *)
Inductive rdres : Type :=
| RdBytes (avail : list Z)
| RdFail (r : Z).

(* Result of read_msg(): value <= 0, or a packet (known = ReadOk, unknown = ReadUnkownMsg). *)
Inductive rmsg : Type :=
| RetNone (r : Z)
| RetMsg (known : bool) (m : minfo).

Definition is_stx (b : Z) : bool := (b =? STX2) || (b =? STX1).

(* endpoint.cpp:312-323: first index i >= from, i < len, whose byte is a start marker.
   [n] = number of indices left to inspect (len - from). *)
Fixpoint find_stx (data : list Z) (i n : nat) : res (option nat) :=
  match n with
  | O => Ok None
  | S n' =>
      let* b := rd data i in
      if is_stx b then Ok (Some i) else find_stx data (S i) n'
  end.

(* The header fields read_msg uses: endpoint.cpp:342-379.  [h_size] is expected_size. *)
Record hdr : Type := mkHdr {
  h_id : Z; h_seq : Z; h_sys : Z; h_comp : Z; h_plen : Z; h_poff : nat; h_size : nat }.

(* endpoint.cpp:342-361 and endpoint.h:110-119 *)
Definition parse_hdr2 (data : list Z) : res hdr :=
  let* plen := rd data 1 in
  let* iflags := rd data 2 in
  let* sq := rd data 4 in
  let* sys := rd data 5 in
  let* comp := rd data 6 in
  let* i0 := rd data 7 in
  let* i1 := rd data 8 in
  let* i2 := rd data 9 in
  let size := (HDR2 + Z.to_nat plen + 2)%nat in
  let size := if Z.odd iflags (* & MAVLINK_IFLAG_SIGNED *) then (size + SIGLEN)%nat else size in
  Ok (mkHdr (i0 + 256 * i1 + 65536 * i2) sq sys comp plen HDR2 size).

(* endpoint.cpp:362-379 and endpoint.h:129-136 *)
Definition parse_hdr1 (data : list Z) : res hdr :=
  let* plen := rd data 1 in
  let* sq := rd data 2 in
  let* sys := rd data 3 in
  let* comp := rd data 4 in
  let* id := rd data 5 in
  Ok (mkHdr id sq sys comp plen HDR1 (HDR1 + Z.to_nat plen + 2)%nat).

(* Endpoint::_check_crc, endpoint.cpp:646-668 *)
Definition check_crc (data : list Z) (e : entry) : res bool :=
  let* b0 := rd data 0 in
  let header_len := if b0 =? STX2 then HDR2 else HDR1 in
  let* plen := rd data 1 in
  let n := Z.to_nat plen in
  let* c0 := rd data (header_len + n) in
  let* c1 := rd data (header_len + n + 1) in
  let crc_msg := u16 (Z.lor c0 (Z.shiftl c1 8)) in
  let* body := slice data 1 (header_len + n - 1) in
  let crc_calc := crc_accumulate (e_crc_extra e) (crc_calculate body) in
  Ok (crc_calc =? crc_msg).

(* endpoint.cpp:416-431: a target field, -1 when the message type has none *)
Definition target_of (data : list Z) (poff : nat) (plen : Z) (ofs : option nat) : res Z :=
  match ofs with
  | None => Ok (-1)
  | Some o => if Z.of_nat o <? plen then rd data (poff + o) else Ok 0
  end.

(* endpoint.cpp:437-453: sequence accounting *)
Definition seq_update (st : rstat) (sq : Z) : rstat :=
  let st1 :=
    if s_eseq st =? sq then st
    else if 1 <? s_total st then
      let diff := if s_eseq st <? sq then u8 (sq - s_eseq st)
                  else u8 ((255 - s_eseq st) + sq) in
      mkRstat (s_crc_err_bytes st) (s_handled_bytes st) (u32 (s_total st + diff))
              (s_crc_err st) (s_handled st) (u32 (s_drop st + diff)) sq
    else mkRstat (s_crc_err_bytes st) (s_handled_bytes st) (s_total st)
                 (s_crc_err st) (s_handled st) (s_drop st) sq
  in
  mkRstat (s_crc_err_bytes st1) (s_handled_bytes st1) (s_total st1)
          (s_crc_err st1) (s_handled st1) (s_drop st1) (u8 (s_eseq st1 + 1)).

(* endpoint.cpp:268-287: drop the packet returned by the previous call *)
Definition rx_begin (x : rx) : res rx :=
  if (rx_last x =? 0)%nat then Ok x
  else if (rx_last x <=? rx_len x)%nat then
    let len := (rx_len x - rx_last x)%nat in
    let* data := (if (0 <? len)%nat then memmove (rx_data x) 0 (rx_last x) len
                  else Ok (rx_data x)) in
    Ok (mkRx data len 0)
  else UB. (* the unsigned length would wrap and the memmove leave the buffer *)

(* endpoint.cpp:289-297: whether this call asks the OS for bytes *)
Definition needs_read (x : rx) : bool := (rx_last x =? 0)%nat.

(* endpoint.cpp:290-296: append what the OS delivers; at most the free space *)
Definition rx_fill (x : rx) (avail : list Z) : res rx :=
  let got := firstn (RXMAX - rx_len x) avail in
  let* data := blit (rx_data x) (rx_len x) got in
  Ok (mkRx data (rx_len x + length got) (rx_last x)).

(* endpoint.cpp:299-337: bring a start marker to the front; None = buffer discarded *)
Definition rx_sync (x : rx) : res (option rx) :=
  let* b0 := rd (rx_data x) 0 in
  if is_stx b0 then Ok (Some x)
  else
    let* p := find_stx (rx_data x) 1 (rx_len x - 1) in
    match p with
    | None => Ok None
    | Some i =>
        let len := (rx_len x - i)%nat in
        let* data := memmove (rx_data x) 0 i len in
        Ok (Some (mkRx data len (rx_last x)))
    end.

(* endpoint.cpp:339-458 *)
Definition rx_packet (tbl : table) (x : rx) (st : rstat) : res (rx * rstat * rmsg) :=
  let* b0 := rd (rx_data x) 0 in
  let v2 := b0 =? STX2 in
  let hlen := if v2 then HDR2 else HDR1 in
  if (rx_len x <? hlen)%nat then Ok (x, st, RetNone 0)
  else
    let* h := (if v2 then parse_hdr2 (rx_data x) else parse_hdr1 (rx_data x)) in
    if (rx_len x <? h_size h)%nat then Ok (x, st, RetNone 0)
    else
      let x' := mkRx (rx_data x) (rx_len x) (h_size h) in
      let st1 := mkRstat (s_crc_err_bytes st) (s_handled_bytes st) (u32 (s_total st + 1))
                         (s_crc_err st) (s_handled st) (s_drop st) (s_eseq st) in
      let* ok := (match tbl (h_id h) with
                  | Some e => check_crc (rx_data x) e
                  | None => Ok true
                  end) in
      if negb ok then
        Ok (x', mkRstat (u64 (s_crc_err_bytes st1 + Z.of_nat (h_size h))) (s_handled_bytes st1)
                        (s_total st1) (u32 (s_crc_err st1 + 1)) (s_handled st1) (s_drop st1)
                        (s_eseq st1), RetNone 0)
      else
        let st2 := mkRstat (s_crc_err_bytes st1) (u64 (s_handled_bytes st1 + Z.of_nat (h_size h)))
                           (s_total st1) (s_crc_err st1) (u32 (s_handled st1 + 1)) (s_drop st1)
                           (s_eseq st1) in
        let* ts := (match tbl (h_id h) with
                    | Some e => target_of (rx_data x) (h_poff h) (h_plen h) (e_tsys e)
                    | None => Ok (-1)
                    end) in
        let* tc := (match tbl (h_id h) with
                    | Some e => target_of (rx_data x) (h_poff h) (h_plen h) (e_tcomp e)
                    | None => Ok (-1)
                    end) in
        let m := mkInfo (h_id h) ts tc (h_sys h) (h_comp h) (h_plen h) (h_poff h) (h_size h) in
        let known := match tbl (h_id h) with Some _ => true | None => false end in
        Ok (x', seq_update st2 (h_seq h), RetMsg known m).

(* Endpoint::read_msg, endpoint.cpp:254-459.  The test of fd (263-266) is done by the
   caller in the model.  [rr] is what _read_msg returns if it is called; it is called iff
   [needs_read x]. *)
Definition read_msg (tbl : table) (x : rx) (st : rstat) (rr : rdres) : res (rx * rstat * rmsg) :=
  let* x1 := rx_begin x in
  let* x2 :=
    (if needs_read x then
       match rr with
       | RdFail r => Ok (None, r)
       | RdBytes avail =>
           match firstn (RXMAX - rx_len x1) avail with
           | [] => Ok (None, 0)
           | _ => let* y := rx_fill x1 avail in Ok (Some y, 0)
           end
       end
     else Ok (Some x1, 0)) in
  match x2 with
  | (None, r) => Ok (x1, st, RetNone r)
  | (Some x2, _) =>
      let* x3 := rx_sync x2 in
      match x3 with
      | None => Ok (mkRx (rx_data x2) 0 (rx_last x2), st, RetNone 0)
      | Some x3 => rx_packet tbl x3 st
      end
  end.

(* The read loop of Endpoint::handle_read (endpoint.cpp:220-252) with the routing of each
   packet left out: the packets are collected instead.  Only the first iteration can ask the OS
   for bytes.  [fuel] bounds the number of packets. *)
Fixpoint link_loop (fuel : nat) (tbl : table) (x : rx) (st : rstat) (rr : rdres)
  : res (rx * rstat * list (list Z * minfo) * Z) :=
  match fuel with
  | O => Fuel
  | S fuel' =>
      let* (x1, st1, r) := read_msg tbl x st rr in
      match r with
      | RetNone r => Ok (x1, st1, [], r)
      | RetMsg _ m =>
          let* pkt := slice (rx_data x1) 0 (m_len m) in
          let* (x2, st2, out, r2) := link_loop fuel' tbl x1 st1 (RdFail 0) in
          Ok (x2, st2, (pkt, m) :: out, r2)
      end
  end.

(* One readable event on a link: the OS has [avail] bytes ready. *)
Definition link_read (tbl : table) (x : rx) (st : rstat) (avail : list Z)
  : res (rx * rstat * list (list Z * minfo)) :=
  let* (x1, st1, out, _) := link_loop (rx_len x + length avail + 2) tbl x st (RdBytes avail) in
  Ok (x1, st1, out).

(* The bytes the router takes from the OS in that event. *)
Definition link_taken (x : rx) (avail : list Z) : list Z :=
  if needs_read x then firstn (RXMAX - rx_len x) avail else [].

(* A whole history of readable events: packets extracted and bytes taken. *)
Fixpoint link_run (tbl : table) (x : rx) (st : rstat) (evs : list (list Z))
  : res (rx * rstat * list (list Z * minfo) * list Z) :=
  match evs with
  | [] => Ok (x, st, [], [])
  | avail :: rest =>
      let* (x1, st1, out1) := link_read tbl x st avail in
      let* (x2, st2, out2, took2) := link_run tbl x1 st1 rest in
      Ok (x2, st2, out1 ++ out2, link_taken x avail ++ took2)
  end.

(* Endpoint::Endpoint, endpoint.cpp:195-206: a fresh link; malloc'ed contents are arbitrary. *)
Definition rx_fresh (junk : list Z) : rx := mkRx junk 0 0.
