(* Specification of the MAVLink checksum: CRC-16/MCRF4XX as a bit-serial
   shift register (reflected polynomial x^16+x^12+x^5+1, i.e. 0x8408). *)
From Verif Require Import Base.

(* One bit enters the register. *)
Definition crc_bit (s : Z) (b : bool) : Z :=
  Z.lxor (Z.shiftr s 1) (if xorb (Z.testbit s 0) b then 33800 (* 0x8408 *) else 0).

(* The bits of a byte, least significant first (order on the wire). *)
Definition byte_bits (b : Z) : list bool :=
  map (fun i => Z.testbit b (Z.of_nat i)) (seq 0 8).

Definition bits (l : list Z) : list bool := flat_map byte_bits l.

Definition crc_spec (l : list Z) : Z := fold_left crc_bit (bits l) 65535.

(* Two bit strings of the same length that differ, and differ only inside a
   window of 16 consecutive positions. *)
Definition burst16 (l1 l2 : list bool) : Prop :=
  l1 <> l2 /\
  exists pre w1 w2 post,
    l1 = pre ++ w1 ++ post /\ l2 = pre ++ w2 ++ post /\
    length w1 = length w2 /\ (length w1 <= 16)%nat.
