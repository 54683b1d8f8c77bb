(** Independent specification: the bitwise (reflected) IEEE 802.3 CRC-32. *)
From Verif Require Import Base.

Definition POLY : Z := 3988292384. (* 0xEDB88320 *)

(** shift one bit through the register *)
Definition crc_bit (c : Z) : Z := if Z.odd c then Z.lxor (Z.shiftr c 1) POLY else Z.shiftr c 1.

(** bits of a byte, least significant first (transmission order of this CRC) *)
Definition byte_bits (b : Z) : list bool := map (fun i => Z.testbit b (Z.of_nat i)) (seq 0 8).
Definition msg_bits (m : list Z) : list bool := flat_map byte_bits m.

Definition crc_bits (c : Z) (bits : list bool) : Z :=
  fold_left (fun c (b : bool) => crc_bit (Z.lxor c (Z.b2z b))) bits c.

(** CRC-32 of a message: all-ones start value, final complement *)
Definition crc32_ieee (m : list Z) : Z := Z.lxor (crc_bits 4294967295 (msg_bits m)) 4294967295.

(** byte reversal of a 32-bit word *)
Definition bswap32 (x : Z) : Z :=
  (x mod 256) * 2 ^ 24 + (x / 2 ^ 8 mod 256) * 2 ^ 16 + (x / 2 ^ 16 mod 256) * 2 ^ 8 + x / 2 ^ 24 mod 256.
