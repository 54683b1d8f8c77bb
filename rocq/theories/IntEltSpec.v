From Verif Require Import Base.

(** int64_t range *)
Definition is_int64 (v : Z) : Prop := - 2 ^ 63 <= v < 2 ^ 63.
(** Two's complement value of a big-endian byte string. *)
Definition twos_val (bs : list Z) : Z :=
  let u := be_val bs in if 2 * u <? 256 ^ zlen bs then u else u - 256 ^ zlen bs.
(** n bytes are enough for an unsigned / signed value. *)
Definition ufits (v n : Z) : Prop := 0 <= v < 256 ^ n.
Definition sfits (v n : Z) : Prop := - 256 ^ n <= 2 * v < 256 ^ n.
(** least n in 1..8 with P n *)
Definition least_size (P : Z -> Prop) (n : Z) : Prop :=
  1 <= n <= 8 /\ P n /\ forall m, 1 <= m < n -> ~ P m.
