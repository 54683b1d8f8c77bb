(** Specification of EBML IDs: an n-byte ID (n = 1..4) keeps its length marker, i.e. as a
    big-endian number it lies in [2^(7n), 2^(7n+1)). *)
From Verif Require Import Base.

Definition valid_id_len (id n : Z) : Prop := 1 <= n <= 4 /\ 2 ^ (7 * n) <= id < 2 ^ (7 * n + 1).
Definition valid_id (id : Z) : Prop := exists n, valid_id_len id n.
Definition id_encodes (bs : list Z) (id : Z) : Prop :=
  bytes_ok bs /\ valid_id_len id (zlen bs) /\ be_val bs = id.
