(** Independent specification of EBML variable-length integers: an n-byte encoding of v is the
    n-byte big-endian number 2^(7n) + v with 0 <= v < 2^(7n). *)
From Verif Require Import Base.

Definition vint_spec (bs : list Z) (v : Z) : Prop :=
  bytes_ok bs /\ 1 <= zlen bs <= 8 /\
  0 <= v < 2 ^ (7 * zlen bs) /\ be_val bs = 2 ^ (7 * zlen bs) + v.

(** The value reserved to mean "unknown" on n bytes. *)
Definition vint_reserved (n : Z) : Z := 2 ^ (7 * n) - 1.
