(** A Void element of [n] bytes: ID 0xEC, a finite coded size, that many zero bytes. *)
From Verif Require Import Base VintSpec.

Definition void_bytes (bs : list Z) (payload : Z) : Prop :=
  exists sz, bs = 236 :: sz ++ repeat 0 (Z.to_nat payload) /\ vint_spec sz payload /\
    payload <> vint_reserved (zlen sz).

(** [size_class k n]: n needs exactly k bytes as a coded size (k = 5 is the largest). *)
Definition size_class (k n : Z) : Prop := 1 <= k <= 5 /\ 2 ^ (7 * (k - 1)) - 1 <= n < 2 ^ (7 * k) - 1.

(** Requested sizes for which the payload falls in the class below. *)
Definition void_short (n : Z) : Prop := exists k, 1 <= k <= 4 /\ 2 ^ (7 * k) - 1 <= n <= 2 ^ (7 * k) + k.
