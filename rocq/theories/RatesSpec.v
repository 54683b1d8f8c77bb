(** What is told of a rate of [bits] bits in a second. *)
From Verif Require Import Base PrintfSpec ExprSpec.
(** From a million on: hundredths of a million, rounded half up from the exact number of bits; below: thousands, cut towards 0. *)
Definition rate_text (bits : Z) : list Z :=
  if 1000000 <=? bits then fixed_point 2 ((bits + 5000) / 10000) ++ [32; 77; 98; 105; 116; 47; 115]
  else decimal (Z.sgn bits * (Z.abs bits / 1000)) ++ [32; 107; 98; 105; 116; 47; 115].
