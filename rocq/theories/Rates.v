(** The text of a rate: corec/corec/helpers/parser/strtypes.c, ByteRateToString 162-178. *)
From Verif Require Import Base Tree BlockTime Str Printf Expr.

(** Scale32, corec/corec/helper.h 54-57: the arguments have 64 bits, the result is cut to an int. *)
Definition scale32 (v num den : Z) : res Z := do x <- scale64 v num den; Ok (s32 x).
(** What a printing function wrote, over the beginning of the buffer. *)
Definition over (out o : list Z) : list Z := o ++ skipn (length o) out.
(** 162-178: " Mbit/s" and " kbit/s".  [out] is the buffer before. *)
Definition byte_rate_to_string (out : list Z) (len rate : Z) : res (list Z) :=
  do kb <- scale32 rate 8 1000;
  if 1000 <=? kb then
    do o <- fraction_to_string len kb 1000 0 2;
    tcscat_s (over out o) len [32; 77; 98; 105; 116; 47; 115; 0]
  else
    do o <- int_to_string len kb false;
    tcscat_s (over out o) len [32; 107; 98; 105; 116; 47; 115; 0].
