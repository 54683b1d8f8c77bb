(** The CodecPrivate of a Vorbis track: the number of headers but one, the sizes of all headers but the last as in Xiph lacing, and the headers. *)
From Verif Require Import Base.
Definition xiph (l : Z) : list Z := repeat 255 (Z.to_nat (l / 255)) ++ [l mod 255].
Definition private (h1 h2 h3 : list Z) : list Z := [2] ++ xiph (zlen h1) ++ xiph (zlen h2) ++ h1 ++ h2 ++ h3.
