(** Bytes that begin with no whole size. *)
From Verif Require Import Base VintSpec.
Definition no_vint (buf : list Z) : Prop := ~ exists bs rest v, buf = bs ++ rest /\ vint_spec bs v.
