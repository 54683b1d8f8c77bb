(** What zlib promises (zlib.h, "Basic functions"), for any implementation of it, and what a track
    compressed with zlib is.  Independent of the functions of Zlib.v. *)
From Verif Require Import Base Block Zlib.

(** [R st d]: the stream [st] still has the bytes [d] to give.  With room it gives as many of them as fit,
    in order.  It ends with the last one; when that one fills the room, it may end at the next call.  As
    long as it has not ended there is input left: the checksum of the stream. *)
Definition inflating (z : zlib) (R : zi z -> list Z -> Prop) : Prop :=
  forall st d n, R st d -> 0 < n -> let '(r, o, st') := z_icall z st n in
    (zlen d <= n /\ r = ZEnd /\ o = d) \/
    (n <= zlen d /\ r = ZOk /\ o = firstn (Z.to_nat n) d /\ 0 < z_ileft z st' /\ R st' (skipn (Z.to_nat n) d)).
(** [c] is a stream of the bytes [d]. *)
Definition inflates (z : zlib) (c d : list Z) : Prop := exists R st, inflating z R /\ z_istart z c = Some st /\ R st d.

(** [R st m]: the stream never ends, having at most [m] bytes to give: it is cut or damaged. *)
Definition failing (z : zlib) (R : zi z -> Z -> Prop) : Prop :=
  forall st m n, R st m -> 0 < n -> let '(r, o, st') := z_icall z st n in r <> ZEnd /\ zlen o <= n /\ zlen o <= m /\ R st' (m - zlen o).
Definition damaged (z : zlib) (c : list Z) (m : Z) : Prop :=
  z_istart z c = None \/ exists R st, failing z R /\ z_istart z c = Some st /\ R st m.

(** [R st c]: the stream [st] still has the compressed bytes [c] to give; without room, none and no end. *)
Definition deflating (z : zlib) (R : zo z -> list Z -> Prop) : Prop :=
  forall st c n, R st c -> 0 <= n -> let '(r, o, st') := z_ocall z st n in
    (0 < n /\ zlen c <= n /\ r = ZEnd /\ o = c) \/
    (n <= zlen c /\ r <> ZEnd /\ o = firstn (Z.to_nat n) c /\ R st' (skipn (Z.to_nat n) c)).
Definition deflates (z : zlib) (d c : list Z) : Prop := exists R st, deflating z R /\ z_ostart z d = Some st /\ R st c.

(** [e d]: what zlib makes of [d], from which it gives [d] again. *)
Definition codes (z : zlib) (e : list Z -> list Z) : Prop := forall d, deflates z d (e d) /\ inflates z (e d) d.

(** A track whose blocks are compressed with zlib: ContentCompAlgo 0 (the default) in the one
    ContentEncoding, on the blocks (bit 0 of ContentEncodingScope, 1 by default). *)
Inductive zlib_track : encodings -> Prop :=
| zt scope algo settings : match scope with Some x => Z.odd x = true | None => True end -> algo = None \/ algo = Some 0 ->
    zlib_track (Some [mkEnc true scope (Some (mkCompr algo settings))]).
