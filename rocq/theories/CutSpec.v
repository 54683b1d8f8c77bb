(** What a file that ends too early still says: specification, independent of how it is read. *)
From Verif Require Import Base VintSpec EbmlIdSpec Ebml FinderSpec Tree TreeSpec.

Section Spec.
Context (E : schema) (narrow widen : Z -> Z) (flt_is : Z -> Z -> bool) (wd : bool).
(** The file as it should be and the number of its bytes that are there. *)
Context (f : list Z) (L : Z).
Notation omitted := (omitted E flt_is wd).
Notation enc := (enc E narrow flt_is wd).
Notation same := (same E narrow widen flt_is wd f).

(** The bytes [bs] lie in the file at [p]. *)
Definition lies (p : Z) (bs : list Z) : Prop := 0 <= p /\ slice f p (zlen bs) = bs /\ p + zlen bs <= zlen f.
(** The element [e] starts at [p] with an identifier and a size of [h] bytes together, and takes [n]
    more bytes. *)
Definition placed (e : elt) (p h n : Z) : Prop :=
  exists idb szb rest, enc e (idb ++ szb ++ rest) /\ lies p (idb ++ szb ++ rest) /\
    id_encodes idb (eid_of E (einfo e)) /\ vint_spec szb n /\ h = zlen idb + zlen szb /\ n = zlen rest.
(** The same element, at the place where it was written. *)
Definition kept (e e' : elt) (p h n : Z) : Prop :=
  e_kind (einfo e') = e_kind (einfo e) /\ e_epos (einfo e') = p /\ e_end (einfo e') = p + h + n /\ e_dsize (einfo e') = n.

(** What is left of the elements of a list that lie one after the other from [p] on. *)
Inductive left_of : list elt -> Z -> list elt -> Prop :=
| left_end p : left_of [] p []
(** left out when it was written *)
| left_omit d l p l' : omitted d = true -> left_of l p l' -> left_of (d :: l) p l'
(** complete *)
| left_whole d d' l l' p h n : omitted d = false -> placed d p h n -> p + h + n <= L -> same d d' -> e_end (einfo d') = p + h + n ->
    left_of l (p + h + n) l' -> left_of (d :: l) p (d' :: l')
(** cut: nothing that follows is left *)
| left_cut d l p o : omitted d = false -> rest_of d p o -> left_of (d :: l) p (match o with Some d' => [d'] | None => [] end)
(** What is left of an element that starts at [p] and is not complete. *)
with rest_of : elt -> Z -> option elt -> Prop :=
(** its identifier and size are not complete *)
| rest_head e p h n : placed e p h n -> L < p + h -> rest_of e p None
(** a value that is not complete is lost *)
| rest_value i v p h n : placed (Leaf i v) p h n -> kind_class E (e_kind i) <> KVoid -> p + h <= L < p + h + n -> rest_of (Leaf i v) p None
(** a Void element has no value *)
| rest_void i i' p h n : placed (Leaf i VNone) p h n -> kind_class E (e_kind i) = KVoid -> p + h <= L < p + h + n ->
    kept (Leaf i VNone) (Leaf i' VNone) p h n -> rest_of (Leaf i VNone) p (Some (Leaf i' VNone))
(** a master keeps what is left of its children *)
| rest_master i i' chk ch ch' p h n : placed (Master i chk ch) p h n -> chk = 0 -> p + h <= L < p + h + n ->
    kept (Master i chk ch) (Master i' 0 ch') p h n -> e_set i' = true ->
    left_of ch (p + h) ch' -> rest_of (Master i chk ch) p (Some (Master i' 0 ch'))
(** its checksum is not complete *)
| rest_sum_cut i i' chk ch p h n : placed (Master i chk ch) p h n -> chk <> 0 -> p + h <= L < p + h + 6 ->
    kept (Master i chk ch) (Master i' 0 []) p h n -> e_set i' = true -> rest_of (Master i chk ch) p (Some (Master i' 0 []))
(** its checksum is complete: it stays as an element, and does not count as verified *)
| rest_sum i i' ic sum chk ch ch' p h n : placed (Master i chk ch) p h n -> chk <> 0 -> p + h + 6 <= L < p + h + n ->
    kept (Master i chk ch) (Master i' 0 (Leaf ic (VCrc sum) :: ch')) p h n -> e_set i' = true -> eid_of E ic = 191 -> e_epos ic = p + h ->
    left_of ch (p + h + 6) ch' -> rest_of (Master i chk ch) p (Some (Master i' 0 (Leaf ic (VCrc sum) :: ch'))).

(** The elements whose encodings are complete, in order. *)
Inductive complete : list elt -> Z -> list elt -> Prop :=
| complete_end p : complete [] p []
| complete_omit d l p l' : omitted d = true -> complete l p l' -> complete (d :: l) p l'
| complete_whole d l l' p h n : omitted d = false -> placed d p h n -> p + h + n <= L -> complete l (p + h + n) l' -> complete (d :: l) p (d :: l')
| complete_cut d l p h n : omitted d = false -> placed d p h n -> L < p + h + n -> complete (d :: l) p [].
End Spec.
