(** Element head (ID + coded size) and full size, libebml2/ebmlelement.c. *)
From Verif Require Import Base Vint EbmlId.

(** EBML_ElementFullSize, ebmlelement.c 120-125, for an element that is written
    (bWithDefault, or not a default value).  [sl] is SizeLength. *)
Definition full_size (id datasize sl : Z) (finite : bool) : Z :=
  datasize + get_id_length id + coded_size_length datasize sl finite.

(** EBML_ElementRenderHead, ebmlelement.c 302-326: the bytes written; [None] when
    EBML_CodedValueLength is called outside 1..8.  The position fields are modelled where used. *)
Definition render_head (id datasize sl : Z) (finite : bool) : option (list Z) :=
  match coded_value_length datasize (coded_size_length datasize sl finite) finite with
  | Some sz => Some (fill_buffer_id 12 id ++ sz)
  | None => None
  end.
