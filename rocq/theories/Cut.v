(** Clients that write a row of elements to a file and read the elements of a file one after the other. *)
From Verif Require Import Base EbmlId Ebml Stream Finder Tree TreeRead.

Section Cut.
Context (E : schema) (narrow widen : Z -> Z) (flt_is : Z -> Z -> bool) (alloc : Z -> list Z) (wd keep : bool).
Context (char_signed : bool) (junk : Z -> list Z) (junk0 junkcrc : Z) (allow : bool).

(** EBML_ElementRender called for element after element, as in mkclean.c 3046-3108 for the level 1
    elements: the first error ends it. *)
Fixpoint render_all (l : list elt) (o : ost) : res (Z * ost) :=
  match l with
  | [] => Ok (ERR_NONE, o)
  | e :: l =>
      do t <- element_render E narrow flt_is true alloc wd keep e o;
      let '(err, _, _, o) := t in
      if negb (err =? ERR_NONE) then Ok (err, o) else render_all l o
  end.

(** The loop of mkclean.c 1790-1852: EBML_FindNextElement, then EBML_ElementReadData with
    SCOPE_ALL_DATA; what is read without an error is kept, the rest dropped.  Simplified: every element
    is read (mkclean.c chooses by type), and an element of an upper level ends the loop. *)
Fixpoint read_all (fuel depth : nat) (s : ist) (chain : list pctx) (acc : list elt) (pos : Z) : res (list elt * Z) :=
  match fuel with
  | O => Fuel
  | S fuel =>
      do r <- find_on E junk allow s pos chain;
      match r with
      | FBad => Bad
      | FNull _ p => Ok (rev acc, p)
      | FElt h u p =>
          if 0 <? u then Ok (rev acc, p)
          else
            do t <- read_data E widen char_signed true junk junk0 junkcrc allow false fuel depth s chain (of_hdr E h) p;
            let '(err, e, p) := t in
            read_all fuel depth s chain (if err =? ERR_NONE then e :: acc else acc) p
      end
  end.
End Cut.
