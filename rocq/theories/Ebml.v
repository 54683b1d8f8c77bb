(** Element contexts and element headers, libebml2/ebml2/ebml.h and libebml2/ebmlmain.c. *)
From Verif Require Import Base Vint EbmlId.

(** INVALID_FILEPOS_T, corec/corec/portab.h. *)
Definition INVALID_FILEPOS : Z := -1.

(** Element classes: the Class of an ebml_context (ebml.h 33-48).  EBML_BOOLEAN_CLASS is an
    EBML_INTEGER_CLASS, EBML_DUMMY_ID an EBML_BINARY_CLASS (ebmlelement.c 73-75). *)
Inductive eclass := KMaster | KUInt | KSInt | KFloat | KString | KUni | KBinary | KDate | KVoid | KCrc | KDummy.

(** ebml_semantic, ebml.h 75-81; the context is referred to by an index in the schema. *)
Record sem := mkSem { s_mand : bool; s_uniq : bool; s_ctx : Z; s_dis : Z }.

(** Default value of a context: an integer, or the bytes of a C string. *)
Inductive dval := DInt (v : Z) | DStr (s : list Z).

(** ebml_context, ebml2/ebml_classes.h 19-29.  [c_sem] is [None] for a NULL Semantic table; the tables
    end with a NULL eClass in C, here they are lists. *)
Record ctx := mkCtx { c_id : Z; c_class : eclass; c_def : option dval; c_sem : option (list sem); c_glob : list sem }.

(** A schema gives the context of every index: contexts refer to each other by pointer in C, and
    may be recursive. *)
Definition schema := Z -> ctx.

(** What an element is an instance of: a context of the schema, or the private copy of
    EBML_ContextDummy carrying the ID found (ebmlmain.c 216-224). *)
Inductive kind := Known (c : Z) | Dummy (id : Z).
Definition kind_id (E : schema) (k : kind) : Z := match k with Known c => c_id (E c) | Dummy id => id end.
Definition kind_class (E : schema) (k : kind) : eclass := match k with Known c => c_class (E c) | Dummy _ => KDummy end.

(** The header fields of an ebml_element set by the finder (ebmlmain.c 591-625). *)
Record hdr := mkHdr { h_kind : kind; h_szlen : Z; h_dsize : Z; h_fin : bool; h_epos : Z; h_spos : Z; h_end : Z }.

(** EBML_ElementValidateSize: ebmlelement.c 11-14, ebmlnumber.c 195-203, ebmldate.c 25-28,
    ebmlcrc.c 136-139, ebmlbinary.c 70-73, ebmlmaster.c 598-601. *)
Definition validate_size (k : eclass) (fin : bool) (dsize : Z) : bool :=
  match k with
  | KMaster => true
  | KUInt | KSInt => fin && (dsize <=? 8)
  | KFloat => fin && ((dsize =? 8) || (dsize =? 4))
  | KDate => fin && ((dsize =? 8) || (dsize =? 0))
  | KCrc => fin && (dsize =? 4)
  | _ => fin
  end.

(** A parser context without its Profile (which only reaches PostCreate): context index and
    EndPosition; a chain lists the context and its UpContexts, innermost first. *)
Definition pctx := (Z * Z)%type.

(** ebmlmain.c 245-252: first entry of a semantic table with the given ID. *)
Definition find_sem (E : schema) (id : Z) (l : list sem) : option sem :=
  find (fun s => c_id (E (s_ctx s)) =? id) l.

(** CreateElement, ebmlmain.c 206-232: the kind of the element made for [id] in context [c]. *)
Definition create_element (E : schema) (id : Z) (c : Z) : kind :=
  if c_id (E c) =? id then Known c else Dummy id.

(** EBML_ElementCreateUsingContext, ebmlmain.c 234-299, with the ID already read from the buffer:
    the kind created and *LowLevel.  Simplifications: the recursion on the temporary context of the
    global elements (lines 260-276) is inlined (its Semantic is its GlobalContext, so it stops at
    line 256); no context of the library has Semantic == GlobalContext; creation does not fail for
    lack of memory. *)
Fixpoint create_using (E : schema) (chain : list pctx) (id idlen : Z) (allow : bool) (low : Z) : option (kind * Z) :=
  match chain with
  | [] => None
  | (c, _) :: up =>
      match c_sem (E c) with
      | None => None
      | Some l =>
          match find_sem E id l with
          | Some s => Some (Known (s_ctx s), low)
          | None =>
              match find_sem E id (c_glob (E c)) with
              | Some s => Some (Known (s_ctx s), low - 1)
              | None =>
                  match up with
                  | _ :: _ => create_using E up id idlen allow (low + 1)
                  | [] => if allow && negb (idlen =? 0) then Some (create_element E id c, 0) else None
                  end
              end
          end
      end
  end.
