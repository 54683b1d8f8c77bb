(** The storage of string elements over their lives: EBML_StringSetValue, EBML_StringGet, reading,
    writing, copying and deleting them; libebml2/ebmlstring.c, with the parts of ebmlelement.c and
    ebmlmain.c those calls go through.

    Storage is a table of blocks by number.  A block is never given out twice, so that a second free and
    the use of a freed block are seen.  Every call that asks for storage carries whether the allocation
    succeeds.  size_t and filepos_t are 64 bits wide; texts are below 2 GB, so that the (int) of lines
    103-109 keeps the size, and the DefaultSize of a string is the -1 of ebmlelement.c 18, so that
    nothing is padded.  Built with NDEBUG. *)
From Verif Require Import Base Ebml Stream Tree.

(** What goes wrong in a call, or its result. *)
Inductive out (A : Type) := WrongFree | WrongRead | NullRead | Done (a : A).
Arguments WrongFree {A}. Arguments WrongRead {A}. Arguments NullRead {A}. Arguments Done {A} a.
Definition obind {A B} (x : out A) (f : A -> out B) : out B :=
  match x with WrongFree => WrongFree | WrongRead => WrongRead | NullRead => NullRead | Done a => f a end.
Notation "'let!' p ':=' x 'in' k" := (obind x (fun p => k)) (at level 200, p pattern, k at level 200).

(** ebml_string (ebml2/ebml.h) with the fields of its base used here. *)
Record selt := SElt { s_def : option (list Z); s_set : bool; s_need : bool; s_size : Z; s_buf : option nat }.
Definition tbl (A : Type) := nat -> option A.
Definition put {A} (t : tbl A) (k : nat) (v : option A) : tbl A := fun j => if Nat.eqb j k then v else t j.
Record smem := SMem { m_blocks : tbl (list Z); m_next : nat; m_elts : tbl selt; m_made : nat }.
Definition sm_start : smem := SMem (fun _ => None) 0 (fun _ => None) 0.
Definition with_elt (m : smem) (k : nat) (e : option selt) : smem :=
  SMem (m_blocks m) (m_next m) (put (m_elts m) k e) (m_made m).

(** free(): a NULL pointer is accepted. *)
Definition sfree (m : smem) (b : option nat) : out smem :=
  match b with
  | None => Done m
  | Some b =>
      match m_blocks m b with
      | None => WrongFree
      | Some _ => Done (SMem (put (m_blocks m) b None) (m_next m) (m_elts m) (m_made m))
      end
  end.
(** malloc() and the filling of the block that follows it. *)
Definition salloc (m : smem) (ok : bool) (bytes : list Z) : smem * option nat :=
  if ok then (SMem (put (m_blocks m) (m_next m) (Some bytes)) (S (m_next m)) (m_elts m) (m_made m), Some (m_next m))
  else (m, None).

(** The bytes before the terminator; [None] when there is none in the block. *)
Fixpoint ctext (l : list Z) : option (list Z) :=
  match l with [] => None | c :: l => if c =? 0 then Some [] else option_map (cons c) (ctext l) end.
(** A read of the text of a buffer. *)
Definition stext (m : smem) (b : option nat) : out (list Z) :=
  match b with
  | None => NullRead
  | Some b =>
      match m_blocks m b with
      | None => WrongRead
      | Some l => match ctext l with None => WrongRead | Some t => Done t end
      end
  end.
(** A read of [n] bytes of a buffer; no byte of a NULL buffer is read for 0 bytes. *)
Definition sbytes (m : smem) (b : option nat) (n : Z) : out (list Z) :=
  match b with
  | None => if n =? 0 then Done [] else NullRead
  | Some b =>
      match m_blocks m b with
      | None => WrongRead
      | Some l => if (0 <=? n) && (n <=? zlen l) then Done (firstn (Z.to_nat n) l) else WrongRead
      end
  end.
(** strncpy(dst,src,n); [None] when it runs out of the source. *)
Fixpoint scopy (src : list Z) (n : nat) : option (list Z) :=
  match n with
  | O => Some []
  | S n => match src with [] => None | c :: s => if c =? 0 then Some (repeat 0 (S n)) else option_map (cons c) (scopy s n) end
  end.

(** EBML_StringSetValue, ebmlstring.c 22-34; [s] is the text before the terminator. *)
Definition set_value (m : smem) (e : selt) (s : list Z) (ok : bool) : out (smem * selt * Z) :=
  let! m := (if s_set e then sfree m (s_buf e) else Done m) in
  let (m, b) := salloc m ok (s ++ [0]) in
  match b with
  | None => Done (m, SElt (s_def e) (s_set e) (s_need e) (zlen s) None, ERR_OUT_OF_MEMORY)
  | Some b => Done (m, SElt (s_def e) true false (zlen s) (Some b), ERR_NONE)
  end.

(** A new element: Create, ebmlelement.c 48-53, with the buffer NULL (NodeCreate clears the memory). *)
Definition new_elt (d : option (list Z)) : selt := SElt d false true INVALID_FILEPOS None.
(** EBML_ElementCreate, ebmlmain.c 191-204, with the PostCreate of strings, ebmlstring.c 175-187. *)
Definition create_elt (m : smem) (d : option (list Z)) (sd : bool) (ok : bool) : out (smem * selt) :=
  match sd, d with
  | true, Some s => let! (m, e, _) := set_value m (new_elt d) s ok in Done (m, e)
  | _, _ => Done (m, new_elt d)
  end.

(** ReadData, ebmlstring.c 52-94: [src] is what the stream holds from the data of the element on, or
    [None] when the seek fails.  A size of -1, an element whose size is not known, is refused at line 70. *)
Definition read_data (m : smem) (e : selt) (nodata : bool) (src : option (list Z)) (ok : bool) : out (smem * selt * Z) :=
  let e0 := SElt (s_def e) false (s_need e) (s_size e) (s_buf e) in
  let failed m b err :=
    let! m := sfree m b in Done (m, SElt (s_def e) false (s_need e) (s_size e) None, err) in
  if nodata then Done (m, e0, ERR_NONE)
  else match src with
  | None => failed m None ERR_READ
  | Some src =>
      if 2 ^ 64 - 2 <? s_size e mod 2 ^ 64 then failed m None ERR_OUT_OF_MEMORY
      else
        let (m, b) := salloc m ok (firstn (Z.to_nat (s_size e)) src ++ [0]) in
        match b with
        | None => Done (m, e0, ERR_OUT_OF_MEMORY)
        | Some b =>
            if zlen src <? s_size e then failed m (Some b) ERR_END_OF_FILE
            else Done (m, SElt (s_def e) true (s_need e) (s_size e) (Some b), ERR_NONE)
        end
  end.

(** EBML_StringGet, ebmlstring.c 36-50, as the text handed to the conversion. *)
Definition get_text (m : smem) (e : selt) : out (list Z) :=
  match s_buf e with None => Done [] | b => stext m b end.

(** IsDefaultValue, ebmlstring.c 170-173. *)
Definition is_def (m : smem) (e : selt) : out bool :=
  match s_def e with
  | None => Done false
  | Some d => if negb (s_set e) then Done true else let! t := stext m (s_buf e) in Done (if list_eq_dec Z.eq_dec t d then true else false)
  end.
(** NeedsDataSizeUpdate, ebmlelement.c 24-31. *)
Definition needs (m : smem) (e : selt) (wd : bool) : out bool :=
  if negb (s_need e) then Done false
  else if wd then Done true else let! b := is_def m e in Done (negb b).
(** UpdateDataSize, ebmlstring.c 154-168, and the inherited one, ebmlelement.c 33-46. *)
Definition update_size (m : smem) (e : selt) (wd : bool) : out (selt * Z) :=
  let! n := needs m e wd in
  let! e := (if n then let! t := stext m (s_buf e) in Done (SElt (s_def e) (s_set e) (s_need e) (zlen t) (s_buf e)) else Done e) in
  let! d := (if wd then Done false else is_def m e) in
  if d then Done (e, 0) else Done (SElt (s_def e) (s_set e) false (s_size e) (s_buf e), s_size e).
(** EBML_ElementRender, ebmlelement.c 258-300, up to the bytes of RenderData, ebmlstring.c 97-115: the
    bytes, or [None] for ERR_INVALID_DATA. *)
Definition render (m : smem) (e : selt) (wd : bool) : out (selt * option (list Z)) :=
  let! g := (if s_set e then Done true else if wd then is_def m e else Done false) in
  if negb g then Done (e, None)
  else
    let! d := (if wd then Done false else is_def m e) in
    if d then Done (e, None)
    else
      let! n := needs m e wd in
      let! e := (if n then let! (e, _) := update_size m e wd in Done e else Done e) in
      let! bs := sbytes m (s_buf e) (s_size e) in
      Done (e, Some bs).

(** Copy, ebmlstring.c 189-210, after EBML_ElementCreate without default; the new element, or [None]. *)
Definition copy_elt (m : smem) (e : selt) (ok : bool) : out (smem * option selt) :=
  let n := Z.to_nat (s_size e + 1) in
  let! bytes := (if negb ok then Done [] else
                 match n, s_buf e with
                 | O, _ => Done []
                 | _, None => NullRead
                 | _, Some b =>
                     match m_blocks m b with
                     | None => WrongRead
                     | Some l => match scopy l n with None => WrongRead | Some r => Done r end
                     end
                 end) in
  let (m, b) := salloc m ok bytes in
  match b with
  | None => Done (m, None)
  | Some b => Done (m, Some (SElt (s_def e) (s_set e) (s_need e) (s_size e) (Some b)))
  end.

(** The calls a program makes.  Elements are named in the order they are made. *)
Inductive call :=
| OCreate (d : option (list Z)) (sd ok : bool)  (* EBML_ElementCreate *)
| OFound (d : option (list Z)) (n : Z)          (* the element of a head read with [n] bytes of data *)
| OSet (k : nat) (s : list Z) (ok : bool)
| ORead (k : nat) (nodata : bool) (src : option (list Z)) (ok : bool)
| OGet (k : nat)
| OUpdate (k : nat) (wd : bool)
| ORender (k : nat) (wd : bool)
| OCopy (k : nat) (ok : bool)
| ODelete (k : nat).
Inductive reply :=
| RNew (k : option nat) | RCode (c : Z) | RText (t : list Z) | RSize (n : Z) | RBytes (b : option (list Z)) | RNone.

Definition add_elt (m : smem) (e : option selt) : smem * reply :=
  match e with
  | None => (m, RNew None)
  | Some _ => (SMem (m_blocks m) (m_next m) (put (m_elts m) (m_made m) e) (S (m_made m)), RNew (Some (m_made m)))
  end.

(** One call; on an element that is not there, nothing is done.  The element of a head read: EBML_ElementCreate
    without default and DataSize set, ebmlmain.c 234-253. *)
Definition step (m : smem) (o : call) : out (smem * reply) :=
  let on k (f : selt -> out (smem * reply)) := match m_elts m k with None => Done (m, RNone) | Some e => f e end in
  match o with
  | OCreate d sd ok => let! (m, e) := create_elt m d sd ok in Done (add_elt m (Some e))
  | OFound d n => Done (add_elt m (Some (SElt d false true n None)))
  | OSet k s ok => on k (fun e => let! (m, e, c) := set_value m e s ok in Done (with_elt m k (Some e), RCode c))
  | ORead k nd src ok => on k (fun e => let! (m, e, c) := read_data m e nd src ok in Done (with_elt m k (Some e), RCode c))
  | OGet k => on k (fun e => let! t := get_text m e in Done (m, RText t))
  | OUpdate k wd => on k (fun e => let! (e, n) := update_size m e wd in Done (with_elt m k (Some e), RSize n))
  | ORender k wd => on k (fun e => let! (e, b) := render m e wd in Done (with_elt m k (Some e), RBytes b))
  | OCopy k ok => on k (fun e => let! (m, e) := copy_elt m e ok in Done (add_elt m e))
  | ODelete k => on k (fun e => let! m := sfree m (s_buf e) in Done (with_elt m k None, RNone))
  end.
