(** The data of binary elements over their lives: EBML_BinarySetData, EBML_BinaryGetData, reading,
    writing, copying and deleting them; libebml2/ebmlbinary.c, with the parts of ebmlelement.c,
    ebmlmain.c and array.c those calls go through.

    Every call that asks for storage carries whether the allocation succeeds; [junk] is what fresh memory
    holds.  size_t and filepos_t are 64 bits wide.  DefaultSize is the -1 of ebmlelement.c 18, so that
    nothing is padded.  The data handed to EBML_BinarySetData lies outside of the element.  Built with
    NDEBUG. *)
From Verif Require Import Base Ebml Stream Tree Arr.

(** ebml_binary (ebml2/ebml.h) with the fields of its base used here. *)
Record belt := BElt { b_set : bool; b_need : bool; b_size : Z; b_data : barr }.
Record bmem := BMem { bm_elts : nat -> option belt; bm_made : nat }.
Definition bm_start : bmem := BMem (fun _ => None) 0.
Definition bput (m : bmem) (k : nat) (e : option belt) : bmem :=
  BMem (fun j => if Nat.eqb j k then e else bm_elts m j) (bm_made m).

(** ArrayResize with Align 0, array.c 254-260, and ArrayAlloc, 182-189, with the wrap of size_t in
    SizeAlign, 170-180.  An allocator gives no block of 2^62 bytes, so that the two flags kept in the
    size (lines 12-13) are free.  [None] when there is no memory; the array is then as it was. *)
Definition MALLOC_MAX : Z := 2 ^ 62.
Definition resize64 (ok : bool) (junk : Z) (a : barr) (total : Z) : option barr :=
  if zlen (mem a) <? total then
    let n := size_align total 0 mod 2 ^ 64 in
    match data_realloc (ok && (n <? MALLOC_MAX)) junk a n with
    | None => None
    | Some a => Some (mkArr (mem a) total)
    end
  else Some (mkArr (mem a) total).

(** EBML_BinarySetData, ebmlbinary.c 107-116; [None] for an access outside the storage. *)
Definition b_set_data (e : belt) (d : list Z) (ok : bool) (junk : Z) : option (belt * Z) :=
  match resize64 ok junk (b_data e) (zlen d) with
  | None => Some (e, ERR_OUT_OF_MEMORY)
  | Some a =>
      match mem_put (mem a) 0 d with
      | None => None
      | Some m => Some (BElt true false (zlen d) (mkArr m (used a)), ERR_NONE)
      end
  end.

(** ReadData, ebmlbinary.c 9-40: [src] is what the stream holds from the data of the element on, or
    [None] when the seek fails.  The test of lines 25-29 is never true with these widths.  A stream that
    ends early fills what it can. *)
Definition b_read (e : belt) (nodata : bool) (src : option (list Z)) (ok : bool) (junk : Z) : option (belt * Z) :=
  let e0 := BElt false (b_need e) (b_size e) (b_data e) in
  if nodata then Some (e0, ERR_NONE)
  else match src with
  | None => Some (e0, ERR_READ)
  | Some src =>
      let n := b_size e mod 2 ^ 64 in
      match resize64 ok junk (b_data e) n with
      | None => Some (e0, ERR_OUT_OF_MEMORY)
      | Some a =>
          match mem_put (mem a) 0 (firstn (Z.to_nat (Z.min n (zlen src))) src) with
          | None => None
          | Some m =>
              if zlen src <? n then Some (BElt false (b_need e) (b_size e) (mkArr m (used a)), ERR_END_OF_FILE)
              else Some (BElt true (b_need e) (b_size e) (mkArr m (used a)), ERR_NONE)
          end
      end
  end.

(** EBML_BinaryGetData, ebmlbinary.c 118-123: NULL, or the bytes at the pointer as far as the array
    says there are; [None] when they are not all in the storage. *)
Definition b_get (e : belt) : option (option (list Z)) :=
  if used (b_data e) =? 0 then Some None
  else match mem_get (mem (b_data e)) 0 (used (b_data e)) with None => None | Some l => Some (Some l) end.

(** UpdateDataSize, ebmlbinary.c 63-68, and the inherited one, ebmlelement.c 33-46; IsDefaultValue, 58-61,
    is always false. *)
Definition b_update (e : belt) : belt * Z :=
  (BElt (b_set e) false (used (b_data e)) (b_data e), used (b_data e)).
(** EBML_ElementRender, ebmlelement.c 258-300, with NeedsDataSizeUpdate, 24-31, and RenderData,
    ebmlbinary.c 43-50: the size the head announces and the bytes behind it, or nothing for
    ERR_INVALID_DATA. *)
Definition b_render (e : belt) : option (belt * option (Z * list Z)) :=
  if negb (b_set e) then Some (e, None)
  else
    let e := if b_need e then fst (b_update e) else e in
    match mem_get (mem (b_data e)) 0 (used (b_data e)) with
    | None => None
    | Some l => Some (e, Some (b_size e, l))
    end.

(** A new element: Create, ebmlelement.c 48-53; NodeCreate clears the memory. *)
Definition b_new (n : Z) : belt := BElt false true n (mkArr [] 0).
(** Copy, ebmlbinary.c 75-90: the result of ArrayCopy is not looked at. *)
Definition b_copy (e : belt) (ok : bool) (junk : Z) : option belt :=
  let give a := Some (BElt (b_set e) (b_need e) (b_size e) a) in
  match resize64 ok junk (mkArr [] 0) (used (b_data e)) with
  | None => give (mkArr [] 0)
  | Some a =>
      match mem_get (mem (b_data e)) 0 (used (b_data e)) with
      | None => None
      | Some l => match mem_put (mem a) 0 l with None => None | Some m => give (mkArr m (used a)) end
      end
  end.

(** The calls a program makes.  Elements are named in the order they are made. *)
Inductive bcall :=
| BCreate                                        (* EBML_ElementCreate *)
| BFound (n : Z)                                 (* the element of a head read with [n] bytes of data, -1: unknown *)
| BSet (k : nat) (d : list Z) (ok : bool) (junk : Z)
| BRead (k : nat) (nodata : bool) (src : option (list Z)) (ok : bool) (junk : Z)
| BGet (k : nat)
| BUpdate (k : nat)
| BRender (k : nat)
| BCopy (k : nat) (made ok : bool) (junk : Z)   (* is the node made, is there memory for the data *)
| BDelete (k : nat).
Inductive breply :=
| PNew (k : option nat) | PCode (c : Z) | PData (d : option (list Z)) | PSize (n : Z) | PBytes (b : option (Z * list Z)) | PNone.

Definition badd (m : bmem) (e : belt) : bmem * breply :=
  (BMem (fun j => if Nat.eqb j (bm_made m) then Some e else bm_elts m j) (S (bm_made m)), PNew (Some (bm_made m))).

(** One call; on an element that is not there, nothing is done.  [None]: an access outside the storage of
    the element.  The element of a head read: ebmlmain.c 234-253.  Delete, ebmlbinary.c 53-56. *)
Definition bstep (m : bmem) (o : bcall) : option (bmem * breply) :=
  let on k (f : belt -> option (bmem * breply)) := match bm_elts m k with None => Some (m, PNone) | Some e => f e end in
  match o with
  | BCreate => Some (badd m (b_new INVALID_FILEPOS))
  | BFound n => Some (badd m (b_new n))
  | BSet k d ok junk => on k (fun e => match b_set_data e d ok junk with None => None | Some (e, c) => Some (bput m k (Some e), PCode c) end)
  | BRead k nd src ok junk => on k (fun e => match b_read e nd src ok junk with None => None | Some (e, c) => Some (bput m k (Some e), PCode c) end)
  | BGet k => on k (fun e => match b_get e with None => None | Some d => Some (m, PData d) end)
  | BUpdate k => on k (fun e => let (e, n) := b_update e in Some (bput m k (Some e), PSize n))
  | BRender k => on k (fun e => match b_render e with None => None | Some (e, b) => Some (bput m k (Some e), PBytes b) end)
  | BCopy k made ok junk =>
      on k (fun e => if made then match b_copy e ok junk with None => None | Some e => Some (badd m e) end else Some (m, PNew None))
  | BDelete k => on k (fun e => Some (bput m k None, PNone))
  end.
