(** Element trees: creation, size update, rendering; libebml2/ebmlelement.c, ebmlmaster.c, ebmlnumber.c,
    ebmlstring.c, ebmlbinary.c, ebmldate.c, ebmlcrc.c, ebmlvoid.c.

    Built with NDEBUG (assertions off).  A tree is a value: parent pointers and sharing are modelled in
    NodeTree.v.  filepos_t is unbounded. *)
From Verif Require Import Base Vint EbmlId IntElt Crc EltHead Void Ebml Arr Stream.

(** ERR_OUT_OF_MEMORY and ERR_READ, corec/corec/err.h 18, 37. *)
Definition ERR_OUT_OF_MEMORY : Z := -2.
Definition ERR_READ : Z := -21.

(** Outcome of a function that may leave the model: [Bad] is an access outside an allocation or a read
    of bytes never stored, [Null] the dereference of a NULL pointer; [Fuel] is recursion cut short. *)
Inductive res (A : Type) := Fuel | Bad | Null | Ok (a : A).
Arguments Fuel {A}. Arguments Bad {A}. Arguments Null {A}. Arguments Ok {A} a.
Definition bind {A B} (r : res A) (f : A -> res B) : res B :=
  match r with Fuel => Fuel | Bad => Bad | Null => Null | Ok a => f a end.
Notation "'do' p <- r ; k" := (bind r (fun p => k)) (at level 200, p pattern, r at level 100, k at level 200).
Definition opt_res {A} (o : option A) : res A := match o with Some a => Ok a | None => Bad end.

(** ebml_element, ebml2/ebml_classes.h 31-43, and the EBML_ELEMENT_INFINITESIZE data. *)
Record info := mkInfo {
  e_kind : kind; e_set : bool; e_need : bool; e_fin : bool;
  e_dsize : Z; e_defsz : Z; e_szlen : Z; e_epos : Z; e_spos : Z; e_end : Z }.

(** ebml_integer, ebml_float (the IEEE pattern of the double), ebml_string (the allocated buffer,
    terminator included; [None] is NULL), ebml_binary, ebml_crc; [VNone] for Void. *)
Inductive val := VInt (v : Z) | VFlt (bits : Z) | VStr (buf : option (list Z)) | VBin (d : list Z) | VCrc (c : Z) | VNone.

(** An element that is not a master, or a master with its CheckSumStatus and children. *)
Inductive elt := Leaf (i : info) (v : val) | Master (i : info) (chk : Z) (ch : list elt).
Definition einfo (e : elt) : info := match e with Leaf i _ => i | Master i _ _ => i end.
Definition with_info (e : elt) (i : info) : elt := match e with Leaf _ v => Leaf i v | Master _ k ch => Master i k ch end.

Definition with_dsize (i : info) (d : Z) : info :=
  mkInfo (e_kind i) (e_set i) (e_need i) (e_fin i) d (e_defsz i) (e_szlen i) (e_epos i) (e_spos i) (e_end i).
Definition with_need (i : info) (b : bool) : info :=
  mkInfo (e_kind i) (e_set i) b (e_fin i) (e_dsize i) (e_defsz i) (e_szlen i) (e_epos i) (e_spos i) (e_end i).
Definition with_set (i : info) (b : bool) : info :=
  mkInfo (e_kind i) b (e_need i) (e_fin i) (e_dsize i) (e_defsz i) (e_szlen i) (e_epos i) (e_spos i) (e_end i).
Definition with_pos (i : info) (ep sp en : Z) : info :=
  mkInfo (e_kind i) (e_set i) (e_need i) (e_fin i) (e_dsize i) (e_defsz i) (e_szlen i) ep sp en.

(** strlen / the C string held in a buffer: the bytes before the first 0; [None] if there is none
    inside the allocation. *)
Fixpoint cstr (b : list Z) : option (list Z) :=
  match b with
  | [] => None
  | c :: b => if c =? 0 then Some [] else match cstr b with Some s => Some (c :: s) | None => None end
  end.

Fixpoint list_eqb (a b : list Z) : bool :=
  match a, b with
  | [], [] => true
  | x :: a, y :: b => (x =? y) && list_eqb a b
  | _, _ => false
  end.

Section Tree.
Context (E : schema).
(** IEEE conversions left abstract: (float)double, (double)float as bit patterns, and the comparison
    Value == (double)DefaultValue. *)
Context (narrow widen : Z -> Z) (flt_is : Z -> Z -> bool).
(** Little-endian machine?  The build for the CRC table uses the same byte order. *)
Context (little : bool).

Definition eclass_of (e : elt) : eclass := kind_class E (e_kind (einfo e)).
(** Context->Id of an element. *)
Definition eid_of (i : info) : Z := kind_id E (e_kind i).
(** Context->HasDefault and DefaultValue; a dummy's context has none (ebmlmain.c 27). *)
Definition default_of (i : info) : option dval := match e_kind i with Known c => c_def (E c) | Dummy _ => None end.

(** EBML_ElementIsDefaultValue: ebmlmaster.c 154-169, ebmlnumber.c 254-262, ebmlstring.c 170-173,
    ebmlbinary.c 58-61, ebmlcrc.c 181-184, ebmlvoid.c 9-12.  A default of the wrong shape for the class
    does not occur in a well-formed schema and counts as different. *)
Definition is_default (e : elt) : res bool :=
  match e with
  | Master _ _ _ => Ok false
  | Leaf i v =>
      match default_of i with
      | None => Ok false
      | Some d =>
          match kind_class E (e_kind i) with
          | KUInt | KSInt | KDate =>
              Ok (negb (e_set i) || match v, d with VInt x, DInt y => x =? s64 y | _, _ => false end)
          | KFloat => Ok (negb (e_set i) || match v, d with VFlt x, DInt y => flt_is x y | _, _ => false end)
          | KString | KUni =>
              if negb (e_set i) then Ok true
              else match v, d with
                   | VStr (Some b), DStr s => do t <- opt_res (cstr b); Ok (list_eqb t s)
                   | VStr None, _ => Null
                   | _, _ => Ok false
                   end
          | _ => Ok false
          end
      end
  end.

(** Is the element left out of the output? (!bWithDefault && EBML_ElementIsDefaultValue) *)
Definition left_out (wd : bool) (e : elt) : res bool := if wd then Ok false else is_default e.

(** NeedsDataSizeUpdate: ebmlelement.c 24-31 and ebmlmaster.c 198-210. *)
Definition base_needs (wd : bool) (e : elt) : res bool :=
  if negb (e_need (einfo e)) then Ok false else do b <- left_out wd e; Ok (negb b).
Fixpoint needs_update (wd : bool) (e : elt) : res bool :=
  do b <- base_needs wd e;
  if b then Ok true
  else match e with
  | Leaf _ _ => Ok false
  | Master _ _ ch =>
      (fix any (l : list elt) : res bool :=
         match l with
         | [] => Ok false
         | c :: l => do b <- needs_update wd c; if b then Ok true else any l
         end) ch
  end.

(** UpdateDataSize of ebml_element, ebmlelement.c 33-46: returned value and element. *)
Definition base_update (wd : bool) (e : elt) : res (Z * elt) :=
  do b <- left_out wd e;
  if b then Ok (0, e)
  else
    let i := einfo e in
    let i := if e_dsize i <? e_defsz i then with_dsize i (e_defsz i) else i in
    let i := with_need i false in
    Ok (e_dsize i, with_info e i).

(** EBML_ElementFullSize, ebmlelement.c 120-125. *)
Definition full_size_of (wd : bool) (e : elt) : res Z :=
  do b <- left_out wd e;
  let i := einfo e in
  Ok (if b then INVALID_FILEPOS else full_size (eid_of i) (e_dsize i) (e_szlen i) (e_fin i)).

(** The part of a leaf's UpdateDataSize before the inherited one: ebmlnumber.c 264-309, ebmlstring.c
    154-168, ebmlbinary.c 63-68.  For integers the DefaultSize raise of [base_update] is not applied
    here ([update_size_uint v 0] is the table alone).  Dates are signed integers. *)
Definition leaf_size (wd : bool) (i : info) (v : val) : res info :=
  do b <- needs_update wd (Leaf i v);
  match kind_class E (e_kind i), v with
  | KUInt, VInt x => Ok (if b then with_dsize i (update_size_uint x 0) else i)
  | (KSInt | KDate), VInt x => Ok (if b then with_dsize i (update_size_sint x 0) else i)
  | (KString | KUni), VStr s =>
      if b then match s with None => Null | Some s => do t <- opt_res (cstr s); Ok (with_dsize i (zlen t)) end
      else Ok i
  | (KBinary | KDummy), VBin d => Ok (with_dsize i (zlen d))
  | _, _ => Ok i
  end.

(** EBML_ElementUpdateSize: the leaves as above, ebmlmaster.c 212-248 for masters.  The returned value
    and the element after the call. *)
Fixpoint update_size (wd : bool) (e : elt) : res (Z * elt) :=
  match e with
  | Leaf i v => do i <- leaf_size wd i v; base_update wd (Leaf i v)
  | Master i chk ch =>
      do b <- needs_update wd e;
      if b then
        do r <- (fix sum (l : list elt) (acc : Z) : res (bool * Z * list elt) :=
                   match l with
                   | [] => Ok (true, acc, [])
                   | c :: l =>
                       do d <- left_out wd c;
                       if d then do r <- sum l acc; let '(k, s, l) := r in Ok (k, s, c :: l)
                       else
                         do u <- update_size wd c;
                         let c := snd u in
                         if e_dsize (einfo c) =? INVALID_FILEPOS then Ok (false, acc, c :: l)
                         else
                           do f <- full_size_of wd c;
                           do r <- sum l (acc + f);
                           let '(k, s, l) := r in Ok (k, s, c :: l)
                   end) ch (if chk =? 0 then 0 else 6);
        let '(k, s, ch) := r in
        let e := Master (with_dsize i s) chk ch in
        if k then base_update wd e else Ok (INVALID_FILEPOS, e)
      else base_update wd e
  end.

(** ** Output streams: a memory stream (memstream.c) or a seekable file. *)
Inductive ost := OMem (m : mems) | OFile (data : list Z) (pos : Z).
Definition o_tell (o : ost) : Z := match o with OMem m => mpos m + mvoff m | OFile _ p => p end.
(** Stream_Write: error, *Written, new state.  A file write past the end fills the gap with zeros. *)
Definition o_write (o : ost) (bs : list Z) : res (Z * Z * ost) :=
  match o with
  | OMem m => do r <- opt_res (mem_write m bs true); let '(e, n, m) := r in Ok (e, n, OMem m)
  | OFile d p => Ok (ERR_NONE, zlen bs, OFile (patch (d ++ repeat 0 (Z.to_nat (p - zlen d))) p bs) (p + zlen bs))
  end.
(** Stream_Seek(SEEK_SET); a negative position is refused by lseek (file_libc.c 138-144). *)
Definition o_seek (o : ost) (p : Z) : ost :=
  match o with
  | OMem m => OMem (snd (mem_seek m p SeekSet))
  | OFile d q => OFile d (if p <? 0 then q else p)
  end.
Definition o_seek_cur (o : ost) (n : Z) : Z * ost :=
  match o with
  | OMem m => let r := mem_seek m n SeekCur in (fst r, OMem (snd r))
  | OFile d q => if q + n <? 0 then (INVALID_FILEPOS, o) else (q + n, OFile d (q + n))
  end.
Definition o_is_mem (o : ost) : bool := match o with OMem _ => true | OFile _ _ => false end.

(** EBML_ElementRenderHead, ebmlelement.c 302-326: error, *Rendered, element and stream after. *)
Definition render_head_to (keep : bool) (i : info) (o : ost) : res (Z * Z * info * ost) :=
  do h <- opt_res (render_head (eid_of i) (e_dsize i) (e_szlen i) (e_fin i));
  do w <- o_write o h;
  let '(err, _, o') := w in
  let after := o_tell o' in
  let cs := coded_size_length (e_dsize i) (e_szlen i) (e_fin i) in
  let ep := after - zlen h in
  let sp := ep + get_id_length (eid_of i) in
  Ok (err, after - o_tell o, if keep then i else with_pos i ep sp (sp + cs + e_dsize i), o').

(** EBML_ElementPositionData, ebmlelement.c 167-177. *)
Definition position_data (i : info) : Z :=
  if negb (e_fin i) then if e_szlen i =? 0 then INVALID_FILEPOS else e_spos i + e_szlen i
  else e_spos i + coded_size_length (e_dsize i) (e_szlen i) true.

(** The bytes of a leaf's RenderData: ebmlnumber.c 91-193, ebmlstring.c 97-115, ebmlbinary.c 43-50,
    ebmlcrc.c 153-165, ebmlvoid.c 21-36; [None] when nothing is written and *Rendered is left alone
    (ebmlnumber.c 98-102). *)
Definition leaf_bytes (i : info) (v : val) : res (option (list Z)) :=
  match kind_class E (e_kind i), v with
  | (KUInt | KSInt | KDate) as k, VInt x =>
      if (8 <? e_szlen i) || (e_dsize i =? 0) then Ok None
      else do d <- opt_res (render_data_int (match k with KUInt => false | _ => true end) x (e_dsize i) (e_defsz i)); Ok (Some d)
  | KFloat, VFlt x => Ok (Some (render_data_float little (e_dsize i) (if e_dsize i =? 8 then x else narrow x)))
  | (KString | KUni), VStr s =>
      do d <- (if e_dsize i =? 0 then Ok [] else match s with None => Null | Some s => opt_res (mem_get s 0 (e_dsize i)) end);
      Ok (Some (d ++ repeat 0 (Z.to_nat (e_defsz i - e_dsize i))))
  | (KBinary | KDummy), VBin d => Ok (Some d)
  | KCrc, VCrc c => Ok (Some (crc_render c))
  | KVoid, VNone => do d <- opt_res (void_render_data (e_dsize i)); Ok (Some d)
  | _, _ => Bad
  end.

(** EBML_ElementRender of a finished CRC-32 element (ebmlmaster.c 518 / 540): a fresh element has
    SizeLength 0, DataSize 4 and its ID is BF. *)
Definition render_crc (crc : Z) (o : ost) : res (Z * Z * ost) :=
  do h <- opt_res (render_head 191 4 0 true);
  do w <- o_write o h;
  let '(err, n, o) := w in
  if negb (err =? ERR_NONE) then Ok (err, n, o)
  else
    do w <- o_write o (crc_render crc);
    let '(err, m, o) := w in Ok (err, n + m, o).

(** Contents of freshly allocated memory. *)
Context (alloc : Z -> list Z).
Definition crc_of (bs : list Z) : Z := crc_finalize (crc_run (negb little) CRC32_NEGL bs).

(** EBML_ElementRender, ebmlelement.c 258-300, with the RenderData of masters, ebmlmaster.c 446-554:
    error, *Rendered, the element and the stream after the call.  [hd] is the value WrittenSize keeps
    when RenderData does not store it. *)
Fixpoint render (fuel : nat) (wd keep : bool) (e : elt) (o : ost) : res (Z * Z * elt * ost) :=
  do d <- is_default e;
  if negb (e_set (einfo e) || (wd && d)) then Ok (ERR_INVALID_DATA, 0, e, o)
  else if negb wd && d then Ok (ERR_INVALID_DATA, 0, e, o)
  else
  do n <- needs_update wd e;
  do e <- (if n then do u <- update_size wd e; Ok (snd u) else Ok e);
  do h <- render_head_to keep (einfo e) o;
  let '(err, hd, i, o) := h in
  let e := with_info e i in
  if negb (err =? ERR_NONE) then Ok (err, hd, e, o)
  else match e with
  | Leaf i v =>
      do b <- leaf_bytes i v;
      match b with
      | None => Ok (ERR_NONE, hd + hd, e, o)
      | Some b => do w <- o_write o b; let '(err, n, o) := w in Ok (err, hd + n, e, o)
      end
  | Master i chk ch =>
      match fuel with
      | O => Fuel
      | S fuel =>
          (* InternalRender, ebmlmaster.c 446-461 *)
          let inner := fix inner (l : list elt) (rd : Z) (o : ost) : res (Z * Z * list elt * ost) :=
            match l with
            | [] => Ok (ERR_NONE, rd, [], o)
            | c :: l =>
                do d <- left_out wd c;
                if d then do r <- inner l rd o; let '(err, rd, l, o) := r in Ok (err, rd, c :: l, o)
                else
                  do r <- render fuel wd false c o;
                  let '(err, n, c, o) := r in
                  if negb (err =? ERR_NONE) then Ok (err, rd, c :: l, o)
                  else do r <- inner l (rd + n) o; let '(err, rd, l, o) := r in Ok (err, rd, c :: l, o)
            end in
          if chk =? 0 then
            do r <- inner ch 0 o; let '(err, n, ch, o) := r in Ok (err, hd + n, Master i chk ch, o)
          else if negb (o_is_mem o) then
            (* ebmlmaster.c 499-528; a negative size makes the allocation fail *)
            if e_dsize i - 6 <? 0 then Ok (ERR_OUT_OF_MEMORY, hd, e, o)
            else
              do r <- inner ch 0 (OMem (mkMem (alloc (e_dsize i - 6)) 0 (o_tell o + 6)));
              let '(err, n, ch, vo) := r in
              let e := Master i chk ch in
              if negb (err =? ERR_NONE) then Ok (err, hd + n, e, o)
              else
                let buf := match vo with OMem m => mptr m | OFile _ _ => [] end in
                do r <- render_crc (crc_of buf) o;
                let '(err, cs, o) := r in
                if negb (err =? ERR_NONE) then Ok (err, hd + n, e, o)
                else do w <- o_write o buf; let '(err, n, o) := w in Ok (err, hd + (n + cs), e, o)
          else
            (* ebmlmaster.c 530-545 *)
            let '(vpos, o) := o_seek_cur o 6 in
            do r <- inner ch 0 o;
            let '(err, n, ch, o) := r in
            let e := Master i chk ch in
            if negb (err =? ERR_NONE) then Ok (err, hd + n, e, o)
            else
              do cov <- match o with OMem m => opt_res (mem_get (mptr m) (vpos - mvoff m) (e_dsize i - 6)) | OFile _ _ => Bad end;
              let o := o_seek o (position_data i) in
              do r <- render_crc (crc_of cov) o;
              let '(err, cs, o) := r in
              Ok (err, hd + (n + cs), e, o_seek o (e_end i))
      end
  end.

(** Nesting depth, enough fuel for [render]. *)
Fixpoint height (e : elt) : nat :=
  match e with
  | Leaf _ _ => O
  | Master _ _ ch => S ((fix mx (l : list elt) : nat := match l with [] => O | c :: l => Nat.max (height c) (mx l) end) ch)
  end.
Definition element_render (wd keep : bool) (e : elt) (o : ost) := render (height e) wd keep e o.
End Tree.
