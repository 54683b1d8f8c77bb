(** Reading elements: EBML_ElementReadData of every class and EBML_ElementSkipData; libebml2/ebmlmaster.c
    271-421, ebmlelement.c 93-108, ebmlnumber.c, ebmlstring.c, ebmlbinary.c, ebmldate.c, ebmlcrc.c,
    ebmlvoid.c.  Built with NDEBUG.  Allocations succeed (sizes are below 2^56, so the comparisons with
    SIZE_MAX on a 64-bit machine are false). *)
From Verif Require Import Base Vint EbmlId IntElt Crc EltHead Void Ebml Arr Stream Finder Tree.

(** An input stream: a file, or a memory stream (memstream.c) whose MEMSTREAM_OFFSET is [in_lo].
    [in_data] is indexed by absolute position; for a memory stream only the bytes from [in_lo] on are
    in its buffer.  The position is passed separately. *)
Record ist := mkIn { in_mem : bool; in_lo : Z; in_data : list Z }.

(** Stream_Seek(SEEK_SET): returned value and new position.  Memory streams clamp (memstream.c 63-75);
    a negative file position is refused (file_libc.c 138-144). *)
Definition i_seek (s : ist) (p cur : Z) : Z * Z :=
  if in_mem s then let q := if p <? 0 then 0 else if zlen (in_data s) <? p then zlen (in_data s) else p in (q, q)
  else if p <? 0 then (INVALID_FILEPOS, cur) else (p, p).

(** Stream_Read of n bytes: error, bytes, new position; memstream.c 22-42, file_libc.c.  A memory
    stream placed before its buffer reads outside it. *)
Definition i_read (s : ist) (pos n : Z) : res (Z * list Z * Z) :=
  if (n <? 0) || (in_mem s && (pos <? in_lo s)) then Bad
  else
    let bs := firstn (Z.to_nat n) (skipn (Z.to_nat pos) (in_data s)) in
    Ok (if zlen bs <? n then ERR_END_OF_FILE else ERR_NONE, bs, pos + zlen bs).

Section Read.
Context (E : schema) (widen : Z -> Z).
(** Plain char signed?  Machine and CRC table byte order. *)
Context (char_signed little : bool).
(** Uninitialised memory: the finder's buffer and Buffer[0] of an empty signed integer.  [junkcrc] is
    what the CRC field holds when an element that is not an ebml_crc has the CRC-32 ID. *)
Context (junk : Z -> list Z) (junk0 junkcrc : Z).
(** AllowDummyElt. *)
Context (allow : bool).
(** Scope == SCOPE_NO_DATA. *)
Context (nodata : bool).

(** NodeCreate zeroes the memory; Create and PostCreate with SetDefault 0 (ebmlelement.c 16-22, 48-53,
    ebmlnumber.c 314-336, ebmldate.c 70-75, ebmlcrc.c 186-192); then the fields the finder sets. *)
Definition class_defsz (k : eclass) : Z := match k with KUInt | KSInt => 1 | KFloat => 4 | KDate => 8 | _ => -1 end.
Definition class_need (k : eclass) : bool := match k with KDate | KCrc => false | _ => true end.
Definition class_val (k : eclass) : val :=
  match k with
  | KUInt | KSInt | KDate => VInt 0 | KFloat => VFlt 0 | KString | KUni => VStr None
  | KBinary | KDummy => VBin [] | KCrc => VCrc CRC32_NEGL | KVoid | KMaster => VNone
  end.
Definition of_hdr (h : hdr) : elt :=
  let k := kind_class E (h_kind h) in
  let i := mkInfo (h_kind h) false (class_need k) (h_fin h) (h_dsize h) (class_defsz k) (h_szlen h) (h_epos h) (h_spos h) (h_end h) in
  match k with KMaster => Master i 0 [] | _ => Leaf i (class_val k) end.

Definition find_on (s : ist) (pos : Z) (chain : list pctx) : res fres :=
  if in_mem s && (pos <? in_lo s) then Bad
  else match find_next E (junk pos) (in_data s) pos chain 0 allow with
       | None => Fuel
       | Some FBad => Bad
       | Some r => Ok r
       end.

(** EBML_ElementSkipData, ebmlelement.c 93-108: the new position.  The element found after one of
    unknown size is leaked. *)
Definition skip_data (s : ist) (chain : list pctx) (i : info) (pos : Z) : res Z :=
  if e_fin i then Ok (snd (i_seek s (e_end i) pos))
  else do r <- find_on s pos chain;
       match r with
       | FElt h _ p => Ok (snd (i_seek s (position_data (einfo (of_hdr h))) p))
       | FNull _ p => Ok p
       | FBad => Bad
       end.

(** The value made from the data bytes by the ReadData of each class; for dates ebmldate.c 57-63. *)
Definition leaf_val (k : eclass) (bs : list Z) : option val :=
  match k with
  | KUInt => match read_data_int bs with Some v => Some (VInt v) | None => None end
  | KSInt => match read_data_sint char_signed junk0 bs with Some v => Some (VInt v) | None => None end
  | KDate => if 8 <? zlen bs then None else Some (VInt (s64 (be_val bs)))
  | KFloat => match read_data_float bs with
              | Some b => Some (VFlt (if zlen bs =? 4 then widen b else b))
              | None => None
              end
  | KString | KUni => Some (VStr (Some (bs ++ [0])))
  | KBinary | KDummy => Some (VBin bs)
  | _ => None
  end.
(** The size test before the read: ebmlnumber.c 26, 65, 223; ebmldate.c 48. *)
Definition leaf_size_ok (k : eclass) (n : Z) : bool :=
  match k with
  | KUInt | KSInt | KDate => n <=? 8
  | KFloat => (n =? 8) || (n =? 4)
  | _ => true
  end.

(** ReadData of an element that is not a master: error, element, position. *)
Definition read_leaf (s : ist) (chain : list pctx) (i : info) (v : val) (pos : Z) : res (Z * elt * Z) :=
  let k := kind_class E (e_kind i) in
  match k with
  | KVoid => do p <- skip_data s chain i pos; Ok (ERR_NONE, Leaf i v, p)
  | KCrc =>
      do r <- i_read s pos 4;
      let '(err, bs, p) := r in
      if err =? ERR_NONE then do c <- opt_res (crc_read bs); Ok (err, Leaf (with_set i true) (VCrc c), p) else Ok (err, Leaf i v, p)
  | _ =>
      let i := with_set i false in
      if nodata then Ok (ERR_NONE, Leaf i v, pos)
      else
        let '(sk, p) := i_seek s (position_data i) pos in
        if sk =? INVALID_FILEPOS then Ok (ERR_READ, Leaf i v, p)
        else if negb (leaf_size_ok k (e_dsize i)) then Ok (ERR_INVALID_DATA, Leaf i v, p)
        else
          do r <- i_read s p (e_dsize i);
          let '(err, bs, p) := r in
          if negb (err =? ERR_NONE) then Ok (err, Leaf i v, p)
          else match leaf_val k bs with
               | Some v => Ok (ERR_NONE, Leaf (with_set i true) v, p)
               | None => Ok (ERR_INVALID_DATA, Leaf i v, p)
               end
  end.

(** What the master reader remembers about the checksum element: nothing yet, or not usable any more
    (bFirst cleared); or CRCElement with CRCData ([None] is a NULL CRCData). *)
Inductive crcst := CrcNone | CrcOff | CrcOn (stored : Z) (cov : option (list Z)).
(** bFirst && CRCElement==NULL. *)
Definition crc_first (c : crcst) : bool := match c with CrcNone => true | _ => false end.

(** Ranges of bytes of a memory stream's buffer taken by pointer (ebmlmaster.c 308-311, 399). *)
Definition raw_bytes (s : ist) (pos n : Z) : res (list Z) :=
  if (n <? 0) || (pos <? in_lo s) || (zlen (in_data s) <? pos + n) then Bad
  else Ok (firstn (Z.to_nat n) (skipn (Z.to_nat pos) (in_data s))).

(** ebmlmaster.c 299-361: a checksum element met first: the checksum state, the stream the following
    children are read from, and the positions of the input and of that stream. *)
Definition meet_crc (inp : ist) (m c : info) (stored : Z) (pos : Z) : res (crcst * ist * Z * Z) :=
  if negb (e_fin m) then Ok (CrcOff, inp, pos, pos)
  else if in_mem inp then
    let '(dp, _) := i_seek inp (e_end c) pos in
    let n := e_dsize m - full_size (eid_of E c) (e_dsize c) (e_szlen c) (e_fin c) in
    do cov <- raw_bytes inp dp n;
    do r <- i_read inp dp n;
    let '(_, _, p) := r in Ok (CrcOn stored (Some cov), inp, p, p)
  else
    let n := e_end m - e_end c in
    let '(_, p) := i_seek inp (e_end c) pos in
    do r <- i_read inp p n;
    let '(err, bs, p) := r in
    if negb (err =? ERR_NONE) then Ok (CrcOff, inp, p, p)
    else Ok (CrcOn stored (if n =? 0 then None else Some bs), mkIn true (e_end c) (firstn (Z.to_nat (e_end m)) (in_data inp)), p, e_end c).

(** ((ebml_crc* )SubElement)->CRC, by its type as the context of the element is only compared by ID. *)
Definition crc_field (e : elt) : Z := match e with Leaf _ (VCrc c) => c | _ => junkcrc end.

(** ebmlmaster.c 396-407.  In the memory stream case CrcBuffer is uninitialised when line 400 compares
    it with CRCData; it is taken as different. *)
Definition crc_status (c : crcst) (chk : Z) : Z :=
  match c with CrcOn stored (Some cov) => if crc_matches (negb little) stored cov then 2 else 1 | _ => chk end.

(** EBML_ElementReadData: error, element, position of the stream.  [chain] is the ParserContext;
    [depth] is DepthCheckCRC. *)
Fixpoint read_data (fuel : nat) (depth : nat) (s : ist) (chain : list pctx) (e : elt) (pos : Z) {struct fuel} : res (Z * elt * Z) :=
  match e with
  | Leaf i v => read_leaf s chain i v pos
  | Master i chk _ =>
      let i := with_set i false in
      if (e_dsize i <=? 0) && e_fin i then Ok (ERR_NONE, Master (with_set i true) chk [], pos)
      else
        let '(sk, pos) := i_seek s (position_data i) pos in
        if sk =? INVALID_FILEPOS then Ok (ERR_END_OF_FILE, Master i chk [], pos)
        else match e_kind i with
        | Dummy _ => Bad
        | Known c =>
            let chain := (c, e_end i) :: chain in
            do r <- find_on s pos chain;
            match fuel with
            | O => Fuel
            | S fuel => read_loop fuel depth s chain i chk s CrcNone [] r pos
            end
        end
  end
(** The loop, ebmlmaster.c 293-394, then 395-420.  [rs] is ReadStream, [acc] the children so far (last
    first), [r] the result of the last EBML_FindNextElement, [ipos] the position of the input where it
    is not the stream read from. *)
with read_loop (fuel : nat) (depth : nat) (inp : ist) (chain : list pctx) (i : info) (chk : Z) (rs : ist) (cs : crcst)
    (acc : list elt) (r : fres) (ipos : Z) {struct fuel} : res (Z * elt * Z) :=
  let own := negb (in_mem inp) && match cs with CrcOn _ _ => true | _ => false end in
  let finish := fun pos => Ok (ERR_NONE, Master (with_set i true) (crc_status cs chk) (rev acc), pos) in
  match r with
  | FBad => Bad
  | FNull u p => if 0 <? u then Null else finish (if own then ipos else p)
  | FElt h u p =>
      if 0 <? u then finish (snd (i_seek inp (h_epos h) (if own then ipos else p)))
      else if e_fin i && (e_end i <? h_end h) then finish (if own then ipos else p)
      else
        let next := fun (rs : ist) cs acc p ipos =>
          do r <- find_on rs p chain;
          match fuel with
          | O => Fuel
          | S fuel => read_loop fuel depth inp chain i chk rs cs acc r ipos
          end in
        match fuel with
        | O => Fuel
        | S fuel' =>
            do q <- read_data fuel' (Nat.pred depth) rs chain (of_hdr h) p;
            let '(err, e, p) := q in
            if negb (err =? ERR_NONE) then
              (* line 367-371: dropped; MaxSizeToRead keeps its value *)
              next rs cs acc p ipos
            else
              do m <- (if crc_first cs && negb (Nat.eqb depth 0) && negb nodata && (eid_of E (einfo e) =? 191)
                       then meet_crc inp i (einfo e) (crc_field e) p else Ok (cs, rs, ipos, p));
              let '(cs', rs', ipos', p) := m in
              let kept := match cs, cs' with
                          | CrcNone, CrcOn _ _ => false
                          | _, _ => true
                          end in
              let acc := if kept then e :: acc else acc in
              do p <- skip_data rs' chain (einfo e) p;
              if e_fin i && (e_end i - e_end (einfo e) <=? 0)
              then Ok (ERR_NONE, Master (with_set i true) (crc_status cs' chk) (rev acc),
                       if negb (in_mem inp) && match cs' with CrcOn _ _ => true | _ => false end then ipos' else p)
              else next rs' cs' acc p ipos'
        end
  end.
End Read.
