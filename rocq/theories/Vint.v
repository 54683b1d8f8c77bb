(** Variable-length size codec, libebml2/ebmlmain.c. *)
From Verif Require Import Base.

(** Value and length returned by the size readers: return value, *BufferSize, *SizeUnknown. *)
Record szres := mkSz { sz_val : Z; sz_len : Z; sz_unk : Z }.

(** ebmlmain.c 117-118, 141-142: scan of the marker bit in the first byte.
    [left] is the number of iterations still allowed (min(BufferSize,8) - SizeIdx).
    [inl (SizeIdx, SizeUnknown)] when the marker is met, [inr SizeUnknown] otherwise. *)
Fixpoint rcs_loop (left : nat) (idx b0 unk : Z) : (Z * Z) + Z :=
  match left with
  | O => inr unk
  | S left' =>
      if Z.land b0 (Z.shiftr 128 idx) =? 0
      then rcs_loop left' (idx + 1) b0 (Z.lor (Z.shiftl unk 7) 255)
      else inl (idx, unk)
  end.

(** ebmlmain.c 132-135: accumulation of the remaining bytes. *)
Definition rcs_accum (acc : Z) (l : list Z) : Z :=
  fold_left (fun a b => Z.lor (Z.shiftl a 8) b) l acc.

(** EBML_ReadCodedSizeValue, ebmlmain.c 108-147.  [buf] is the memory behind InBuffer,
    [bufsize] the incoming *BufferSize.  [None] is a read outside [buf].
    Simplification: lines 125-128 compute a value overwritten at line 130 and are omitted. *)
Definition read_coded_size (buf : list Z) (bufsize : Z) : option szres :=
  if bufsize <=? 0 then Some (mkSz 0 0 127)
  else
    match buf with
    | [] => None
    | b0 :: _ =>
        match rcs_loop (Z.to_nat (Z.min bufsize 8)) 0 b0 127 with
        | inr unk => Some (mkSz 0 0 unk)
        | inl (idx, unk) =>
            let n := idx + 1 in
            if zlen buf <? n then None
            else
              let ps := firstn (Z.to_nat n) buf in
              Some (mkSz (rcs_accum (Z.land b0 (Z.lnot (Z.shiftr 128 idx))) (tl ps)) n unk)
        end
    end.

(** EBML_ReadCodedSizeSignedValue, ebmlmain.c 149-173. *)
Definition read_coded_size_signed (buf : list Z) (bufsize : Z) : option szres :=
  match read_coded_size buf bufsize with
  | None => None
  | Some r =>
      let v :=
        if sz_len r =? 1 then sz_val r - 63
        else if sz_len r =? 2 then sz_val r - 8191
        else if sz_len r =? 3 then sz_val r - 1048575
        else if sz_len r =? 4 then sz_val r - 134217727
        else sz_val r in
      Some (mkSz v (sz_len r) (sz_unk r))
  end.

(** EBML_CodedSizeLength, ebmlmain.c 379-404. *)
Definition coded_size_length (len size_length : Z) (finite : bool) : Z :=
  let c :=
    if negb finite then 1
    else if len <? 127 then 1
    else if len <? 16383 then 2
    else if len <? 2097151 then 3
    else if len <? 268435455 then 4
    else 5 in
  let c := if negb (size_length =? 0) && (c <? size_length) then size_length else c in
  u8 c.

(** EBML_CodedSizeLengthSigned, ebmlmain.c 406-426. *)
Definition coded_size_length_signed (len size_length : Z) : Z :=
  let c :=
    if (-64 <? len) && (len <? 64) then 1
    else if (-8192 <? len) && (len <? 8192) then 2
    else if (-1048576 <? len) && (len <? 1048576) then 3
    else if (-134217728 <? len) && (len <? 134217728) then 4
    else 5 in
  let c := if (0 <? size_length) && (c <? size_length) then size_length else c in
  u8 c.

(** ebmlmain.c 440-447: the bytes after the first are produced from the last backwards while
    the mask is halved; the first byte is then OR-ed with what is left of the value. *)
Fixpoint cvl_loop (k : nat) (marker len mask : Z) (acc : list Z) : list Z :=
  match k with
  | O => Z.lor marker (Z.land (Z.land len 255) mask) :: acc
  | S k' => cvl_loop k' marker (Z.shiftr len 8) (Z.shiftr mask 1) (Z.land len 255 :: acc)
  end.

(** MAX_FILEPOS, corec/corec/portab.h (filepos_t is int64_t). *)
Definition MAX_FILEPOS : Z := 2 ^ 63 - 1.

(** EBML_CodedValueLength, ebmlmain.c 429-453: the bytes written in OutBuffer.
    [None] when CodedSize is outside 1..8 (negative shift / header buffer overrun). *)
Definition coded_value_length (len coded_size : Z) (finite : bool) : option (list Z) :=
  if (1 <=? coded_size) && (coded_size <=? 8) then
    let len := if finite then len else MAX_FILEPOS in
    Some (cvl_loop (Z.to_nat (coded_size - 1)) (u8 (Z.shiftl 1 (8 - coded_size))) len 255 [])
  else None.

(** EBML_CodedValueLengthSigned, ebmlmain.c 455-467. *)
Definition coded_value_length_signed (len coded_size : Z) : option (list Z) :=
  let len :=
    if (-64 <? len) && (len <? 64) then len + 63
    else if (-8192 <? len) && (len <? 8192) then len + 8191
    else if (-1048576 <? len) && (len <? 1048576) then len + 1048575
    else if (-134217728 <? len) && (len <? 134217728) then len + 134217727
    else len in
  coded_value_length len coded_size true.
