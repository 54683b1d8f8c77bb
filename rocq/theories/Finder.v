(** EBML_FindNextElement, libebml2/ebmlmain.c 470-665.

    The stream is a file [file] (list of bytes) and a position; Stream_ReadOneOrMore of one byte fails
    at the end of the file.  The 16-byte buffer PossibleIdNSize is a list that keeps stale bytes; its
    initial contents [junk] are arbitrary.  filepos_t arithmetic does not overflow (sizes below 2^56
    and positions below 2^62); ReadSize is uint32_t and wraps. *)
From Verif Require Import Base Vint EbmlId Ebml Arr.

(** Local variables: PossibleIdNSize, ReadIndex, ReadSize, PossibleID_Length, stream position. *)
Record fst_ := mkF { f_buf : list Z; f_ri : Z; f_rs : Z; f_pidl : Z; f_pos : Z }.

(** Lines 511-519: marker bit of the first byte, among the ReadIndex first bits and at most 4. *)
Fixpoint scan_id (left : nat) (idx b0 : Z) : option Z :=
  match left with
  | O => None
  | S l => if Z.land b0 (Z.shiftr 128 idx) =? 0 then scan_id l (idx + 1) b0 else Some (idx + 1)
  end.

(** memmove(&Buf[0], &Buf[1], n) on the 16-byte buffer; [None] outside it. *)
Definition shift_buf (buf : list Z) (n : Z) : option (list Z) :=
  match mem_get buf 1 n with Some m => mem_put buf 0 m | None => None end.

(** One byte of the stream. *)
Definition rd_byte (file : list Z) (pos : Z) : option Z := nth_error file (Z.to_nat pos).

Inductive idres := IdFound (s : fst_) | IdLimit (s : fst_) | IdEof (pos : Z) | IdBad.

(** Lines 505-535: read a potential ID.  [None] is fuel exhausted, [IdBad] a buffer access outside. *)
Fixpoint id_loop (fuel : nat) (file : list Z) (start limit : Z) (s : fst_) : option idres :=
  match rd (f_buf s) 0 with
  | None => Some IdBad
  | Some b0 =>
      match scan_id (Z.to_nat (Z.min (f_ri s) 4)) 0 b0 with
      | Some n => Some (IdFound (mkF (f_buf s) (f_ri s) (f_rs s) n (f_pos s)))
      | None =>
          if limit =? start + f_rs s then Some (IdLimit s)
          else match fuel with
          | O => None
          | S f =>
              match (if 4 <=? f_ri s then
                       match shift_buf (f_buf s) (f_ri s - 1) with
                       | Some b => Some (b, f_ri s - 1)
                       | None => None
                       end
                     else Some (f_buf s, f_ri s)) with
              | None => Some IdBad
              | Some (buf, ri) =>
                  match rd_byte file (f_pos s) with
                  | None => Some (IdEof (f_pos s))
                  | Some b =>
                      match mem_put buf ri [b] with
                      | None => Some IdBad
                      | Some buf => id_loop f file start limit (mkF buf (ri + 1) (u32 (f_rs s + 1)) (f_pidl s) (f_pos s + 1))
                      end
                  end
              end
          end
      end
  end.

Inductive szfound := SzFound (r : szres) (s : fst_) | SzNone (s : fst_) | SzEof (pos : Z) | SzBad.

(** Lines 543-561: read the coded size; [f_ri] of the state is SizeIdx here, [psl] PossibleSizeLength. *)
Fixpoint size_loop (fuel : nat) (file : list Z) (start limit : Z) (s : fst_) (psl : Z) : option szfound :=
  match read_coded_size (skipn (Z.to_nat (f_pidl s)) (f_buf s)) (u64 psl) with
  | None => Some SzBad
  | Some r =>
      if negb (sz_len r =? 0) then Some (SzFound r s)
      else if 8 <=? psl then Some (SzNone s)
      else match rd (f_buf s) (Z.to_nat (f_pidl s)) with
      | None => Some SzBad
      | Some b =>
          if (0 <? psl) && (b =? 0) then Some (SzNone s)
          else if limit =? start + f_rs s then Some (SzNone s)
          else match fuel with
          | O => None
          | S f =>
              match rd_byte file (f_pos s) with
              | None => Some (SzEof (f_pos s))
              | Some b =>
                  match mem_put (f_buf s) (f_ri s) [b] with
                  | None => Some SzBad
                  | Some buf => size_loop f file start limit (mkF buf (f_ri s + 1) (u32 (f_rs s + 1)) (f_pidl s) (f_pos s + 1)) (psl + 1)
                  end
              end
          end
      end
  end.

(** Lines 567-579: containment in the context, climbing the chain; [v] is CurrentPos + SizeFound - SizeIdx.
    bFound, Context, *UpperLevels. *)
Fixpoint contain (chain : list pctx) (allow : bool) (v upper : Z) : bool * list pctx * Z :=
  match chain with
  | [] => (true, chain, upper)
  | (c, e) :: up =>
      if negb (e =? INVALID_FILEPOS) && (e <? v) then
        if allow || match up with [] => true | _ => false end then (false, chain, upper)
        else contain up allow v (upper + 1)
      else (true, chain, upper)
  end.

(** Lines 493-499. *)
Fixpoint adjust (chain : list pctx) (start upper : Z) : list pctx * Z :=
  match chain with
  | (c, e) :: ((_ :: _) as up) =>
      if negb (e =? INVALID_FILEPOS) && (e <=? start) then adjust up start (upper + 1) else (chain, upper)
  | _ => (chain, upper)
  end.

(** EndPosition of the innermost context of a chain. *)
Definition chain_end (chain : list pctx) : Z := match chain with (_, e) :: _ => e | [] => INVALID_FILEPOS end.

(** Result: NULL, or an element; in both cases *UpperLevels and the stream position.  [FBad] is an
    access outside the buffer. *)
Inductive fres := FNull (upper pos : Z) | FElt (h : hdr) (upper pos : Z) | FBad.

(** Lines 582-630: the element for the ID and size found, if it is accepted. *)
Definition accept (E : schema) (chain : list pctx) (allow : bool) (upper id : Z) (r : szres) (s : fst_) : option fres :=
  match create_using E chain id (f_pidl s) allow 0 with
  | None => None
  | Some (k, low) =>
      let fin := negb (sz_val r =? sz_unk r) in
      if allow || match k with Dummy _ => false | _ => true end then
        let k := if allow && negb (validate_size (kind_class E k) fin (sz_val r)) &&
                    match k with Dummy _ => false | _ => true end
                 then Dummy id else k in
        if validate_size (kind_class E k) fin (sz_val r) then
          let upper := if 0 <? low then upper + low else upper in
          let spos := f_pos s - f_ri s + f_pidl s in
          Some (FElt (mkHdr k (sz_len r) (if fin then sz_val r else INVALID_FILEPOS) fin (spos - f_pidl s) spos
                       (if fin then spos + sz_len r + sz_val r else chain_end chain))
                 upper (spos + sz_len r))
        else None
      else None
  end.

(** Lines 632-653: end of the context reached: the placeholder or NULL. *)
Definition at_limit (chain : list pctx) (allow : bool) (upper id : Z) (s : fst_) : option fres :=
  let e := chain_end chain in
  if negb (e =? INVALID_FILEPOS) && (e <=? f_pos s) then
    if allow && negb (e =? f_pos s) then
      let spos := f_pos s - f_ri s + f_pidl s in
      Some (FElt (mkHdr (Dummy id) (s8 (e - spos)) 0 true (spos - f_pidl s) spos e) upper e)
    else Some (FNull upper (f_pos s))
  else None.

(** The main loop, lines 501-662.  [orig] is *pContext, [upper0] the incoming *UpperLevels. *)
Fixpoint fne_loop (fuel : nat) (E : schema) (file : list Z) (start : Z) (orig : list pctx) (upper0 : Z) (allow : bool)
    (s : fst_) (chain : list pctx) (upper : Z) : option fres :=
  match fuel with
  | O => None
  | S fuel' =>
      match id_loop (S (length file)) file start (chain_end chain) s with
      | None => None
      | Some IdBad => Some FBad
      | Some (IdEof pos) => Some (FNull upper pos)
      | Some (IdFound s1) | Some (IdLimit s1) =>
          match size_loop 9 file start (chain_end chain) s1 (f_ri s1 - f_pidl s1) with
          | None => None
          | Some SzBad => Some FBad
          | Some (SzEof pos) => Some (FNull upper pos)
          | Some (SzFound r s2) =>
              let '(found, chain', upper') :=
                if sz_val r =? sz_unk r then (true, chain, upper)
                else contain chain allow (f_pos s2 + sz_val r - f_ri s2) upper in
              fne_tail fuel' E file start orig upper0 allow s2 chain' upper' (if found then Some r else None)
          | Some (SzNone s2) => fne_tail fuel' E file start orig upper0 allow s2 chain upper None
          end
      end
  end
with fne_tail (fuel : nat) (E : schema) (file : list Z) (start : Z) (orig : list pctx) (upper0 : Z) (allow : bool)
    (s : fst_) (chain : list pctx) (upper : Z) (found : option szres) {struct fuel} : option fres :=
  match id_from_buffer (f_buf s) (f_pidl s) with
  | None => Some FBad
  | Some id =>
      match match found with Some r => accept E chain allow upper id r s | None => None end with
      | Some res => Some res
      | None =>
          match at_limit chain allow upper id s with
          | Some res => Some res
          | None =>
              (* lines 656-662 *)
              match shift_buf (f_buf s) (f_ri s - 1) with
              | None => Some FBad
              | Some buf =>
                  let e := chain_end orig in
                  if (e =? INVALID_FILEPOS) || (f_pos s - f_ri s + f_pidl s <? e)
                  then match fuel with
                       | O => None
                       | S fuel' => fne_loop fuel' E file start orig upper0 allow
                                      (mkF buf (f_ri s - 1) (f_rs s) (f_pidl s) (f_pos s)) orig upper0
                       end
                  else Some (FNull upper0 (f_pos s))
              end
          end
      end
  end.

(** EBML_FindNextElement, lines 470-499 and the loop.  [junk] is the uninitialised PossibleIdNSize. *)
Definition find_next (E : schema) (junk : list Z) (file : list Z) (start : Z) (orig : list pctx) (upper0 : Z) (allow : bool) : option fres :=
  let '(chain, upper) := adjust orig start upper0 in
  fne_loop (2 * length file + 4) E file start orig upper0 allow (mkF junk 0 0 0 start) chain upper.
