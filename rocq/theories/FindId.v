(** EBML_FindNextId, libebml2/ebmlmain.c 301-377.

    Built with NDEBUG.  The stream is its position and the bytes from there on; reading one byte fails at the end
    and goes on failing.  filepos_t arithmetic does not overflow. *)
From Verif Require Import Base Vint EbmlId Ebml.

(** The element made: its kind, SizeLength, DataSize, positions; [FBad] is an access outside PossibleId
    or to a byte of PossibleSize that was not read. *)
Inductive fid := FNone (pos : Z) | FFound (k : kind) (szlen dsize epos spos end_ pos : Z) | FOut.

(** Lines 319-336.  [ids] are the bytes of PossibleId, ReadSize and BitMask are local to the loop. *)
Inductive idr := IFound (ids : list Z) (pos : Z) (rem : list Z) | IEnd (ids : list Z) (pos : Z) | INull (pos : Z) | IOut.
Fixpoint fid_ids (rem : list Z) (pos : Z) (ids : list Z) (rsize mask : Z) : idr :=
  match rem with
  | [] => IEnd ids pos
  | b :: rem =>
      if 4 <=? zlen ids then IOut
      else
        let ids' := ids ++ [b] in
        if rsize + 1 =? zlen ids then INull (pos + 1)
        else if 4 <? zlen ids' then INull (pos + 1)
        else match ids' with
             | [] => IOut
             | b0 :: _ => if negb (Z.land b0 mask =? 0) then IFound ids' (pos + 1) rem
                          else fid_ids rem (pos + 1) ids' (rsize + 1) (Z.shiftr mask 1)
             end
  end.

(** Lines 340-350.  [szs] are the bytes of PossibleSize, [psl] PossibleSizeLength, [r] SizeFound,
    _SizeLength and SizeUnknown. *)
Inductive szr := ZGot (r : szres) (psl pos : Z) | ZEnd (r : szres) (psl pos : Z) | ZNull (pos : Z) | ZOut.
Fixpoint fid_size (rem : list Z) (pos : Z) (szs : list Z) (psl : Z) (r : szres) : szr :=
  if 8 <=? psl then ZNull pos
  else match rem with
  | [] => ZEnd r (psl + 1) pos
  | b :: rem =>
      if negb (zlen szs =? psl) then ZOut
      else match read_coded_size (szs ++ [b]) (psl + 1) with
           | None => ZOut
           | Some r => if sz_len r =? 0 then fid_size rem (pos + 1) (szs ++ [b]) (psl + 1) r
                       else ZGot r (psl + 1) (pos + 1)
           end
  end.

(** Lines 353-376. *)
Definition fid_end (E : schema) (c max : Z) (ids : list Z) (r : szres) (psl epos spos pos : Z) : fid :=
  match id_from_buffer ids (zlen ids) with
  | None => FOut
  | Some id =>
      let k := create_element E id c in
      if negb (validate_size (kind_class E k) true (sz_val r)) || (negb (sz_val r =? sz_unk r) && (max <? sz_val r))
      then FNone pos
      else FFound k psl (sz_val r) epos spos (spos + sz_len r + sz_val r) pos
  end.

(** The loop of line 316: when the stream ends within the identifier (line 324), it is run again until
    PossibleSizeLength is 8.  [None] is no fuel. *)
Fixpoint fid_loop (fuel : nat) (E : schema) (c max : Z) (rem : list Z) (pos : Z) (ids : list Z) (psl : Z) (r : szres) : option fid :=
  match fuel with
  | O => None
  | S fuel =>
      match fid_ids rem pos ids 0 128 with
      | IOut => Some FOut
      | INull p => Some (FNone p)
      | IFound ids p rem =>
          match fid_size rem p [] psl r with
          | ZGot r psl p2 => Some (fid_end E c max ids r psl pos p p2)
          | ZEnd r psl p2 => Some (fid_end E c max ids r psl pos p p2)
          | ZNull p2 => Some (FNone p2)
          | ZOut => Some FOut
          end
      | IEnd ids p =>
          match fid_size [] p [] psl r with
          | ZEnd r psl p2 => fid_loop fuel E c max [] p2 ids psl r
          | ZNull p2 => Some (FNone p2)
          | _ => Some FOut
          end
      end
  end.

(** EBML_FindNextId for the context [c] and MaxDataSize [max]. *)
Definition find_next_id (E : schema) (c max : Z) (rem : list Z) (pos : Z) : option fid :=
  fid_loop 10 E c max rem pos [] 0 (mkSz 0 0 8).
