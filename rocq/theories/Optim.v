(** The common header mkclean looks for in the blocks of a track: mkclean.c 1402-1484, 2237-2295 (BlockIsCompressed, and
    ShrinkCommonHeader with what it calls: MATROSKA_BlockReadData, Block.v, and MATROSKA_BlockGetFrame, Frame.v).

    Simplified: built without the compression libraries, as in Block.v; the blocks are those of one track, linked
    to it; memory never runs out. *)
From Verif Require Import Base Tree Stream TreeRead Arr Block Frame Clean.

(** BlockIsCompressed, 1408-1433: EBML_MasterChildren of no element dereferences NULL. *)
Definition is_compressed (t : encodings) : res bool :=
  match t with
  | None => Ok false
  | Some [] => Null
  | Some (e :: l) =>
      if negb (en_children e) then Ok false
      else match l with
      | _ :: _ => Ok true
      | [] => match en_compr e with
              | None => Ok true
              | Some c => Ok (negb (match cp_algo c with Some a => a | None => 0 end =? COMP_HEADERSTRIP))
              end
      end
  end.

(** 1448-1461: the frame of MATROSKA_BlockGetFrame, whose answer is not looked at: when it fails FrameData is not set. *)
Definition frame_at (b : block) (n : Z) : res (list Z) :=
  match get_frame b 0 n true with
  | (_, Some f) => opt_res (mem_get (b_data b) (f_off f) (f_size f))
  | (_, None) => Bad
  end.
Fixpoint frames_from (b : block) (k : nat) (n : Z) : res (list (list Z)) :=
  match k with O => Ok [] | S k => do f <- frame_at b n; do l <- frames_from b k (n + 1); Ok (f :: l) end.
Definition frames_of (b : block) : res (list (list Z)) := frames_from b (length (b_sizes b)) 0.

(** ShrinkCommonHeader, 1436-1476, of one block of a track with encodings [t]: the header, where the input is.  The
    comparing of frames is [shrink] (Clean.v); frames after the one that leaves no header are read here as well. *)
Definition look (t : encodings) (moved : bool) (s : ist) (h : hdr) (b : block) (pos : Z) : res (hdr * Z) :=
  match h with
  | HVal [] => Ok (h, pos)
  | _ =>
      do r <- read_data b t moved s pos;
      let '(err, b', p) := r in
      if negb (err =? ERR_NONE) then Ok (h, p)
      else do c <- is_compressed t;
           if (c : bool) then Ok (h, p)
           else do fs <- frames_of b'; Ok (shrink h (mkHB true false fs), p)
  end.
(** The loop over the blocks, 2270-2291. *)
Fixpoint look_all (t : encodings) (moved : bool) (s : ist) (h : hdr) (l : list block) (pos : Z) : res hdr :=
  match l with [] => Ok h | b :: l => do r <- look t moved s h b pos; look_all t moved s (Datatypes.fst r) l (Datatypes.snd r) end.
(** InitCommonHeader and ClearCommonHeader, 1402-1406, 1478-1484. *)
Definition common_header (t : encodings) (moved : bool) (s : ist) (l : list block) (pos : Z) : res (list Z) :=
  do h <- look_all t moved s HNew l pos; Ok (match h with HNew => [] | HVal h => h end).
