(** Cue points, seek entries and the look-up of blocks: libmatroska2/matroskamain.c 433-516, 578-592,
    787-810, 835-925, 2123-2140, 2214-2230.  Built with CONFIG_EBML_WRITING and NDEBUG.

    A matroska_cuepoint is the element tree and the TimestampScale of the segment info it is linked to
    ([None]: not linked, or no TimestampScale). *)
From Verif Require Import Base Vint EbmlId Ebml Tree TreeRead Create Arr Stream Frame BlockTime.

Record cue := mkCue { q_elt : elt; q_seg : option Z }.

Section Cues.
Context (E : schema).

(** EBML_MasterChildren: no element but a master has children. *)
Definition children (e : elt) : list elt := match e with Master _ _ ch => ch | Leaf _ _ => [] end.
(** EBML_IntegerValue, ebmlnumber.c 420-427; any other class is a type confusion. *)
Definition int_of (e : elt) : res Z := match e with Leaf _ (VInt v) => Ok v | _ => Bad end.

(** IDs of the contexts, matroska_sem.c 989-992, 1172-1186. *)
Definition ID_CueTime : Z := 179.
Definition ID_CueTrackPositions : Z := 183.
Definition ID_CueTrack : Z := 247.
Definition ID_CueClusterPosition : Z := 241.
Definition ID_CuePoint : Z := 187.
Definition ID_SeekID : Z := 21419.
Definition ID_SeekPosition : Z := 21420.

(** MATROSKA_CueTimestamp, matroskamain.c 835-843. *)
Definition cue_time (q : cue) : res Z :=
  match find_child E ID_CueTime (children (q_elt q)) with
  | None => Ok INVALID_TIMESTAMP
  | Some d => do v <- int_of d; Ok (s64 (v * seg_scale (q_seg q)))
  end.

(** MATROSKA_CueTrackNum, matroskamain.c 787-798: (uint16_t)-1 when missing. *)
Definition cue_track (q : cue) : res Z :=
  match find_child E ID_CueTrackPositions (children (q_elt q)) with
  | None => Ok 65535
  | Some p =>
      match find_child E ID_CueTrack (children p) with
      | None => Ok 65535
      | Some d => do v <- int_of d; Ok (v mod 2 ^ 16)
      end
  end.

(** MATROSKA_CuePosInSegment, matroskamain.c 845-856: INVALID_TIMESTAMP_T when missing. *)
Definition cue_pos (q : cue) : res Z :=
  match find_child E ID_CueTrackPositions (children (q_elt q)) with
  | None => Ok INVALID_TIMESTAMP
  | Some p =>
      match find_child E ID_CueClusterPosition (children p) with
      | None => Ok INVALID_TIMESTAMP
      | Some d => int_of d
      end
  end.

(** CmpCuePoint, matroskamain.c 2123-2140. *)
Definition cmp_cue (a b : cue) : res Z :=
  do ta <- cue_time a;
  do tb <- cue_time b;
  if tb <? ta then Ok 1 else if ta <? tb then Ok (-1)
  else
    do na <- cue_track a;
    do nb <- cue_track b;
    if nb <? na then Ok 1 else if na <? nb then Ok (-1) else Ok 0.

(** EbmlCmp, ebmlmaster.c 106-113, on the children of Cues: of the classes found there only
    MATROSKA_CUEPOINT_CLASS has a Cmp (matroskamain.c 2488), for the others the function is NULL. *)
Definition cue_id (q : cue) : Z := eid_of E (einfo (q_elt q)).
Definition cues_cmp (a b : cue) : res Z :=
  if cue_id a =? cue_id b then if cue_id a =? ID_CuePoint then cmp_cue a b else Null else Ok 0.

(** MATROSKA_CuesSort, matroskamain.c 800-804, is EBML_MasterSort with that comparison.  [junk] is what
    a comparison that fails would answer. *)
Definition cues_cmp_tot (junk : Z) (a b : cue) : Z := match cues_cmp a b with Ok c => c | _ => junk end.

(** MATROSKA_CuesGetTimestampStart, matroskamain.c 2214-2230. *)
Fixpoint start_scan (l : list cue) (prev : option cue) (ts : Z) : res (option cue) :=
  match l with
  | [] => Ok prev
  | q :: l => do t <- cue_time q; if ts <? t then Ok prev else start_scan l (Some q) ts
  end.
Definition cues_start (l : list cue) (ts : Z) : res (option cue) :=
  if ts =? INVALID_TIMESTAMP then Ok None
  else do r <- start_scan l None ts; Ok (match r with Some q => Some q | None => hd_error l end).

(** EBML_MasterFindFirstElt with creation (ebmlmaster.c 50-64), followed by a change of the child. *)
Fixpoint change_child (id : Z) (f : elt -> res elt) (ch : list elt) : res (list elt) :=
  match ch with
  | [] => Ok []
  | d :: l =>
      if eid_of E (einfo d) =? id then do d <- f d; Ok (d :: l)
      else do l <- change_child id f l; Ok (d :: l)
  end.
Context (to_double : Z -> Z).
Definition with_child (fuel : nat) (sd : bool) (prof : Z) (c : Z) (f : elt -> res elt) (e : elt) : res elt :=
  match e with
  | Leaf _ _ => Bad
  | Master i chk ch =>
      match find_child E (c_id (E c)) ch with
      | Some _ => do ch <- change_child (c_id (E c)) f ch; Ok (Master i chk ch)
      | None =>
          do d <- create E to_double fuel sd prof c;
          do d <- f d;
          Ok (Master (with_set (with_need i true) true) chk (ch ++ [d]))
      end
  end.
(** EBML_IntegerSetValue, ebmlnumber.c 413-418, EBML_BinarySetData, ebmlbinary.c 123-132. *)
Definition put_int (v : Z) (e : elt) : res elt := match e with Leaf i (VInt _) => Ok (int_set i v) | _ => Bad end.
Definition put_bin (bs : list Z) (e : elt) : res elt :=
  match e with Leaf i (VBin _) => Ok (Leaf (with_set (with_need (with_dsize i (zlen bs)) false) true) (VBin bs)) | _ => Bad end.
End Cues.

(** PROFILE_MATROSKA_V1|V2|V3|DIVX and V1|DIVX|WEBM, matroska2/matroska.h 22-28. *)
Definition PROF_NEW : Z := 23.
Definition PROF_STATE : Z := 25.
(** The contexts of matroska_sem.c used here: 838-857 and 1172-1186 for the cues, 531-540 and 989-992 for
    the seek entries.  CueReference is left out: it is optional and no function below looks at it. *)
Definition mk_E : schema := fun c =>
  match c with
  | 1 => mkCtx ID_CuePoint KMaster None (Some [mkSem true true 2 0; mkSem true false 3 0]) []
  | 2 => mkCtx ID_CueTime KUInt None None []
  | 3 => mkCtx ID_CueTrackPositions KMaster None
           (Some [mkSem true true 4 0; mkSem true true 5 0; mkSem false true 6 PROF_NEW; mkSem false true 7 PROF_NEW; mkSem false true 8 0; mkSem true true 9 PROF_STATE]) []
  | 4 => mkCtx ID_CueTrack KUInt None None []
  | 5 => mkCtx ID_CueClusterPosition KUInt None None []
  | 6 => mkCtx 240 KUInt None None []
  | 7 => mkCtx 178 KUInt None None []
  | 8 => mkCtx 21368 KUInt None None []
  | 9 => mkCtx 234 KUInt (Some (DInt 0)) None []
  | 10 => mkCtx 19899 KMaster None (Some [mkSem true true 11 0; mkSem true true 12 0]) []
  | 11 => mkCtx ID_SeekID KBinary None None []
  | 12 => mkCtx ID_SeekPosition KUInt None None []
  | _ => mkCtx 236 KVoid None None []
  end.

Section Update.
Context (to_double : Z -> Z).

(** MATROSKA_CuePointUpdate, matroskamain.c 858-895: the error and the cue point.  [bt] is
    MATROSKA_BlockTimestamp and [track] MATROSKA_BlockTrackNum of the linked block, [cl] the header of
    the cluster it is in, [seg] the header of the segment. *)
Definition cue_update (fuel : nat) (prof : Z) (q : cue) (bt track : Z) (cl : option info) (seg : info) : res (Z * cue) :=
  match q_elt q with
  | Leaf _ _ => Bad
  | Master i chk _ =>
      do e <- add_mandatory mk_E to_double fuel true prof (Master i chk []);
      do v <- scale64 bt 1 (seg_scale (q_seg q));
      do e <- with_child mk_E to_double fuel true prof 2 (put_int v) e;
      do e <- with_child mk_E to_double fuel true prof 3 (with_child mk_E to_double fuel true prof 4 (put_int track)) e;
      match cl with
      | None =>
          do e <- with_child mk_E to_double fuel true prof 3 (with_child mk_E to_double fuel true prof 5 (fun d => Ok d)) e;
          Ok (ERR_INVALID_DATA, mkCue e (q_seg q))
      | Some c =>
          do e <- with_child mk_E to_double fuel true prof 3
                    (with_child mk_E to_double fuel true prof 5 (put_int (s64 (e_epos c - position_data seg)))) e;
          Ok (ERR_NONE, mkCue e (q_seg q))
      end
  end.

(** MATROSKA_MetaSeekID, matroskamain.c 440-452. *)
Definition seek_id (e : elt) : res Z :=
  match find_child mk_E ID_SeekID (children e) with
  | None => Ok 0
  | Some (Leaf _ (VBin [])) => Ok 0
  | Some (Leaf _ (VBin d)) => opt_res (buffer_to_id d)
  | Some _ => Bad
  end.
(** MATROSKA_MetaSeekPosInSegment, matroskamain.c 459-467. *)
Definition seek_rel (e : elt) : res Z :=
  match find_child mk_E ID_SeekPosition (children e) with None => Ok INVALID_FILEPOS | Some d => int_of d end.
(** MATROSKA_MetaSeekAbsolutePos, matroskamain.c 469-483; [seg] is the header of the segment above. *)
Definition seek_abs (e : elt) (seg : option info) : res Z :=
  do r <- seek_rel e;
  if r =? INVALID_FILEPOS then Ok INVALID_FILEPOS
  else match seg with None => Ok INVALID_FILEPOS | Some s => Ok (s64 (r + position_data s)) end.
(** MATROSKA_MetaSeekUpdate, matroskamain.c 485-516; [link] is the element linked to with its ID (the
    Link data is NULL for [None]). *)
Definition seek_update (fuel : nat) (e : elt) (seg : option info) (link : option (Z * info)) : res (Z * elt) :=
  match kind_class mk_E (e_kind (einfo e)) with
  | KVoid => Ok (ERR_NONE, e)
  | _ =>
      match seg with
      | None => Ok (ERR_INVALID_DATA, e)
      | Some s =>
          match link with
          | None => Ok (ERR_INVALID_DATA, e)
          | Some (id, l) =>
              do e <- with_child mk_E to_double fuel false 0 11 (put_bin (fill_buffer_id 4 id)) e;
              do e <- with_child mk_E to_double fuel false 0 12 (put_int (s64 (e_epos l - position_data s))) e;
              Ok (ERR_NONE, e)
          end
      end
  end.
End Update.

(** The children of a cluster as MATROSKA_GetBlockForTimestamp sees them: block groups with their Block
    elements (track number and times), simple blocks, others. *)
Inductive cchild := CGroup (l : list (option (Z * tblock))) | CSimple (track : Z) (b : tblock) | COther.
(** MATROSKA_GetBlockForTimestamp, matroskamain.c 897-925: the place of the block, child and place in the
    group.  Track is an int16_t, BlockTrackNum a uint16_t.  The timestamps it computes stay in the blocks
    and the cluster; the blocks are not returned here. *)
Definition is_wanted (track ts : Z) (n : Z) (b : tblock) (c : clus) : res (bool * clus) :=
  if n mod 2 ^ 16 =? s16 track then
    do r <- block_time b (Some c);
    let '(t, _, c') := r in
    Ok (t =? ts, match c' with Some c => c | None => c end)
  else Ok (false, c).
Fixpoint find_in_group (l : list (option (Z * tblock))) (n : nat) (track ts : Z) (c : clus) : res (option nat * clus) :=
  match l with
  | [] => Ok (None, c)
  | None :: l => find_in_group l (S n) track ts c
  | Some (k, b) :: l =>
      do r <- is_wanted track ts k b c;
      if fst r then Ok (Some n, snd r) else find_in_group l (S n) track ts (snd r)
  end.
Fixpoint get_block (l : list cchild) (n : nat) (track ts : Z) (c : clus) : res (option (nat * nat)) :=
  match l with
  | [] => Ok None
  | COther :: l => get_block l (S n) track ts c
  | CSimple k b :: l =>
      do r <- is_wanted track ts k b c;
      if fst r then Ok (Some (n, O)) else get_block l (S n) track ts (snd r)
  | CGroup g :: l =>
      do r <- find_in_group g O track ts c;
      match fst r with Some m => Ok (Some (n, m)) | None => get_block l (S n) track ts (snd r) end
  end.
