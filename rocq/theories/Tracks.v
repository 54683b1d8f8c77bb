(** Track entries, their compression, and the links from blocks to tracks: libmatroska2/matroskamain.c
    99-103, 266-412, 538-556, 740-785, 928-963, 2255-2449.

    Built with CONFIG_EBML_WRITING and NDEBUG, CONFIG_ZLIB, CONFIG_LZO1X and CONFIG_BZLIB off.
    Allocations succeed. *)
From Verif Require Import Base Vint EbmlId Ebml Tree TreeRead Create Arr Stream Frame Block BlockTime Cues.

(** IDs of the contexts, matroska_sem.c 1042, 1070, 1153-1171. *)
Definition ID_TrackEntry : Z := 174.
Definition ID_TrackNumber : Z := 215.
Definition ID_CodecPrivate : Z := 25506.
Definition ID_ContentEncodings : Z := 28032.
Definition ID_ContentEncoding : Z := 25152.
Definition ID_ContentEncodingOrder : Z := 20529.
Definition ID_ContentEncodingScope : Z := 20530.
Definition ID_ContentEncodingType : Z := 20531.
Definition ID_ContentCompression : Z := 20532.
Definition ID_ContentCompAlgo : Z := 16980.
Definition ID_ContentCompSettings : Z := 16981.
(** PROFILE_WEBM, matroska2/matroska.h 27. *)
Definition PROF_WEBM : Z := 8.
(** MATROSKA_TRACK_ENCODING_COMP_NONE and _ZLIB, matroska2/matroska_sem.h 341-342. *)
Definition COMP_NONE : Z := -1.
Definition COMP_ZLIB : Z := 0.
(** MATROSKA_CONTENTENCODINGSCOPE_BLOCK and _PRIVATE, matroska2/matroska_sem.h 564-565. *)
Definition SCOPE_BLOCK : Z := 1.
Definition SCOPE_PRIVATE : Z := 2.

(** The contexts of matroska_sem.c used here: 741-745, 762-773, 1042, 1070, 1153-1170; all the others
    are [rest].  ContentEncryption is left out of the table of ContentEncoding, and all but three
    elements of the one of TrackEntry: no function below creates a track and the others are optional. *)
Definition tr_E (rest : schema) : schema := fun c =>
  match c with
  | 1 => mkCtx ID_TrackEntry KMaster None (Some [mkSem true true 2 0; mkSem false true 3 0; mkSem false true 4 0]) []
  | 2 => mkCtx ID_TrackNumber KUInt None None []
  | 3 => mkCtx ID_CodecPrivate KBinary None None []
  | 4 => mkCtx ID_ContentEncodings KMaster None (Some [mkSem true false 5 0]) []
  | 5 => mkCtx ID_ContentEncoding KMaster None (Some [mkSem true true 6 0; mkSem true true 7 0; mkSem true true 8 0; mkSem false true 9 PROF_WEBM]) []
  | 6 => mkCtx ID_ContentEncodingOrder KUInt (Some (DInt 0)) None []
  | 7 => mkCtx ID_ContentEncodingScope KUInt (Some (DInt 1)) None []
  | 8 => mkCtx ID_ContentEncodingType KUInt (Some (DInt 0)) None []
  | 9 => mkCtx ID_ContentCompression KMaster None (Some [mkSem true true 10 PROF_WEBM; mkSem false true 11 PROF_WEBM]) []
  | 10 => mkCtx ID_ContentCompAlgo KUInt (Some (DInt 0)) None []
  | 11 => mkCtx ID_ContentCompSettings KBinary None None []
  | _ => rest c
  end.

Section Tracks.
Context (rest : schema) (to_double : Z -> Z).
Definition T : schema := tr_E rest.

(** EBML_MasterFindChild, ebml2/ebml.h 180, in a master. *)
Definition child (id : Z) (e : elt) : option elt := find_child T id (children e).

(** NodeDelete of the first child with that ID: the child leaves the list (nodetree.c 37-43, 60-73), and
    RemoveChild of masters sets the flag (ebmlmaster.c 586-590). *)
Fixpoint drop_first (id : Z) (ch : list elt) : list elt :=
  match ch with
  | [] => []
  | d :: l => if eid_of T (einfo d) =? id then l else d :: drop_first id l
  end.
Definition delete_child (id : Z) (e : elt) : elt :=
  match e with Leaf _ _ => e | Master i chk ch => Master (with_need i true) chk (drop_first id ch) end.

(** MATROSKA_TrackSetCompressionNone, matroskamain.c 2441-2449, and the first lines of the two functions
    below (2395-2399, 2421-2425): the answer and the track. *)
Definition set_none (e : elt) : bool * elt :=
  match child ID_ContentEncodings e with
  | None => (false, e)
  | Some _ => (true, delete_child ID_ContentEncodings e)
  end.

(** EBML_MasterGetChild followed by a change of the child. *)
Definition in_child (fuel : nat) (prof c : Z) (f : elt -> res elt) (e : elt) : res elt := with_child T to_double fuel true prof c f e.

(** MATROSKA_TrackSetCompressionAlgo, matroskamain.c 2389-2414. *)
Definition set_algo (fuel : nat) (prof scope algo : Z) (e : elt) : res (bool * elt) :=
  let '(had, e) := set_none e in
  if scope =? 0 then Ok (had, e)
  else
    do e <- in_child fuel prof 4 (in_child fuel prof 5 (fun enc =>
              do enc <- in_child fuel prof 7 (put_int scope) enc;
              in_child fuel prof 9 (in_child fuel prof 10 (put_int algo)) enc)) e;
    Ok (had, e).

(** MATROSKA_TrackSetCompressionHeader, matroskamain.c 2416-2439; [None] is a NULL header. *)
Definition set_header (fuel : nat) (prof : Z) (header : option (list Z)) (e : elt) : res (bool * elt) :=
  let '(had, e) := set_none e in
  match header with
  | None | Some [] => Ok (had, e)
  | Some h =>
      do e <- in_child fuel prof 4 (in_child fuel prof 5 (in_child fuel prof 9 (fun cp =>
                do cp <- in_child fuel prof 10 (put_int COMP_HEADERSTRIP) cp;
                in_child fuel prof 11 (put_bin h) cp))) e;
      Ok (had, e)
  end.

(** MATROSKA_TrackGetBlockCompression, matroskamain.c 2369-2387.  The scope and the algorithm it looks
    at are created when missing; the track left behind is modelled by [touch_compression]. *)
Definition get_compression (fuel : nat) (prof : Z) (e : elt) : res Z :=
  match child ID_ContentEncodings e with
  | None => Ok COMP_NONE
  | Some encs =>
      match child ID_ContentEncoding encs with
      | None => Ok COMP_NONE
      | Some enc =>
          do r <- get_child T to_double fuel prof 7 enc;
          do s <- int_of (fst r);
          if Z.land s SCOPE_BLOCK =? 0 then Ok COMP_NONE
          else
            match child ID_ContentCompression (snd r) with
            | None => Ok COMP_NONE
            | Some cp =>
                do r <- get_child T to_double fuel prof 10 cp;
                do a <- int_of (fst r);
                Ok (s32 a)
            end
      end
  end.
(** The same function, for the track: a lookup of the child without any change to it. *)
Definition look (fuel : nat) (prof c : Z) (e : elt) : res elt := do r <- get_child T to_double fuel prof c e; Ok (snd r).
Definition touch_compression (fuel : nat) (prof : Z) (e : elt) : res elt :=
  match e with
  | Leaf _ _ => Ok e
  | Master i chk ch =>
      do ch <- change_child T ID_ContentEncodings (fun encs =>
        match encs with
        | Leaf _ _ => Ok encs
        | Master j jc jch =>
            do jch <- change_child T ID_ContentEncoding (fun enc =>
              do r <- get_child T to_double fuel prof 7 enc;
              do s <- int_of (fst r);
              if Z.land s SCOPE_BLOCK =? 0 then Ok (snd r)
              else match snd r with
                   | Leaf _ _ => Bad
                   | Master k kc kch => do kch <- change_child T ID_ContentCompression (look fuel prof 10) kch; Ok (Master k kc kch)
                   end) jch;
            Ok (Master j jc jch)
        end) ch;
      Ok (Master i chk ch)
  end.

(** ** What the functions on blocks see of a track (Block.v) *)
Definition opt_int (d : option elt) : res (option Z) :=
  match d with None => Ok None | Some d => do v <- int_of d; Ok (Some v) end.
Definition opt_bin (d : option elt) : res (option (list Z)) :=
  match d with None => Ok None | Some (Leaf _ (VBin b)) => Ok (Some b) | Some _ => Bad end.
Definition compr_of (cp : elt) : res compr :=
  do a <- opt_int (child ID_ContentCompAlgo cp);
  do s <- opt_bin (child ID_ContentCompSettings cp);
  Ok (mkCompr a s).
Definition encoding_of (enc : elt) : res encoding :=
  do s <- opt_int (child ID_ContentEncodingScope enc);
  do c <- match child ID_ContentCompression enc with None => Ok None | Some cp => do c <- compr_of cp; Ok (Some c) end;
  Ok (mkEnc (negb (zlen (children enc) =? 0)) s c).
(** The elements from the first ContentEncoding on; of the ones after it only their being there counts. *)
Fixpoint encoding_list (ch : list elt) : res (list encoding) :=
  match ch with
  | [] => Ok []
  | d :: l =>
      if eid_of T (einfo d) =? ID_ContentEncoding
      then do e <- encoding_of d; Ok (e :: map (fun _ => mkEnc false None None) l)
      else encoding_list l
  end.
Definition encodings_of (track : elt) : res encodings :=
  match child ID_ContentEncodings track with
  | None => Ok None
  | Some encs => do l <- encoding_list (children encs); Ok (Some l)
  end.

(** ** The codec private data: matroska_trackentry, matroskamain.c 94-98 *)
Record track := mkTrack { t_elt : elt; t_private : Z }.
(** NodeCreate clears the memory and no Create of the class sets the field (2510-2515). *)
Definition new_track (e : elt) : track := mkTrack e 0.
(** The algorithm ContentEncodings declares for the codec private data, 2261-2279 and 2288-2303; the
    algorithm is created when missing, with the default 0 (the created element is not modelled). *)
Definition private_algo (e : elt) : res Z :=
  match child ID_ContentEncodings e with
  | None => Ok COMP_NONE
  | Some encs =>
      match child ID_ContentEncoding encs with
      | None => Ok COMP_NONE
      | Some enc =>
          match child ID_ContentCompression enc with
          | None => Ok COMP_NONE
          | Some cp =>
              do s <- opt_int (child ID_ContentEncodingScope enc);
              match s with
              | None => Ok COMP_NONE
              | Some s =>
                  if Z.land s SCOPE_PRIVATE =? 0 then Ok COMP_NONE
                  else do a <- opt_int (child ID_ContentCompAlgo cp); Ok (s32 (match a with Some a => a | None => 0 end))
              end
          end
      end
  end.
(** ReadTrackEntry, 2255-2281, after the master has been read without error. *)
Definition read_track (e : elt) : res track := do a <- private_algo e; Ok (mkTrack e a).
(** UpdateDataSizeTrackEntry, 2283-2356, before the size of the master is computed.  Without zlib nothing
    is compressed or expanded: when the data are plain the scope loses its bit. *)
Definition flip_private (e : elt) : res elt :=
  match e with
  | Leaf _ _ => Bad
  | Master i chk ch =>
      do ch <- change_child T ID_ContentEncodings (fun encs =>
        match encs with
        | Leaf _ _ => Bad
        | Master j jc jch =>
            do jch <- change_child T ID_ContentEncoding (fun enc =>
              match enc with
              | Leaf _ _ => Bad
              | Master k kc kch =>
                  do kch <- change_child T ID_ContentEncodingScope (fun s => do v <- int_of s; put_int (Z.lxor v SCOPE_PRIVATE) s) kch;
                  Ok (Master k kc kch)
              end) jch;
            Ok (Master j jc jch)
        end) ch;
      Ok (Master i chk ch)
  end.
Definition update_private (t : track) : res track :=
  do a <- private_algo (t_elt t);
  if a =? t_private t then Ok t
  else if t_private t =? COMP_NONE then do e <- flip_private (t_elt t); Ok (mkTrack e (t_private t))
  else match child ID_CodecPrivate (t_elt t) with
       | Some _ => Ok t
       | None => Ok (mkTrack (t_elt t) COMP_NONE)
       end.

(** ** Links *)
(** The block and the addresses of the tracks and segment infos it is linked to, 0 for NULL. *)
Record lblock := mkLB { l_b : block; l_rt : Z; l_wt : Z; l_ri : Z; l_wi : Z }.
(** Node_SET with META_DATA_UPDATE_CMP and BlockTrackChanged, matroskamain.c 99-103, 2466-2476: a new
    value sets bNeedDataSizeUpdate. *)
Definition relinked (old new : Z) (b : block) : block := if old =? new then b else bl_need b true.
Definition set_rt (a : Z) (l : lblock) : lblock := mkLB (relinked (l_rt l) a (l_b l)) a (l_wt l) (l_ri l) (l_wi l).
Definition set_wt (a : Z) (l : lblock) : lblock := mkLB (relinked (l_wt l) a (l_b l)) (l_rt l) a (l_ri l) (l_wi l).
Definition set_ri (a : Z) (l : lblock) : lblock := mkLB (relinked (l_ri l) a (l_b l)) (l_rt l) (l_wt l) a (l_wi l).
Definition set_wi (a : Z) (l : lblock) : lblock := mkLB (relinked (l_wi l) a (l_b l)) (l_rt l) (l_wt l) (l_ri l) a.
Definition set_block (b : block) (l : lblock) : lblock := mkLB b (l_rt l) (l_wt l) (l_ri l) (l_wi l).
Definition set_number (n : Z) (b : block) : block :=
  mkBlock (b_simple b) (b_set b) (b_need b) (b_dsize b) (b_dpos b) n (b_time b) (b_tused b) (b_key b) (b_disc b) (b_invis b)
    (b_lacing b) (b_first b) (b_sizes b) (b_sizes_in b) (b_data b) (b_durs b).

(** The elements at addresses. *)
Definition heap := Z -> option elt.

(** CheckCompression, matroskamain.c 266-320, of the track the block is linked to for reading; the
    algorithm it creates when it is missing is left out. *)
Definition check_link (h : heap) (l : lblock) : res (Z * lblock) :=
  match h (l_rt l) with
  | None => Null
  | Some t =>
      do en <- encodings_of t;
      do r <- check_compression (l_b l) en;
      Ok (fst r, set_block (snd r) l)
  end.
(** TrackNumber of a track, when set: 334-335. *)
Definition number_of (t : elt) : res (option Z) :=
  match child ID_TrackNumber t with
  | None => Ok None
  | Some d => if e_set (einfo d) then do v <- int_of d; Ok (Some v) else Ok None
  end.

(** MATROSKA_LinkBlockWithReadTracks, 323-347; [tracks] are the addresses of the children of Tracks. *)
Fixpoint link_read_tracks (h : heap) (tracks : list Z) (too : bool) (l : lblock) : res (Z * lblock) :=
  match tracks with
  | [] => Ok (ERR_INVALID_DATA, l)
  | a :: r =>
      match h a with
      | None => Null
      | Some t =>
          do n <- number_of t;
          if match n with Some n => n =? b_track (l_b l) | None => false end then
            let was := negb (l_rt l =? 0) in
            let l := set_rt a l in
            let l := if too then set_wt a l else l in
            if was then Ok (ERR_NONE, l) else check_link h l
          else link_read_tracks h r too l
      end
  end.
(** MATROSKA_LinkBlockReadTrack, 349-370. *)
Definition link_read_track (h : heap) (a : Z) (too : bool) (l : lblock) : res (Z * lblock) :=
  match h a with
  | None => Null
  | Some t =>
      do n <- number_of t;
      match n with
      | None => Ok (ERR_INVALID_DATA, l)
      | Some n =>
          let was := negb (l_rt l =? 0) in
          let l := set_rt a (set_block (set_number (n mod 2 ^ 16) (l_b l)) l) in
          let l := if too then set_wt a l else l in
          if was then Ok (ERR_NONE, l) else check_link h l
      end
  end.
(** MATROSKA_LinkBlockWithWriteTracks, 373-393. *)
Fixpoint link_write_tracks (h : heap) (tracks : list Z) (l : lblock) : res (Z * lblock) :=
  match tracks with
  | [] => Ok (ERR_INVALID_DATA, l)
  | a :: r =>
      match h a with
      | None => Null
      | Some t =>
          do n <- number_of t;
          if match n with Some n => n =? b_track (l_b l) | None => false end then
            let was := negb (l_wt l =? 0) in
            let l := set_wt a l in
            if was then Ok (ERR_NONE, l) else check_link h l
          else link_write_tracks h r l
      end
  end.
(** MATROSKA_LinkBlockWriteTrack, 395-412. *)
Definition link_write_track (h : heap) (a : Z) (l : lblock) : res (Z * lblock) :=
  match h a with
  | None => Null
  | Some t =>
      do n <- number_of t;
      match n with
      | None => Ok (ERR_INVALID_DATA, l)
      | Some n =>
          let was := negb (l_wt l =? 0) in
          let l := set_wt a (set_block (set_number (n mod 2 ^ 16) (l_b l)) l) in
          if was then Ok (ERR_NONE, l) else check_link h l
      end
  end.
(** MATROSKA_LinkBlockReadSegmentInfo with UseForWriteToo, 538-548. *)
Definition link_info (a : Z) (l : lblock) : lblock := set_wi a (set_ri a l).

(** ** MATROSKA_LinkClusterBlocks, matroskamain.c 928-963 *)
(** The children of a cluster: a group, with its Block elements and the others, a SimpleBlock, any other. *)
Inductive gitem := GBlock (l : lblock) | GOther (e : elt).
Inductive citem := IGroup (g : list gitem) | ISimple (l : lblock) | IOther (e : elt).
(** The first Block of a group: [None] when the group is deleted. *)
Fixpoint link_group (h : heap) (tracks : list Z) (inf : Z) (keep : bool) (g : list gitem) : res (option (list gitem)) :=
  match g with
  | [] => Ok (Some [])
  | GOther e :: g => do r <- link_group h tracks inf keep g; Ok (option_map (cons (GOther e)) r)
  | GBlock l :: g =>
      do r <- link_read_tracks h tracks true l;
      if negb (fst r =? ERR_NONE) && negb keep then Ok None
      else Ok (Some (GBlock (link_info inf (snd r)) :: g))
  end.
Definition link_item (h : heap) (tracks : list Z) (inf : Z) (keep : bool) (c : citem) : res (option citem) :=
  match c with
  | IGroup g => do r <- link_group h tracks inf keep g; Ok (option_map IGroup r)
  | ISimple l =>
      do r <- link_read_tracks h tracks true l;
      if negb (fst r =? ERR_NONE) && negb keep then Ok None else Ok (Some (ISimple (link_info inf (snd r))))
  | IOther e => Ok (Some c)
  end.
Fixpoint link_cluster (h : heap) (tracks : list Z) (inf : Z) (keep : bool) (cl : list citem) : res (list citem) :=
  match cl with
  | [] => Ok []
  | c :: cl =>
      do r <- link_item h tracks inf keep c;
      do cl <- link_cluster h tracks inf keep cl;
      Ok (match r with Some c => c :: cl | None => cl end)
  end.
End Tracks.

(** ** Flags of blocks *)
(** MATROSKA_BlockKeyframe, matroskamain.c 740-756: [group] tells whether the parent is a BlockGroup, with
    the IDs of its children. *)
Definition ID_ReferenceBlock : Z := 251.
Definition is_keyframe (b : block) (group : option (list Z)) : bool :=
  if b_key b then true
  else if b_simple b then false
  else match group with
       | None => false
       | Some ids => negb (existsb (fun i => i =? ID_ReferenceBlock) ids)
       end.
(** MATROSKA_BlockDiscardable, 758-764, MATROSKA_BlockSetKeyframe and MATROSKA_BlockSetDiscardable, 766-777,
    MATROSKA_BlockLaced, 779-784. *)
Definition is_discardable (b : block) : bool := if b_simple b then b_disc b else false.
Definition set_keyframe (b : block) (v : bool) : block :=
  mkBlock (b_simple b) (b_set b) (b_need b) (b_dsize b) (b_dpos b) (b_track b) (b_time b) (b_tused b) v (b_disc b) (b_invis b)
    (b_lacing b) (b_first b) (b_sizes b) (b_sizes_in b) (b_data b) (b_durs b).
Definition set_discardable (b : block) (v : bool) : block :=
  if b_simple b then
    mkBlock (b_simple b) (b_set b) (b_need b) (b_dsize b) (b_dpos b) (b_track b) (b_time b) (b_tused b) (b_key b) v (b_invis b)
      (b_lacing b) (b_first b) (b_sizes b) (b_sizes_in b) (b_data b) (b_durs b)
  else b.
Definition is_laced (b : block) : bool := negb (b_lacing b =? LACING_NONE).
