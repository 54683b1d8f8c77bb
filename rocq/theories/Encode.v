(** mkclean: links, key frame marks and lacing flags of the source, and the compression chosen for each
    track: mkclean/mkclean.c 451-527, 1942-1953, 2239-2262, 2740-2886. *)
From Verif Require Import Base Vint EbmlId Ebml Tree TreeRead Create Str Durations Frame Block BlockTime Cues Tracks.

(** ** Key frame marks and lacing *)
(** What LinkClusters sees of a block that is linked for reading: its number (uint16_t), the TrackType of
    its track ([None] without that element), its number of frames and its two marks. *)
Record mblock := mkMB { m_num : Z; m_type : option Z; m_frames : Z; m_key : bool; m_disc : bool }.
(** The children of a cluster; a BlockGroup is seen as its first Block. *)
Inductive mitem := MGroup (b : option mblock) | MSimple (b : mblock) | MOther.
Definition is_simple (i : mitem) : bool := match i with MSimple _ => true | _ => false end.

Definition MATROSKA_TRACK_TYPE_SUBTITLE : Z := 17.
(** WTracks[BlockNum].IsLaced = 1, 508 and 524: [None] outside of the array. *)
Fixpoint set_laced (w : list bool) (n : nat) : option (list bool) :=
  match w, n with
  | [], _ => None
  | _ :: w, O => Some (true :: w)
  | x :: w, S n => match set_laced w n with Some w => Some (x :: w) | None => None end
  end.
(** 497-508 and 513-524. *)
Definition mark_block (w : list bool) (b : mblock) : res (list bool * mblock) :=
  match m_type b with
  | None => Ok (w, b)
  | Some ty =>
      let b := if (ty =? MATROSKA_TRACK_TYPE_AUDIO) || (ty =? MATROSKA_TRACK_TYPE_SUBTITLE) then mkMB (m_num b) (m_type b) (m_frames b) true false else b in
      if 1 <? m_frames b then match set_laced w (Z.to_nat (m_num b)) with Some w => Ok (w, b) | None => Bad end else Ok (w, b)
  end.
(** 487-526; the blocks of all clusters. *)
Fixpoint mark_all (w : list bool) (l : list mitem) : res (list bool * list mitem) :=
  match l with
  | [] => Ok (w, [])
  | i :: l =>
      do r <- match i with
              | MGroup (Some b) => do r <- mark_block w b; Ok (fst r, MGroup (Some (snd r)))
              | MSimple b => do r <- mark_block w b; Ok (fst r, MSimple (snd r))
              | _ => Ok (w, i)
              end;
      do s <- mark_all (fst r) l;
      Ok (fst s, snd r :: snd s)
  end.
(** LinkClusters, 451-527: the answer, the lacing marks and the blocks.  Simplification: the links, the time
    offset of --live and the cleaning of the clusters (472-484) were done before. *)
Definition PROFILE_MATROSKA_V1 : Z := 1.
Definition PROFILE_DIVX : Z := 16.
Definition link_clusters (profile : Z) (w : list bool) (l : list mitem) : res (Z * list bool * list mitem) :=
  if ((profile =? PROFILE_MATROSKA_V1) || (profile =? PROFILE_DIVX)) && existsb is_simple l then Ok (-32, w, l)
  else do r <- mark_all w l; Ok (0, fst r, snd r).

(** A track for the lacing flag: its number and its FlagLacing, if there. *)
Record ltrack := mkLT { l_num : option Z; l_flag : option Z }.
(** 1942-1952: the array has as many items as the greatest track number (as an int) plus one. *)
Definition max_num (l : list ltrack) : Z := fold_left (fun i t => match l_num t with Some n => Z.max i (s32 n) | None => i end) l (-1).
Definition new_tracks (l : list ltrack) : list bool := repeat false (Z.to_nat (max_num l + 1)).
(** 2759-2774: FlagLacing of one track; [Bad] reads outside of the array. *)
Definition fix_lacing (w : list bool) (t : ltrack) : res ltrack :=
  match l_num t with
  | None => Ok t
  | Some n =>
      match (if n <? 0 then None else nth_error w (Z.to_nat n)) with
      | None => Bad
      | Some true => Ok (mkLT (l_num t) None)
      | Some false => Ok (mkLT (l_num t) (Some 0))
      end
  end.
Fixpoint fix_all (w : list bool) (l : list ltrack) : res (list ltrack) :=
  match l with [] => Ok [] | t :: l => do t <- fix_lacing w t; do l <- fix_all w l; Ok (t :: l) end.
(** From the source to the flags. *)
Definition lacing_flags (profile : Z) (items : list mitem) (l : list ltrack) : res (Z * list mitem * list ltrack) :=
  do r <- link_clusters profile (new_tracks l) items;
  let '(err, w, items) := r in
  if negb (err =? 0) then Ok (err, items, l) else do l <- fix_all w l; Ok (0, items, l).

(** ** The compression of a track *)
(** --unoptimize, --optimize, OptimizeVideo and CompressionAlgo (NONE, or ZLIB with --compalgo 0), 1519-1520,
    1624-1645. *)
Record options := mkOpt { o_un : bool; o_opt : bool; o_video : bool; o_algo : Z }.
Definition COMP_BZLIB : Z := 1.
Definition COMP_LZO1X : Z := 2.
Definition MATROSKA_TRACK_TYPE_VIDEO : Z := 1.

(** 2797-2798: the codecs whose frames are worth compressing. *)
Definition PLAIN_IDS : list (list Z) :=
  [[83; 95; 85; 83; 70; 0]; [83; 95; 86; 79; 66; 83; 85; 66; 0]; [83; 95; 72; 68; 77; 86; 47; 80; 71; 83; 0]; [66; 95; 86; 79; 66; 66; 84; 78; 0];
   [86; 95; 85; 78; 67; 79; 77; 80; 82; 69; 83; 83; 69; 68; 0]].
Definition PCM_PREFIX : list Z := [65; 95; 80; 67; 77].
Definition plain_codec (codec : list Z) : res bool := do b <- any_of PLAIN_IDS codec; if b then Ok true else starts_with PCM_PREFIX codec.

Section Encode.
Context (rest : schema) (td : Z -> Z).
(** CompressFrameZLib, 2842: the size of the data when they could be compressed. *)
Context (zl : list Z -> option Z).

(** 2776-2781: an empty CodecPrivate is deleted; then the data of CodecPrivate. *)
Definition private_data (e : elt) : option (list Z) :=
  match child rest ID_CodecPrivate e with Some (Leaf _ (VBin d)) => Some d | _ => None end.
Definition drop_empty (e : elt) : elt :=
  match private_data e with Some [] => delete_child rest ID_CodecPrivate e | _ => e end.

(** 2816-2826: the scope of a compression that is there; [None] leaves MATROSKA_CONTENTENCODINGSCOPE_BLOCK. *)
Definition scope_now (fuel : nat) (prof : Z) (e : elt) : res Z :=
  match child rest ID_ContentEncodings e with
  | None => Ok SCOPE_BLOCK
  | Some encs =>
      match child rest ID_ContentEncoding encs with
      | None => Ok SCOPE_BLOCK
      | Some enc => do r <- get_child (T rest) td fuel prof 7 enc; do s <- int_of (fst r); Ok (s32 s)
      end
  end.

(** 2783-2813: the encoding, the header to take off if there is one to set, and the track after
    MATROSKA_TrackGetBlockCompression; [hdr] is the header that the frames of the track share. *)
Definition choose (o : options) (hdr codec : list Z) (fuel : nat) (prof : Z) (e : elt) : res (Z * option (list Z) * elt) :=
  if o_un o then Ok (COMP_NONE, None, e)
  else if negb (o_opt o) then do a <- get_compression rest td fuel prof e; do e <- touch_compression rest td fuel prof e; Ok (a, None, e)
  else if negb (o_algo o =? COMP_NONE) then Ok (o_algo o, None, e)
  else do p <- plain_codec codec;
       if p then Ok (COMP_ZLIB, None, e)
       else Ok (match hdr with [] => COMP_NONE | _ => COMP_HEADERSTRIP end, Some hdr, e).

(** 2828-2851: the encoding and the scope once CodecPrivate was tried. *)
Definition try_private (o : options) (enc scope : Z) (e : elt) : Z * Z :=
  if (o_opt o || negb (enc =? COMP_NONE)) && negb (enc =? COMP_HEADERSTRIP) && negb (scope =? SCOPE_PRIVATE) then
    match private_data e with
    | None => (enc, scope)
    | Some d =>
        let extra := (if enc =? COMP_NONE then 13 else 3) + (if o_algo o =? COMP_ZLIB then 0 else 1) in
        match zl d with
        | Some n => if n + extra <? zlen d then (o_algo o, Z.lor scope SCOPE_PRIVATE) else (enc, scope)
        | None => (enc, scope)
        end
    end
  else (enc, scope).

(** 2869-2884: whether the frames of the track must be read again for what it declares now. *)
Definition coded (fuel : nat) (prof : Z) (e : elt) : res bool :=
  match child rest ID_ContentEncodings e with
  | None => Ok false
  | Some encs =>
      match child rest ID_ContentEncoding encs with
      | None => Ok false
      | Some enc =>
          do r <- get_child (T rest) td fuel prof 7 enc;
          do s <- int_of (fst r);
          if Z.land s SCOPE_BLOCK =? 0 then Ok false
          else
            do r <- get_child (T rest) td fuel prof 9 (snd r);
            do r <- get_child (T rest) td fuel prof 10 (fst r);
            do a <- int_of (fst r);
            Ok (negb (a =? COMP_HEADERSTRIP))
      end
  end.

(** 2776-2884 for one track: ClustersNeedRead and the track.  Simplification: the last look-ups (2872-2879)
    are not shown to create the elements they do not find. *)
Definition encode_track (o : options) (hdr codec : list Z) (fuel : nat) (prof : Z) (e : elt) : res (bool * elt) :=
  let e := drop_empty e in
  do c <- choose o hdr codec fuel prof e;
  let '(enc, header, e) := c in
  do scope <- (if enc =? COMP_NONE then Ok 0 else scope_now fuel prof e);
  let '(enc, scope) := try_private o enc scope e in
  do r <- (if (enc =? COMP_ZLIB) || (enc =? COMP_BZLIB) || (enc =? COMP_LZO1X) then set_algo rest td fuel prof scope COMP_ZLIB e
           else if enc =? COMP_HEADERSTRIP then
             match header with None => Ok (true, e) | Some h => set_header rest td fuel prof (Some h) e end
           else Ok (set_none rest e));
  do again <- coded fuel prof (snd r);
  Ok (fst r || again, snd r).

(** 2246-2259: with --optimize_nv the encodings of video tracks are deleted beforehand, and no header is
    looked for; [ty] is the TrackType. *)
Definition skip_video (o : options) (ty : Z) : bool := o_opt o && negb (o_un o) && negb (o_video o) && (ty =? MATROSKA_TRACK_TYPE_VIDEO).
Definition prepare_track (o : options) (ty : Z) (e : elt) : elt :=
  if skip_video o ty then match child rest ID_ContentEncodings e with Some _ => delete_child rest ID_ContentEncodings e | None => e end else e.
Definition clean_encoding (o : options) (ty : Z) (hdr codec : list Z) (fuel : nat) (prof : Z) (e : elt) : res (bool * elt) :=
  encode_track o (if skip_video o ty then [] else hdr) codec fuel prof (prepare_track o ty e).
End Encode.
