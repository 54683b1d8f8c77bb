(** The checks of mkvalidator: mkvalidator/mkvalidator.c 22-1438.

    A run gives the messages of OutputError and OutputWarning, known by their code; the texts, the progress
    dots and the details of valid files are not modelled.  Built with NDEBUG; allocations succeed.  Elements
    are trees over the Matroska schema; the blocks of a cluster are a list of their own, next to the tree of
    the cluster.  EBML_MasterGetChild adds the child it does not find (with its default value, 0 or an empty
    string); the tree left behind is not kept here: every function asks the same child again in the same way,
    and the lookups without creation of these IDs (main, 1145-1169) come before. *)
From Verif Require Import Base Vint EbmlId EltHead Ebml Tree TreeRead Create Arr Stream Frame BlockTime Cues Str MkSchema.

(** [Err] is OutputError with the code put in Result; [Fatal] is [Result = OutputError(...); goto exit];
    [Lost] is OutputError with the answer dropped; [Warn] is OutputWarning. *)
Inductive msg := Err (c : Z) | Fatal (c : Z) | Lost (c : Z) | Warn (c : Z).

(** Result at the end of main: OutputError answers -ErrCode (130-141). *)
Definition add_result (r : Z) (m : msg) : Z :=
  match m with Err c => Z.lor r (- c) | Fatal c => - c | Lost _ | Warn _ => r end.
Definition result (l : list msg) : Z := fold_left add_result l 0.
(** What the system keeps of the answer of main. *)
Definition exit_status (l : list msg) : Z := result l mod 256.
(** --no-warn and --quick, 138-139 and 143-156: the messages shown, and the status of the exit at the first
    of them. *)
Definition shown (warnings : bool) (l : list msg) : list msg :=
  filter (fun m => match m with Warn _ => warnings | _ => true end) l.
Definition code (m : msg) : Z := match m with Err c | Fatal c | Lost c | Warn c => c end.
Definition quick_status (warnings : bool) (l : list msg) : Z :=
  match shown warnings l with [] => exit_status l | m :: _ => (- code m) mod 256 end.

(** Node_IsPartOf. *)
Definition class_of (e : elt) : eclass := kind_class mk (e_kind (einfo e)).
(** EL_Pos and EL_Type, 37-39. *)
Definition pos (e : elt) : Z := e_epos (einfo e).
Definition is_type (c : Z) (e : elt) : bool := eid_of mk (einfo e) =? c_id (mk c).
(** EBML_MasterFindChild, and the children EBML_MasterFindChild and EBML_MasterNextChild go through. *)
Definition lookup (c : Z) (e : elt) : option elt := find_child mk (c_id (mk c)) (children e).
Definition all_of (c : Z) (e : elt) : list elt := filter (is_type c) (children e).

(** CheckUnknownElements, 158-181: the warnings and VoidAmount.  A Void child replaces what was counted
    before it. *)
Fixpoint check_unknown (e : elt) : list msg * Z :=
  match e with
  | Leaf _ _ => ([], 0)
  | Master _ _ ch =>
      (fix go (l : list elt) (void : Z) : list msg * Z :=
         match l with
         | [] => ([], void)
         | d :: l =>
             match class_of d with
             | KDummy => let '(m, v) := go l void in (Warn 12 :: m, v)
             | KVoid => let i := einfo d in go l (full_size (eid_of mk i) (e_dsize i) (e_szlen i) (e_fin i))
             | KMaster => let '(m, v) := check_unknown d in let '(m', v') := go l (void + v) in (m ++ m', v')
             | _ => go l void
             end
         end) ch 0
  end.

(** gcd, 183-192.  Dividing by 0, or the least int64_t by -1, is undefined. *)
Fixpoint gcd (fuel : nat) (a b : Z) : res Z :=
  match fuel with
  | O => Fuel
  | S fuel =>
      if (b =? 0) || ((a =? - 2 ^ 63) && (b =? -1)) then Bad
      else let c := Z.rem a b in if c =? 0 then Ok b else gcd fuel b c
  end.

Section Validator.
Context (to_double : Z -> Z).

(** EBML_MasterGetChild, ebml2/ebml.h 181. *)
Definition got (prof c : Z) (e : elt) : res elt := do r <- get_child mk to_double 4 prof c e; Ok (fst r).
Definition got_int (prof c : Z) (e : elt) : res Z := do d <- got prof c e; int_of d.
(** MATROSKA_DISPLAY_UNIT_PIXELS and _DISPLAYASPECTRATIO, matroska2/matroska_sem.h 412-415; PROFILE_*,
    matroska2/matroska.h 22-28; MATROSKA_TRACK_TYPE_*, matroska2/matroska_sem.h 327-328. *)
Definition UNIT_PIXELS : Z := 0.
Definition UNIT_RATIO : Z := 3.
Definition P_V1 : Z := 1.
Definition P_V2 : Z := 2.
Definition P_V3 : Z := 4.
Definition P_WEBM : Z := 8.
Definition P_DIVX : Z := 16.
Definition P_V4 : Z := 32.
Definition P_V5 : Z := 64.
Definition TRACK_VIDEO : Z := 1.
Definition TRACK_AUDIO : Z := 2.
Definition when (b : bool) (m : msg) : list msg := if b then [m] else [].

(** DisplayWidth or DisplayHeight, 217-231: the value and the error. *)
Definition display_of (c : Z) (video : elt) (unit pixel : Z) : res (Z * list msg) :=
  match lookup c video with
  | Some d => do v <- int_of d; Ok (v, [])
  | None => Ok (if unit =? UNIT_PIXELS then (pixel, []) else (0, [Err 0xE2]))
  end.
(** The test of the output pixels, 238-256. *)
Definition check_pixels (prof dw dh pw ph : Z) : res (list msg) :=
  if (dw <? pw) && (dh <? ph) then
    do g <- gcd 200 dw dh;
    let serious := if g =? 1 then 1 else 0 in
    let serious := if s64 (dw * ph) =? s64 (dh * pw) then serious + 1 else serious in
    let serious := if (s64 (8 * dw) <=? pw) && (s64 (8 * dh) <=? ph) then serious + 2 else serious in
    let serious := if prof =? P_WEBM then serious else serious - 1 in
    Ok (if 2 <? serious then [Err 0xE3] else if serious =? 0 then [] else [Warn 0xE3])
  else Ok [].
(** CheckVideoTrack, 194-294.  0xE1 and the first 0xE2 are for a child EBML_MasterGetChild does not give,
    which does not happen. *)
Definition check_video (prof : Z) (track : elt) : res (list msg) :=
  match lookup cVideo track with
  | None => Ok [Err 0xE0]
  | Some video =>
      do pw <- got_int prof cPixelWidth video;
      do ph <- got_int prof cPixelHeight video;
      do unit <- got_int prof cDisplayUnit video;
      do rw <- display_of cDisplayWidth video unit pw;
      do rh <- display_of cDisplayHeight video unit ph;
      let '(dw, m1) := rw in
      let '(dh, m2) := rh in
      do m3 <- (if unit =? UNIT_PIXELS then check_pixels prof dw dh pw ph else Ok []);
      do m4 <- (if unit =? UNIT_RATIO then
                  let crop c := match lookup c video with Some _ => [Err 0xE4] | None => [] end in
                  Ok (crop cPixelCropTop ++ crop cPixelCropBottom ++ crop cPixelCropLeft ++ crop cPixelCropRight
                      ++ when (dw =? pw) (Warn 0xE7) ++ when (dh =? ph) (Warn 0xE7))
                else
                  do t <- got_int prof cPixelCropTop video;
                  do b <- got_int prof cPixelCropBottom video;
                  do l <- got_int prof cPixelCropLeft video;
                  do r <- got_int prof cPixelCropRight video;
                  Ok (when (dh <=? s64 (t + b)) (Err 0xE5) ++ when (dw <=? s64 (l + r)) (Err 0xE6)));
      Ok (m1 ++ m2 ++ when (dh =? 0) (Err 0xE7) ++ when (dw =? 0) (Err 0xE7) ++ m3 ++ m4)
  end.

(** EBML_StringGet, ebmlstring.c 36-50, for text that fits the buffer and that the conversion from the
    system's character set leaves alone. *)
Definition text_of (e : elt) : res (list Z) := opt_res (string_value e).
Definition same_name (a b : list Z) : res bool := tcsisame_ascii (a ++ [0]) (b ++ [0]).
Definition float_zero (e : elt) : res bool :=
  match e with Leaf _ (VFlt b) => Ok ((b =? 0) || (b =? 2 ^ 63)) | _ => Bad end.
Definition null_rate (c : Z) (audio : elt) : res (list msg) :=
  match lookup c audio with
  | None => Ok []
  | Some d => do z <- float_zero d; Ok (when z (Err 0x30A))
  end.
(** "A_VORBIS", "A_OPUS", "V_VP8", "V_VP9" and "A_TRUEHD". *)
Definition A_VORBIS : list Z := [65; 95; 86; 79; 82; 66; 73; 83].
Definition A_OPUS : list Z := [65; 95; 79; 80; 85; 83].
Definition V_VP8 : list Z := [86; 95; 86; 80; 56].
Definition V_VP9 : list Z := [86; 95; 86; 80; 57].
Definition A_TRUEHD : list Z := [65; 95; 84; 82; 85; 69; 72; 68].
(** The warnings on the codec name, 318-323; [upper] is what tcsupr makes of the name. *)
Definition check_name (name upper : list Z) : list msg :=
  when (negb (list_eqb upper name)) (Warn 0x307) ++
  when ((zlen upper <? 3) || negb (nth 1 upper 0 =? 95) ||
        negb (existsb (Z.eqb (nth 0 upper 0)) [65; 86; 83; 66])) (Warn 0x308).
(** The rules of WebM, 342-359. *)
Definition check_webm (type : Z) (name : list Z) : res (list msg) :=
  if type =? TRACK_AUDIO then
    do a <- same_name name A_VORBIS;
    do b <- same_name name A_OPUS;
    Ok (when (negb a && negb b) (Err 0x303))
  else if type =? TRACK_VIDEO then
    do a <- same_name name V_VP8;
    do b <- same_name name V_VP9;
    Ok (when (negb a && negb b) (Err 0x304))
  else Ok [Err 0x302].
(** An attached file with that FileUID, 376-384. *)
Fixpoint file_with (uid : Z) (l : list elt) : res bool :=
  match l with
  | [] => Ok false
  | f :: l =>
      if is_type cAttachedFile f then
        match lookup cFileUID f with
        | None => file_with uid l
        | Some d => do v <- int_of d; if v =? uid then Ok true else file_with uid l
        end
      else file_with uid l
  end.
(** The loop on the attachment links, 363-394. *)
Fixpoint check_links (att : option elt) (links : list elt) : res (list msg) :=
  match links with
  | [] => Ok []
  | k :: links =>
      match att with
      | None => Ok [Err 0x305]
      | Some a =>
          do u <- int_of k;
          do f <- file_with u (children a);
          do r <- check_links att links;
          Ok (when (negb f) (Err 0x306) ++ r)
      end
  end.
(** One turn of the loop of CheckTracks, 296-399.  0x300, 0x301 and 0x309 are for children
    EBML_MasterGetChild does not give, which does not happen. *)
Definition check_track (prof : Z) (att : option elt) (track : elt) : res (list msg) :=
  do n <- got_int prof cTrackNumber track;
  do type <- got_int prof cTrackType track;
  do id <- got prof cCodecID track;
  do name <- text_of id;
  do upper <- tcsupr (name ++ [0]);
  do m1 <- (if type =? TRACK_AUDIO then
              do audio <- got prof cAudio track;
              do a <- null_rate cOutputSamplingFrequency audio;
              do b <- null_rate cSamplingFrequency audio;
              Ok (a ++ b)
            else Ok []);
  do m2 <- (if prof =? P_WEBM then check_webm type name else Ok []);
  do m3 <- check_links att (all_of cAttachmentLink track);
  Ok (check_name name (removelast upper) ++ m1 ++ m2 ++ m3).
Fixpoint each {A} (f : A -> res (list msg)) (l : list A) : res (list msg) :=
  match l with [] => Ok [] | x :: l => do a <- f x; do b <- each f l; Ok (a ++ b) end.
Definition check_tracks (prof : Z) (att : option elt) (tracks : elt) : res (list msg) :=
  each (check_track prof att) (all_of cTrackEntry tracks).

(** ProfileCallback, 409-419, which deletes nothing. *)
Definition report_msg (r : report) : msg :=
  match r with RProfile _ => Err 0x201 | RMissing _ => Err 0x200 | RMultiple _ => Err 0x202 end.
(** CheckProfileViolation, 421-447; the fuel of the loop over the children is their number. *)
Fixpoint check_profile (prof : Z) (e : elt) : res (list msg) :=
  match e with
  | Leaf _ _ => Ok []
  | Master i chk ch =>
      do r <- check_context mk (length ch) (Some (fun _ => false)) prof e;
      do sub <- (fix go (l : list elt) : res (list msg) :=
                   match l with
                   | [] => Ok []
                   | Leaf _ _ :: l => go l
                   | (Master _ _ _ as d) :: l => do a <- check_profile prof d; do b <- go l; Ok (a ++ b)
                   end) ch;
      Ok (when (chk =? 1) (Err 0x203) ++ map report_msg (snd r) ++ sub)
  end.

(** ** The level 1 elements of the segment *)
(** A block: MATROSKA_BlockTrackNum, MATROSKA_BlockLaced, MATROSKA_BlockKeyframe, MATROSKA_BlockGetLength of
    its frames, and its times. *)
Record vblock := mkVB { vb_track : Z; vb_laced : bool; vb_key : bool; vb_lens : list Z; vb_time : tblock }.
(** The children of a cluster: block groups with their Block elements ([None] for the others), simple
    blocks, others. *)
Inductive vitem := VGroup (l : list (option vblock)) | VSimple (b : vblock) | VOther.
(** A cluster as MATROSKA_LinkClusterBlocks (561-566, matroskamain.c 928-961) leaves it. *)
Record vclus := mkVC { vc_elt : elt; vc_items : list vitem; vc_time : clus }.
(** The block a group is looked at for: its first. *)
Fixpoint first_block (l : list (option vblock)) : option vblock :=
  match l with [] => None | Some b :: _ => Some b | None :: l => first_block l end.
Definition item_block (it : vitem) : option vblock :=
  match it with VGroup l => first_block l | VSimple b => Some b | VOther => None end.
(** The children as MATROSKA_GetBlockForTimestamp sees them. *)
Definition cue_child (it : vitem) : cchild :=
  match it with
  | VGroup l => CGroup (map (option_map (fun b => (vb_track b, vb_time b))) l)
  | VSimple b => CSimple (vb_track b) (vb_time b)
  | VOther => COther
  end.

(** What main knows of the segment: 23-25 and the header of the segment. *)
Record seg := mkSeg {
  g_head : info; g_info : option elt; g_tracks : option elt; g_chapters : option elt; g_tags : option elt;
  g_cues : option elt; g_att : option elt; g_seek : option elt; g_seek2 : option elt; g_clusters : list vclus }.

(** MATROSKA_MetaSeekID and MATROSKA_MetaSeekAbsolutePos, matroskamain.c 440-483, over this schema; the
    parent of the seek head is the segment. *)
Definition point_id (e : elt) : res Z :=
  match lookup cSeekID e with
  | None => Ok 0
  | Some (Leaf _ (VBin [])) => Ok 0
  | Some (Leaf _ (VBin d)) => opt_res (buffer_to_id d)
  | Some _ => Bad
  end.
Definition point_pos (head : info) (e : elt) : res Z :=
  match lookup cSeekPosition e with
  | None => Ok INVALID_FILEPOS
  | Some d =>
      do r <- int_of d;
      if r =? INVALID_FILEPOS then Ok INVALID_FILEPOS
      else if eid_of mk head =? c_id (mk cSegment) then Ok (s64 (r + position_data head)) else Ok INVALID_FILEPOS
  end.
(** A seek entry for one of the elements found once, 465-512. *)
Definition once_refs (s : seg) : list (Z * option elt * Z) :=
  [(cInfo, g_info s, 0x62); (cTracks, g_tracks s, 0x64); (cCues, g_cues s, 0x66); (cTags, g_tags s, 0x68);
   (cChapters, g_chapters s, 0x6A); (cAttachments, g_att s, 0x6C)].
Definition check_once (found : option elt) (c : Z) (p : Z) : list msg :=
  match found with None => [Err c] | Some e => when (negb (pos e =? p)) (Err (c + 1)) end.
(** One turn of the loop of CheckSeekHead, 449-540: the messages and the class noted as referenced.
    [main] tells whether it is RSeekHead or RSeekHead2. *)
Definition check_point (s : seg) (main : bool) (head : elt) (e : elt) : res (list msg * list Z) :=
  do p <- point_pos (g_head s) e;
  do id <- point_id e;
  Ok (if p =? INVALID_FILEPOS then ([Err 0x60], [])
      else if id =? 0 then ([Err 0x61], [])
      else match find (fun r => c_id (mk (fst (fst r))) =? id) (once_refs s) with
      | Some (c, found, k) => (check_once found k p, [c])
      | None =>
          if id =? c_id (mk cSeekHead) then
            if pos head =? p then ([Err 0x6E], [])
            else if main then (match g_seek2 s with None => [Err 0x6F] | Some _ => [] end, [cSeekHead])
            else (match g_seek s with Some h => when (negb (p =? pos h)) (Err 0x70) | None => [] end, [])
          else if id =? c_id (mk cCluster) then
            (when (negb (existsb (fun c => pos (vc_elt c) =? p) (g_clusters s)) && negb (zlen (g_clusters s) =? 0)) (Err 0x71), [])
          else ([Warn 0x860], [])
      end).
Fixpoint check_points (s : seg) (main : bool) (head : elt) (l : list elt) : res (list msg * list Z) :=
  match l with
  | [] => Ok ([], [])
  | e :: l =>
      do a <- check_point s main head e;
      do b <- check_points s main head l;
      Ok (fst a ++ fst b, snd a ++ snd b)
  end.
Definition noted (c : Z) (l : list Z) : bool := existsb (Z.eqb c) l.
Definition unreferenced (found : option elt) (c : Z) (l : list Z) : list msg :=
  match found with Some _ => when (negb (noted c l)) (Warn 0x861) | None => [] end.
(** CheckSeekHead, 449-559. *)
Definition check_seek_head (s : seg) (main : bool) (head : elt) : res (list msg) :=
  do r <- check_points s main head (all_of cSeek head);
  let '(m, l) := r in
  Ok (if main then
        m ++ unreferenced (g_info s) cInfo l ++ unreferenced (g_tracks s) cTracks l ++ unreferenced (g_cues s) cCues l ++
        unreferenced (g_tags s) cTags l ++ unreferenced (g_chapters s) cChapters l ++ unreferenced (g_att s) cAttachments l ++
        unreferenced (g_seek2 s) cSeekHead l
      else m).

(** ** Blocks *)
(** The loop of TrackIsLaced, TrackIsVideo and TrackNeedsKeyframe, 568-631: the first track of that number;
    the number is an int16_t. *)
Fixpoint find_track (prof n : Z) (l : list elt) : res (option elt) :=
  match l with
  | [] => Ok None
  | t :: l => do v <- got_int prof cTrackNumber t; if v =? s16 n then Ok (Some t) else find_track prof n l
  end.
Definition entries (tracks : elt) : list elt := all_of cTrackEntry tracks.
Definition track_laced (prof : Z) (tracks : list elt) (n : Z) : res bool :=
  do t <- find_track prof n tracks;
  match t with None => Ok true | Some t => do v <- got_int prof cFlagLacing t; Ok (negb (v =? 0)) end.
Definition track_video (prof : Z) (tracks : list elt) (n : Z) : res bool :=
  do t <- find_track prof n tracks;
  match t with None => Ok false | Some t => do v <- got_int prof cTrackType t; Ok (v =? TRACK_VIDEO) end.
Definition needs_key (prof : Z) (tracks : list elt) (n : Z) : res bool :=
  do t <- find_track prof n tracks;
  match t with
  | None => Ok false
  | Some t =>
      do v <- got_int prof cTrackType t;
      if v =? TRACK_VIDEO then Ok false
      else if v =? TRACK_AUDIO then
        do id <- got prof cCodecID t;
        do name <- text_of id;
        do s <- same_name name A_TRUEHD;
        Ok (negb s)
      else Ok true
  end.

(** A write in an array; the caller has checked the index. *)
Fixpoint put {A} (n : nat) (x : A) (l : list A) : list A :=
  match l, n with [], _ => [] | _ :: l, O => x :: l | y :: l, S n => y :: put n x l end.
(** One block in CheckVideoStart, 667-676 and 683-692: TrackKeyframe and TrackFirstKeyframePos, [cpos] the
    position of the cluster. *)
Definition video_block (prof : Z) (tracks : list elt) (cpos : Z) (b : vblock) (st : list bool * list Z) : res (list msg * (list bool * list Z)) :=
  let n := vb_track b in
  let '(kf, fp) := st in
  if zlen kf <? n then Ok ([Lost 0xC3], st)
  else
    do v <- track_video prof tracks n;
    if v then
      if zlen kf <=? n then Bad
      else
        let i := Z.to_nat n in
        let kf := if negb (nth i kf false) && vb_key b then put i true kf else kf in
        let fp := if negb (nth i kf false) && (nth i fp 0 =? 0) then put i cpos fp else fp in
        Ok ([], (kf, fp))
    else Ok ([], st).
Fixpoint video_items (prof : Z) (tracks : list elt) (cpos : Z) (l : list vitem) (st : list bool * list Z) : res (list msg * (list bool * list Z)) :=
  match l with
  | [] => Ok ([], st)
  | it :: l =>
      match item_block it with
      | None => video_items prof tracks cpos l st
      | Some b =>
          do r <- video_block prof tracks cpos b st;
          do r' <- video_items prof tracks cpos l (snd r);
          Ok (fst r ++ fst r', snd r')
      end
  end.
(** The last loop, 695-699; its counter is a uint16_t. *)
Fixpoint start_warnings (fuel : nat) (n : Z) (kf : list bool) (fp : list Z) : res (list msg) :=
  if n <? zlen kf then
    match fuel with
    | O => Fuel
    | S fuel =>
        do r <- start_warnings fuel ((n + 1) mod 2 ^ 16) kf fp;
        Ok (when (nth (Z.to_nat n) kf false && negb (nth (Z.to_nat n) fp 0 =? 0)) (Warn 0xC0) ++ r)
    end
  else Ok [].
(** CheckVideoStart, 633-704; [prev] is ClusterTime, [count] is TrackMax + 1. *)
Fixpoint check_video_start (fuel : nat) (prof : Z) (tracks : list elt) (count : Z) (prev : Z) (l : list vclus) : res (list msg) :=
  match l with
  | [] => Ok []
  | c :: l =>
      let t := fst (cluster_time (vc_time c)) in
      let m1 := if t =? INVALID_TIMESTAMP then [Err 0xC1]
                else when (negb (prev =? INVALID_TIMESTAMP) && (t <=? prev)) (Warn 0xC2) in
      let n := Z.to_nat count in
      do r <- video_items prof tracks (pos (vc_elt c)) (vc_items c) (repeat false n, repeat 0 n);
      do m3 <- start_warnings fuel 0 (fst (snd r)) (snd (snd r));
      do m4 <- check_video_start fuel prof tracks count t l;
      Ok (m1 ++ fst r ++ m3 ++ m4)
  end.

(** CheckPosSize, 706-731. *)
Fixpoint check_pos_size (head : info) (prev : option elt) (l : list vclus) : res (list msg) :=
  match l with
  | [] => Ok []
  | c :: l =>
      let e := vc_elt c in
      do m1 <- match lookup cPrevSize e with
               | None => Ok []
               | Some d =>
                   do v <- int_of d;
                   Ok (match prev with None => [Err 0xA0] | Some p => when (negb (v =? s64 (pos e - pos p))) (Err 0xA1) end)
               end;
      do m2 <- match lookup cPosition e with
               | None => Ok []
               | Some d => do v <- int_of d; Ok (when (negb (v =? s64 (pos e - position_data head))) (Err 0xA2))
               end;
      do m3 <- check_pos_size head (Some e) l;
      Ok (m1 ++ m2 ++ m3)
  end.

(** The fields Num and DataLength of track_info, 42-49. *)
Record tinfo := mkTI { ti_num : Z; ti_len : Z }.
(** The first entry of that number: its data grow by the lengths of the frames; [None] when there is none. *)
Fixpoint grow (n : Z) (lens : list Z) (l : list tinfo) : option (list tinfo) :=
  match l with
  | [] => None
  | t :: l => if ti_num t =? n then Some (mkTI (ti_num t) (fold_left Z.add lens (ti_len t)) :: l)
              else match grow n lens l with Some l => Some (t :: l) | None => None end
  end.
(** One block in CheckLacingKeyframe, 753-780 and 784-807; BlockNum is an int16_t. *)
Definition lacing_block (prof : Z) (tracks : list elt) (ti : list tinfo) (b : vblock) : res (list msg * list tinfo) :=
  let n := s16 (vb_track b) in
  match grow n (vb_lens b) ti with
  | None => Ok ([Err 0xB2], ti)
  | Some ti =>
      do m1 <- (if vb_laced b then do l <- track_laced prof tracks n; Ok (when (negb l) (Err 0xB0)) else Ok []);
      do m2 <- (if vb_key b then Ok [] else do k <- needs_key prof tracks n; Ok (when k (Err 0xB1)));
      Ok (m1 ++ m2, ti)
  end.
(** CheckLacingKeyframe, 733-812, on the blocks of all clusters in order. *)
Fixpoint lacing_blocks (prof : Z) (tracks : list elt) (ti : list tinfo) (l : list vblock) : res (list msg * list tinfo) :=
  match l with
  | [] => Ok ([], ti)
  | b :: l =>
      do r <- lacing_block prof tracks ti b;
      do r' <- lacing_blocks prof tracks (snd r) l;
      Ok (fst r ++ fst r', snd r')
  end.
Definition cluster_blocks (c : vclus) : list vblock :=
  flat_map (fun it => match item_block it with Some b => [b] | None => [] end) (vc_items c).
Definition check_lacing (prof : Z) (tracks : list elt) (ti : list tinfo) (l : list vclus) : res (list msg * list tinfo) :=
  lacing_blocks prof tracks ti (flat_map cluster_blocks l).

(** The loop over the clusters in CheckCueEntries, 839-847. *)
Fixpoint cue_found (ts n : Z) (l : list vclus) : res bool :=
  match l with
  | [] => Ok false
  | c :: l =>
      do r <- get_block (map cue_child (vc_items c)) 0 n ts (vc_time c);
      match r with Some _ => Ok true | None => cue_found ts n l end
  end.
Definition scale_of (inf : elt) : res (option Z) :=
  match lookup cTimestampScale inf with None => Ok None | Some d => do v <- int_of d; Ok (Some v) end.
Fixpoint check_cue_points (scale : option Z) (clusters : list vclus) (prev : Z) (l : list elt) : res (list msg) :=
  match l with
  | [] => Ok []
  | e :: l =>
      do t <- cue_time mk (mkCue e scale);
      do n <- cue_track mk (mkCue e scale);
      do f <- cue_found t n clusters;
      do r <- check_cue_points scale clusters t l;
      Ok (when ((t <? prev) && negb (prev =? INVALID_TIMESTAMP)) (Warn 0x311) ++ when (negb f) (Err 0x312) ++ r)
  end.
(** CheckCueEntries, 814-853. *)
Definition check_cues (s : seg) (cues : elt) : res (list msg) :=
  match g_info s with
  | None => Ok [Err 0x310]
  | Some inf =>
      if zlen (g_clusters s) =? 0 then Ok []
      else do scale <- scale_of inf; check_cue_points scale (g_clusters s) INVALID_TIMESTAMP (all_of cCuePoint cues)
  end.

(** ** main *)
(** --live and --divx. *)
Record opts := mkOpts { o_live : bool; o_divx : bool }.
(** A level 1 element: whether EBML_ElementReadData answers ERR_NONE, and the element; the blocks and times
    are those of clusters. *)
Record lv1 := mkL1 { l_ok : bool; l_what : vclus }.
Definition l_elt (x : lv1) : elt := vc_elt (l_what x).
(** The file as main gets it: the EBML header if the first element is one, whether it is read, and the
    element; the header of the next element; the level 1 elements EBML_FindNextElement and
    EBML_ElementSkipData give. *)
Record source := mkSrc { f_head : option (bool * elt); f_seg : option info; f_level1 : list lv1 }.

(** EBML_ANY_PROFILE as an int, EBML_MAX_VERSION, EBML_MAX_ID and EBML_MAX_SIZE, ebml2/ebml.h 22-30. *)
Definition ANY_PROFILE : Z := -1.
(** "matroska" and "webm". *)
Definition MATROSKA : list Z := [109; 97; 116; 114; 111; 115; 107; 97].
Definition WEBM : list Z := [119; 101; 98; 109].
(** The profile of a Matroska file of that DocTypeVersion, 1000-1017. *)
Definition mk_profile (o : opts) (ver : Z) : list msg * Z :=
  if o_divx o then ([], P_DIVX)
  else if ver =? 5 then ([], P_V5)
  else if ver =? 4 then ([], P_V4)
  else if ver =? 3 then ([], P_V3)
  else if ver =? 2 then ([], P_V2)
  else if ver =? 1 then ([], P_V1)
  else ([Lost 10], 0).
(** The EBML header, 952-1019: the messages, the void data and the profile; [None] for [goto exit]. *)
Definition check_head (o : opts) (h : option (bool * elt)) : res (list msg * Z * option Z) :=
  match h with
  | None => Ok ([Fatal 3], 0, None)
  | Some (false, _) => Ok ([Fatal 4], 0, None)
  | Some (true, Leaf _ _) => Bad
  | Some (true, Master i chk ch) =>
      if chk =? 1 then Ok ([Fatal 12], 0, None)
      else
        let e := Master i chk ch in
        let '(mu, void) := check_unknown e in
        do rv <- got_int ANY_PROFILE cReadVersion e;
        do il <- got_int ANY_PROFILE cMaxIdLength e;
        do sl <- got_int ANY_PROFILE cMaxSizeLength e;
        do d <- got ANY_PROFILE cDocType e;
        do doc <- text_of d;
        let m := mu ++ when (1 <? rv) (Lost 5) ++ when (4 <? il) (Lost 6) ++ when (8 <? sl) (Lost 7) in
        if negb (list_eqb doc MATROSKA) && negb (list_eqb doc WEBM) then Ok (m ++ [Fatal 8], void, None)
        else
          do ver <- got_int ANY_PROFILE cDocTypeVersion e;
          do rver <- got_int ANY_PROFILE cDocTypeReadVersion e;
          let m := m ++ when (ver <? rver) (Lost 9) in
          if list_eqb doc MATROSKA then let '(mp, prof) := mk_profile o ver in Ok (m ++ mp, void, Some prof)
          else Ok (m, void, Some P_WEBM)
  end.

(** The variables of main the loop changes; [x_max] is TrackMax, [x_prev] is Prev. *)
Record state := mkSt { x_seg : seg; x_void : Z; x_ti : list tinfo; x_max : Z; x_video : bool; x_prev : option elt }.
(** A level 1 element that is kept: the two checks every one goes through. *)
Definition check_kept (prof : Z) (e : elt) : res (list msg * Z) :=
  let '(mu, void) := check_unknown e in
  do mp <- check_profile prof e;
  Ok (mu ++ mp, void).
(** The loop over the tracks in main, 1142-1173: the messages of CheckVideoTrack, Tracks, TrackMax and
    HasVideo.  (int) and (size_t) conversions wrap. *)
Fixpoint scan_tracks (prof : Z) (l : list elt) (max : Z) (video : bool) : res (list msg * list tinfo * Z * bool) :=
  match l with
  | [] => Ok ([], [], max, video)
  | t :: l =>
      do n <- match lookup cTrackNumber t with None => Ok None | Some d => do v <- int_of d; Ok (Some v) end;
      do k <- match lookup cTrackType t with None => Ok None | Some d => do v <- int_of d; Ok (Some v) end;
      let is_video := match k with Some v => v =? TRACK_VIDEO | None => false end in
      do m <- (if is_video then check_video prof t else Ok []);
      do r <- scan_tracks prof l (match n with Some v => Z.max max (v mod 2 ^ 64) | None => max end) (video || is_video);
      let '(m', ti, max, video) := r in
      Ok (m ++ m', mkTI (match n with Some v => s32 v | None => 0 end) 0 :: ti, max, video)
  end.
(** One turn of the loop, 1041-1308: the messages, and the state or [None] for [goto exit]. *)
Definition with_prev (s : state) (p : option elt) : state := mkSt (x_seg s) (x_void s) (x_ti s) (x_max s) (x_video s) p.
Definition keep (prof : Z) (s : state) (e : elt) (g : seg) : res (list msg * option state) :=
  do r <- check_kept prof e;
  Ok (fst r, Some (mkSt g (x_void s + snd r) (x_ti s) (x_max s) (x_video s) (Some e))).
Definition level1 (o : opts) (prof : Z) (s : state) (x : lv1) : res (list msg * option state) :=
  let g := x_seg s in
  let e := l_elt x in
  let fail c : res (list msg * option state) := Ok ([Fatal c], None) in
  let extra m : res (list msg * option state) := Ok ([m], Some (with_prev s (Some e))) in
  let skip m : res (list msg * option state) := Ok (m, Some (with_prev s None)) in
  if is_type cCluster e then
    if l_ok x then
      keep prof s e (mkSeg (g_head g) (g_info g) (g_tracks g) (g_chapters g) (g_tags g) (g_cues g) (g_att g) (g_seek g) (g_seek2 g) (g_clusters g ++ [l_what x]))
    else fail 0x180
  else if is_type cSeekHead e then
    if o_live o then skip [Warn 0x170]
    else if l_ok x then
      let '(m, g') := match g_seek g, g_seek2 g with
                | None, _ => ([], mkSeg (g_head g) (g_info g) (g_tracks g) (g_chapters g) (g_tags g) (g_cues g) (g_att g) (Some e) (g_seek2 g) (g_clusters g))
                | Some _, None => ([Warn 0x103], mkSeg (g_head g) (g_info g) (g_tracks g) (g_chapters g) (g_tags g) (g_cues g) (g_att g) (g_seek g) (Some e) (g_clusters g))
                | Some _, Some _ => ([Warn 0x101], g)
                end in
      do r <- keep prof s e g';
      Ok (m ++ fst r, snd r)
    else fail 0x100
  else if is_type cInfo e then
    if l_ok x then
      match g_info g with
      | Some _ => extra (Warn 0x110)
      | None =>
          do r <- keep prof s e (mkSeg (g_head g) (Some e) (g_tracks g) (g_chapters g) (g_tags g) (g_cues g) (g_att g) (g_seek g) (g_seek2 g) (g_clusters g));
          Ok (fst r ++ (if o_live o then match lookup cDuration e with Some _ => [Warn 0x112] | None => [] end else []), snd r)
      end
    else fail 0x111
  else if is_type cTracks e then
    if l_ok x then
      match g_tracks g with
      | Some _ => extra (Warn 0x120)
      | None =>
          do r <- check_kept prof e;
          do v <- scan_tracks prof (entries e) (x_max s) (x_video s);
          let '(m, ti, max, video) := v in
          Ok (fst r ++ m, Some (mkSt (mkSeg (g_head g) (g_info g) (Some e) (g_chapters g) (g_tags g) (g_cues g) (g_att g) (g_seek g) (g_seek2 g) (g_clusters g))
                                     (x_void s + snd r) ti max video (Some e)))
      end
    else fail 0x121
  else if is_type cCues e then
    if o_live o then skip [Warn 0x171]
    else if l_ok x then
      match g_cues g with
      | Some _ => extra (Warn 0x130)
      | None => keep prof s e (mkSeg (g_head g) (g_info g) (g_tracks g) (g_chapters g) (g_tags g) (Some e) (g_att g) (g_seek g) (g_seek2 g) (g_clusters g))
      end
    else fail 0x131
  else if is_type cChapters e then
    if o_live o then skip [Err 0x172]
    else if l_ok x then
      match g_chapters g with
      | Some _ => extra (Warn 0x140)
      | None => keep prof s e (mkSeg (g_head g) (g_info g) (g_tracks g) (Some e) (g_tags g) (g_cues g) (g_att g) (g_seek g) (g_seek2 g) (g_clusters g))
      end
    else fail 0x141
  else if is_type cTags e then
    if l_ok x then
      match g_tags g with
      | Some _ => extra (Err 0x150)
      | None => keep prof s e (mkSeg (g_head g) (g_info g) (g_tracks g) (g_chapters g) (Some e) (g_cues g) (g_att g) (g_seek g) (g_seek2 g) (g_clusters g))
      end
    else fail 0x151
  else if is_type cAttachments e then
    if o_live o then skip [Err 0x173]
    else if l_ok x then
      match g_att g with
      | Some _ => extra (Err 0x160)
      | None => keep prof s e (mkSeg (g_head g) (g_info g) (g_tracks g) (g_chapters g) (g_tags g) (g_cues g) (Some e) (g_seek g) (g_seek2 g) (g_clusters g))
      end
    else fail 0x161
  else
    let i := einfo e in
    let void := match class_of e with KVoid => full_size (eid_of mk i) (e_dsize i) (e_szlen i) (e_fin i) | _ => 0 end in
    Ok (match class_of e with KDummy => [Warn 0x80] | _ => [] end,
        Some (mkSt g (x_void s + void) (x_ti s) (x_max s) (x_video s) None)).
Fixpoint level1s (o : opts) (prof : Z) (s : state) (l : list lv1) : res (list msg * option state) :=
  match l with
  | [] => Ok ([], Some s)
  | x :: l =>
      do r <- level1 o prof s x;
      match snd r with
      | None => Ok (fst r, None)
      | Some s => do r' <- level1s o prof s l; Ok (fst r ++ fst r', snd r')
      end
  end.

(** After the loop, 1310-1366.  [fuel] is for the loop of CheckVideoStart.  Without TrackInfo the tracks
    MATROSKA_LinkClusterBlocks looks the blocks up in are NULL. *)
Definition check_clusters (fuel : nat) (prof : Z) (o : opts) (s : state) : res (list msg * list tinfo * bool) :=
  let g := x_seg s in
  match g_clusters g with
  | [] => Ok ([], x_ti s, true)
  | cl =>
      do tr <- match g_tracks g with
               | Some t => Ok (entries t)
               | None => if zlen (flat_map cluster_blocks cl) =? 0 then Ok [] else Null
               end;
      do m1 <- (if x_video s then check_video_start fuel prof tr (x_max s + 1) INVALID_TIMESTAMP cl else Ok []);
      do r <- check_lacing prof tr (x_ti s) cl;
      do m3 <- check_pos_size (g_head g) None cl;
      do m4 <- match g_cues g with
               | None => Ok (when (negb (o_live o) && (1 <? zlen cl)) (Warn 0x800))
               | Some c => check_cues g c
               end;
      let m := m1 ++ fst r ++ m3 ++ m4 in
      match g_tracks g with
      | None => Ok (m ++ [Fatal 0x41], snd r, false)
      | Some _ => Ok (m, snd r, true)
      end
  end.
Definition finish (fuel : nat) (o : opts) (prof : Z) (s : state) : res (list msg) :=
  let g := x_seg s in
  match g_info g with
  | None => Ok [Fatal 0x40]
  | Some _ =>
      let m1 := match x_prev s with
                | None => []
                | Some p => when (negb (e_end (g_head g) =? INVALID_FILEPOS) && negb (e_end (g_head g) =? e_end (einfo p))) (Err 0x42)
                end in
      do m2 <- match g_seek g with
               | None => Ok (when (negb (o_live o)) (Warn 0x801))
               | Some h => check_seek_head g true h
               end;
      do m3 <- match g_seek2 g with None => Ok [] | Some h => check_seek_head g false h end;
      do r <- check_clusters fuel prof o s;
      let '(m4, ti, more) := r in
      if more then
        do m5 <- match g_tracks g with None => Ok [] | Some t => check_tracks prof (g_att g) t end;
        Ok (m1 ++ m2 ++ m3 ++ m4 ++ m5 ++
            flat_map (fun t => when (ti_len t =? 0) (Warn 0xB8)) ti ++ when (4096 <? x_void s) (Warn 0xD0))
      else Ok (m1 ++ m2 ++ m3 ++ m4)
  end.
(** main from the EBML header on, 946-1366. *)
Definition validate (fuel : nat) (o : opts) (f : source) : res (list msg) :=
  do h <- check_head o (f_head f);
  let '(m, void, p) := h in
  match p with
  | None => Ok m
  | Some prof =>
      match f_seg f with
      | None => Ok (m ++ [Fatal 0x20])
      | Some i =>
          do r <- level1s o prof (mkSt (mkSeg i None None None None None None None None []) void [] 0 false None) (f_level1 f);
          match snd r with
          | None => Ok (m ++ fst r)
          | Some s => do m' <- finish fuel o prof s; Ok (m ++ fst r ++ m')
          end
      end
  end.
End Validator.
