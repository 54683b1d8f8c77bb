(** CleanTracks of mkclean, mkclean/mkclean.c 857-880 and 974-1400: cleaning the sizes of video tracks,
    choosing the tracks that stay, converting old stereo modes.

    An element that occurs at most once in its parent is an option here; more than one of a kind is not
    modelled.  Without --alt-3d: Alternate3DTracks is an empty array.  Positions, texts and flags that
    are only copied are left out.  Without CONFIG_CODEC_HELPER: GuessSamplingFreq gives 0. *)
From Verif Require Import Base Tree BlockTime MkSchema Validator.

(** Signed arithmetic on 64 bits: an overflow is undefined. *)
Definition fits64 (x : Z) : bool := (- 2 ^ 63 <=? x) && (x <? 2 ^ 63).
Definition sat (x : Z) : res Z := if fits64 x then Ok x else Bad.

(** The children of a Video element that are used. *)
Record video := mkVideo {
  d_pw : option Z; d_ph : option Z; d_dw : option Z; d_dh : option Z; d_unit : option Z;
  d_left : option Z; d_right : option Z; d_top : option Z; d_bottom : option Z;
  d_stereo : option Z; d_old : option Z }.
Definition set_size (v : video) (dw dh unit : option Z) : video :=
  mkVideo (d_pw v) (d_ph v) dw dh unit (d_left v) (d_right v) (d_top v) (d_bottom v) (d_stereo v) (d_old v).
Definition set_crop (v : video) (l r t b : option Z) : video :=
  mkVideo (d_pw v) (d_ph v) (d_dw v) (d_dh v) (d_unit v) l r t b (d_stereo v) (d_old v).
Definition set_stereo (v : video) (s o : option Z) : video :=
  mkVideo (d_pw v) (d_ph v) (d_dw v) (d_dh v) (d_unit v) (d_left v) (d_right v) (d_top v) (d_bottom v) s o.

(** The value EBML_MasterGetChild finds: the default of the cropping elements and of DisplayUnit is 0. *)
Definition zero_or (o : option Z) : Z := match o with Some x => x | None => 0 end.
Definition nonzero (o : option Z) : option Z := if zero_or o =? 0 then None else o.

(** CleanCropValues, 857-880. *)
Definition clean_crop (v : video) (w h : Z) : res video :=
  do tb <- sat (zero_or (d_top v) + zero_or (d_bottom v));
  do bad <- (if h <=? tb then Ok true else do lr <- sat (zero_or (d_left v) + zero_or (d_right v)); Ok (w <=? lr));
  Ok (if (bad : bool) then set_crop v None None None None
      else set_crop v (nonzero (d_left v)) (nonzero (d_right v)) (nonzero (d_top v)) (nonzero (d_bottom v))).

(** The size a rescaled display gets, 1098-1123, for a pixel size [W]x[H]. *)
Definition rescale (v : video) (W H dw dh : Z) : res video :=
  do s <- (if dh <? dw then do x <- scale64 H dw dh; Ok (x, H) else do x <- scale64 W dh dw; Ok (W, x));
  do a <- sat (Datatypes.fst s * dh);
  do b <- sat (Datatypes.snd s * dw);
  Ok (if a =? b then set_size v (Some (Datatypes.fst s)) (Some (Datatypes.snd s)) (d_unit v)
      else set_size v (Some dw) (Some dh) (Some 3)).

(** How surely a display is an aspect ratio and not pixels, 1091-1096. *)
Definition serious (W H dw dh : Z) : res Z :=
  do g <- Validator.gcd 200 dw dh;
  do a <- sat (8 * dw); do b <- sat (8 * dh); do c <- sat (2 * dw); do d <- sat (2 * dh);
  Ok ((if g =? 1 then 1 else 0) + (if (a <=? W) && (b <=? H) then 1 else if (W <=? c) && (H <=? d) then -1 else 0)).

(** Display sizes in pixels, 1040-1132.  [None]: the track is deleted. *)
Definition clean_pixels (v : video) (W H : Z) : res (option video) :=
  let put dw dh := set_size v dw dh (d_unit v) in
  let o := match d_dw v, d_dh v with
           | None, None => Some v
           | None, Some h => Some (if h =? H then put None None else put (Some W) (Some h))
           | Some w, None => if w =? 0 then None else Some (if w =? W then put None None else put (Some w) (Some H))
           | Some w, Some h => if w =? 0 then None else if h =? 0 then None else Some v
           end in
  match o with
  | None => Ok None
  | Some v =>
      match d_dw v, d_dh v with
      | Some w, Some h =>
          do v <- (if (h <? H) && (w <? W) then do s <- serious W H w h; if s =? 0 then Ok v else rescale v W H w h else Ok v);
          let same o x := match o with Some y => if y =? x then None else Some y | None => None end in
          Ok (Some (set_size v (same (d_dw v) W) (same (d_dh v) H) (d_unit v)))
      | _, _ => Ok (Some v)
      end
  end.

(** The sizes of a Video element, 1026-1137. *)
Definition clean_display (v : video) (W H : Z) : res (option video) :=
  match d_dw v, d_dh v with
  | None, None => Ok (Some v)
  | _, _ =>
      let is o x := match o with Some y => x =? y | None => true end in
      do v1 <- (match d_unit v with
                | Some u => if u =? 3 then if is (d_dw v) W && is (d_dh v) H then Ok (set_size v (d_dw v) (d_dh v) (Some 0)) else clean_crop v 0 0 else Ok v
                | None => Ok v
                end);
      do r <- (if match d_unit v1 with None => true | Some u => u =? 0 end then clean_pixels v1 W H else Ok (Some v1));
      match r with
      | None => Ok None
      | Some v2 =>
          let v3 := set_size v2 (d_dw v2) (d_dh v2) (Some (zero_or (d_unit v2))) in
          if zero_or (d_unit v2) =? 3 then Ok (Some v3)
          else do v4 <- clean_crop v3 (match d_dw v3 with Some x => x | None => W end) (match d_dh v3 with Some x => x | None => H end); Ok (Some v4)
      end
  end.

(** A TrackEntry: numbers, type, codec, the planes of each TrackOperation (UID and type), Video, the two
    frequencies of Audio (IEEE patterns), AttachmentLinks. *)
Record ctrack := mkCt {
  k_num : option Z; k_uid : option Z; k_type : option Z; k_codec : option (list Z); k_ops : list (list (Z * Z));
  k_video : option video; k_audio : option (option Z * option Z); k_links : list Z }.
Definition with_video (t : ctrack) (v : option video) : ctrack := mkCt (k_num t) (k_uid t) (k_type t) (k_codec t) (k_ops t) v (k_audio t) (k_links t).
Definition with_audio (t : ctrack) (a : option (option Z * option Z)) : ctrack := mkCt (k_num t) (k_uid t) (k_type t) (k_codec t) (k_ops t) (k_video t) a (k_links t).
Definition with_links (t : ctrack) (l : list Z) : ctrack := mkCt (k_num t) (k_uid t) (k_type t) (k_codec t) (k_ops t) (k_video t) (k_audio t) l.
Definition with_uid (t : ctrack) (u : Z) : ctrack := mkCt (k_num t) (Some u) (k_type t) (k_codec t) (k_ops t) (k_video t) (k_audio t) (k_links t).

Definition TYPE_VIDEO : Z := 1.
Definition TYPE_AUDIO : Z := 2.
Definition V_VP8 : list Z := [86; 95; 86; 80; 56].
Definition V_VP9 : list Z := [86; 95; 86; 80; 57].
Definition A_VORBIS : list Z := [65; 95; 86; 79; 82; 66; 73; 83].
Definition A_OPUS : list Z := [65; 95; 79; 80; 85; 83].
Definition V_COMBINED : list Z := [86; 95; 67; 79; 77; 66; 73; 78; 69; 68].

(** tcsisame_ascii (str.c), on texts up to their zero. *)
Definition up (x : Z) : Z := if (97 <=? x) && (x <=? 122) then x - 32 else x.
Definition isame (a b : list Z) : bool := list_eqb (map up a) (map up b).
(** The codecs of a WebM file, 1294-1298. *)
Definition webm_ok (ty : Z) (c : list Z) : bool :=
  ((ty =? TYPE_VIDEO) && isame c V_VP8) || ((ty =? TYPE_VIDEO) && isame c V_VP9) || ((ty =? TYPE_AUDIO) && isame c A_VORBIS) || ((ty =? TYPE_AUDIO) && isame c A_OPUS).

(** The first half of the loop for one track, up to its display, 981-1137.  [None]: deleted.  With an
    empty Alternate3DTracks, index 0 is written to or read through a null pointer (1012, 1283). *)
Definition first_half (t : ctrack) : res (option ctrack) :=
  match k_num t with
  | None => Ok None
  | Some n =>
      match k_codec t, k_ops t with
      | None, [] => Ok None
      | _, _ =>
          match k_type t with
          | None => Ok None
          | Some ty =>
              if (s32 n =? 0) && negb (s32 ty =? TYPE_VIDEO) then Null
              else match k_video t with
                   | None => Ok (Some t)
                   | Some v =>
                       match d_pw v, d_ph v with
                       | Some w, Some h =>
                           if (s32 w =? 0) || (s32 h =? 0) then Ok None
                           else do r <- clean_display v (s32 w) (s32 h); Ok (match r with None => None | Some v' => Some (with_video t (Some v')) end)
                       | _, _ => Null
                       end
                   end
          end
      end
  end.

Section Tracks.
(** [feq]: == on doubles given by their patterns; [attached]: the UIDs of the attached files, None without
    Attachments; [default_rate]: the pattern of 8000.0. *)
Context (feq : Z -> Z -> bool) (attached : option (list Z)) (default_rate : Z).

Definition is_zero (x : Z) : bool := (x =? 0) || (x =? 2 ^ 63).
(** The links that stay, 1335-1361. *)
Definition clean_links (l : list Z) : list Z :=
  match attached with None => [] | Some a => filter (fun x => existsb (Z.eqb x) a) l end.
(** The second half, 1283-1361.  With a frequency of 0 the track is deleted and then used. *)
Definition second_half (prof : Z) (t : ctrack) : res (option ctrack) :=
  if match k_num t with Some n => s32 n =? 0 | None => false end then Null
  else
    let ty := match k_type t with Some x => s32 x | None => 0 end in
    do ok <- (if prof =? PROFILE_WEBM then
                match k_codec t with
                | None => Null
                | Some c => Ok (webm_ok ty c)
                end
              else Ok true);
    if negb ok then Ok None
    else
      do a <- (match k_audio t with
               | None => Ok None
               | Some (rate, out) =>
                   let r := match rate with Some x => x | None => default_rate end in
                   if is_zero r then Bad
                   else Ok (Some (Some r, match out with Some o => if feq o r then None else Some o | None => None end))
               end);
      Ok (Some (with_links (with_audio t a) (clean_links (k_links t)))).

(** *** Old stereo modes, 1139-1280 *)
(** The stereo mode of a track: StereoMode, or OldStereoMode without it. *)
Definition mode_of (t : ctrack) : option Z :=
  match k_video t with None => None | Some v => match d_stereo v with Some x => Some x | None => d_old v end end.
(** Its value replaced; for the track itself an OldStereoMode becomes a StereoMode, for the other one it
    stays what it is. *)
Definition set_mode (t : ctrack) (x : Z) : ctrack :=
  match k_video t with
  | None => t
  | Some v => with_video t (Some (match d_stereo v with Some _ => set_stereo v (Some x) (d_old v) | None => set_stereo v (Some x) None end))
  end.
Definition set_other_mode (t : ctrack) (x : Z) : ctrack :=
  match k_video t with
  | None => t
  | Some v => with_video t (Some (match d_stereo v with Some _ => set_stereo v (Some x) (d_old v) | None => set_stereo v None (Some x) end))
  end.
(** HasTrackUID, 882-892. *)
Definition used (f : ctrack -> option Z) (l : list ctrack) (x : Z) : bool :=
  existsb (fun t => match f t with Some y => y =? x | None => false end) l.
(** The first number from [n] that is not used; an int. *)
Fixpoint free (fuel : nat) (f : ctrack -> option Z) (l : list ctrack) (n : Z) : res Z :=
  if 2 ^ 31 <=? n then Bad
  else if used f l n then match fuel with O => Fuel | S fuel => free fuel f l (n + 1) end else Ok n.
(** The first later track with the other eye. *)
Fixpoint find_other (m : Z) (l : list ctrack) : option (list ctrack * ctrack * list ctrack) :=
  match l with
  | [] => None
  | t :: l =>
      if match mode_of t with Some x => ((m =? 2) && (x =? 1)) || ((m =? 1) && (x =? 2)) | None => false end then Some ([], t, l)
      else match find_other m l with None => None | Some (a, o, b) => Some (t :: a, o, b) end
  end.
(** The combined track of [t] and [o], 1195-1268, among the tracks [done ++ t :: a ++ o :: b]: all of them
    after it. *)
Definition combine (m : Z) (done : list ctrack) (t : ctrack) (a : list ctrack) (o : ctrack) (b : list ctrack) : res (list ctrack) :=
  let o := set_other_mode o 0 in
  let all t o := done ++ t :: a ++ o :: b in
  let fuel := S (S (S (length (all t o)))) in
  do n <- free fuel k_num (all t o) (s32 (zero_or (k_num t)) + 1);
  match k_uid t with
  | None => Null
  | Some u =>
      do u0 <- free fuel k_uid (all t o) 1;
      let comb ops := mkCt (Some n) (Some u0) (k_type t) (Some V_COMBINED) ops (k_video t) (k_audio t) (tl (k_links t)) in
      do r <- (match k_uid o with
               | Some x => Ok (x, o)
               | None => do x <- free fuel k_uid (all t o ++ [comb (k_ops t)]) u0; Ok (x, with_uid o x)
               end);
      let p := if m =? 2 then 0 else 1 in
      Ok (all t (Datatypes.snd r) ++ [comb (k_ops t ++ [[(u, p); (Datatypes.fst r, if m =? 1 then 0 else 1)]])])
  end.

(** One pass over the tracks: those that stay, or all tracks to begin again with.  [prof] is *dstProfile. *)
Inductive pass := Through (prof : Z) (l : list ctrack) | Again (prof : Z) (l : list ctrack).
Definition old_profile (src : Z) : bool := (src =? PROFILE_V1) || (src =? PROFILE_V2) || (src =? PROFILE_DIVX).
Fixpoint walk (src prof : Z) (done rest : list ctrack) : res pass :=
  match rest with
  | [] => Ok (Through prof done)
  | t :: rest =>
      do r <- first_half t;
      match r with
      | None => walk src prof done rest
      | Some t =>
          let go prof t := do r <- second_half prof t; walk src prof (match r with None => done | Some t => done ++ [t] end) rest in
          match (if old_profile src then mode_of t else None) with
          | None => go prof t
          | Some x =>
              let m := s32 x in
              if (m =? 0) || (3 <? m) then go prof t
              else if m =? 3 then go PROFILE_V3 (set_mode t 1)
              else
                let t := set_mode t 0 in
                match find_other m rest with
                | None => go PROFILE_V3 t
                | Some (a, o, b) => do l <- combine m done t a o b; Ok (Again PROFILE_V3 l)
                end
          end
      end
  end.
(** CleanTracks; the result is 0 with the tracks, or -19 when none is left. *)
Fixpoint clean_tracks (fuel : nat) (src prof : Z) (l : list ctrack) : res (Z * Z * list ctrack) :=
  match fuel with
  | O => Fuel
  | S fuel =>
      do r <- walk src prof [] l;
      match r with
      | Through prof l => Ok (match l with [] => -19 | _ => 0 end, prof, l)
      | Again prof l => clean_tracks fuel src prof l
      end
  end.
End Tracks.

(** *** The order of the children of a TrackEntry, 1380-1397 *)
Section Front.
Context {A : Type} (id : A -> Z).
(** The first child with an ID, what is before it and after it. *)
Fixpoint take (x : Z) (l : list A) : option (list A * A * list A) :=
  match l with
  | [] => None
  | c :: l => if id c =? x then Some ([], c, l) else match take x l with None => None | Some (a, d, b) => Some (c :: a, d, b) end
  end.
Definition ID_TRACK_NUMBER : Z := 215.
Definition ID_TRACK_TYPE : Z := 131.
Definition ID_CODEC_ID : Z := 134.
(** [c], moved right after the first element with ID [y] (NodeTree_SetParent, nodetree.c 11-27). *)
Definition move_after (x y : Z) (l : list A) : list A :=
  match take x l with
  | None => l
  | Some (a, c, b) => match take y (a ++ b) with None => l | Some (p, d, q) => p ++ d :: c :: q end
  end.
Definition front (l : list A) : list A :=
  let l := match take ID_TRACK_NUMBER l with None => l | Some (a, c, b) => c :: a ++ b end in
  match take ID_TRACK_TYPE l with
  | None => l
  | Some _ => move_after ID_CODEC_ID ID_TRACK_TYPE (match take ID_TRACK_NUMBER l with None => l | Some _ => move_after ID_TRACK_TYPE ID_TRACK_NUMBER l end)
  end.
End Front.
