(** Model of the durations of audio frames and of date elements.
    libmatroska2/matroskablock.c: tables 15-45, MATROSKA_BlockProcessFrameDurations 48-313;
    libebml2/ebmldate.c: EBML_DateTime 9-15, EBML_DateSetDateTime 17-23;
    corec/corec/helpers/date/date_libc.c: LinuxToDateTime 22-28, the addition in GetDatePacked 42.
    Not modelled: the Vorbis branch (CONFIG_CODEC_HELPER), localtime and gmtime. *)
From Verif Require Import Base Tree Arr Stream Ebml Create Frame BlockTime Str.

(** The tables, 15-45. *)
Definition A_MPEG_freq : list (list Z) := [[11025; 0; 22050; 44100]; [12000; 0; 24000; 48000]; [8000; 0; 16000; 32000]; [0; 0; 0; 0]].
Definition A_MPEG_samples : list (list Z) := [[0; 0; 0; 0]; [576; 0; 576; 1152]; [1152; 0; 1152; 1152]; [384; 0; 384; 384]].
Definition A_AC3_freq : list (list Z) := [[48000; 44100; 32000; 0]; [24000; 22050; 16000; 0]; [12000; 11025; 8000; 0]].
Definition A_EAC3_freq : list Z := [48000; 44100; 32000; 24000; 22050; 16000].
Definition A_EAC3_samples : list Z := [256; 512; 768; 1536].
Definition A_DTS_freq : list Z := [0; 8000; 16000; 32000; 0; 0; 11025; 22050; 44100; 0; 0; 12000; 24000; 48000; 0; 0].
Definition tab (t : list Z) (i : Z) : res Z := if i <? 0 then Bad else opt_res (nth_error t (Z.to_nat i)).
Definition tab2 (t : list (list Z)) (i j : Z) : res Z := if i <? 0 then Bad else do r <- opt_res (nth_error t (Z.to_nat i)); tab r j.

(** The duration of the frame at an offset of the data; None for INVALID_TIMESTAMP_T with ERR_INVALID_DATA. *)
Section Frame.
Context (data : list Z).
(** 94-109. *)
Definition mpeg_frame (o : Z) : res (option Z) :=
  do b1 <- char_at data (o + 1);
  do b2 <- char_at data (o + 2);
  let version := Z.land (Z.shiftr b1 3) 3 in
  let layer := Z.land (Z.shiftr b1 1) 3 in
  do samples <- tab2 A_MPEG_samples layer version;
  do rate <- tab2 A_MPEG_freq (Z.land (Z.shiftr b2 2) 3) version;
  if negb (rate =? 0) && negb (samples =? 0) then do d <- scale64 1000000000 samples rate; Ok (Some d) else Ok None.
(** 119-133. *)
Definition ac3_frame (o : Z) : res (option Z) :=
  do b5 <- char_at data (o + 5);
  do b4 <- char_at data (o + 4);
  let fscod := Z.shiftr b5 3 in
  if (10 <? fscod) || (fscod <? 8) then Ok None
  else do rate <- tab2 A_AC3_freq (fscod - 8) (Z.shiftr b4 6); do d <- scale64 1000000000 1536 rate; Ok (Some d).
(** 144-159. *)
Definition eac3_frame (o : Z) : res (option Z) :=
  do b4 <- char_at data (o + 4);
  let fscod := Z.shiftr b4 6 in
  let fscod2 := Z.land (Z.shiftr b4 4) 3 in
  if (fscod =? 3) && (fscod2 =? 3) then Ok None
  else
    do rate <- tab A_EAC3_freq (if fscod =? 3 then 3 + fscod2 else fscod);
    do samples <- (if fscod =? 3 then Ok 1536 else tab A_EAC3_samples fscod2);
    do d <- scale64 1000000000 samples rate; Ok (Some d).
(** 170-182. *)
Definition dts_frame (o : Z) : res (option Z) :=
  do b4 <- char_at data (o + 4);
  do b5 <- char_at data (o + 5);
  do b8 <- char_at data (o + 8);
  let samples := (Z.shiftl (Z.land b4 1) 7 + Z.shiftr b5 2 + 1) * 32 in
  do rate <- tab A_DTS_freq (Z.land (Z.shiftr b8 2) 15);
  if (samples =? 0) || (rate =? 0) then Ok None else do d <- scale64 1000000000 samples rate; Ok (Some d).
End Frame.

(** The loop over the frames, 92-111 and others: the error and the durations.  SizeList holds int32_t, the cursor follows it. *)
Fixpoint frame_loop (one : Z -> res (option Z)) (o : Z) (sizes : list Z) : res (Z * list Z) :=
  match sizes with
  | [] => Ok (ERR_NONE, [])
  | n :: r =>
      do d <- one o;
      do t <- frame_loop one (o + n) r;
      Ok (match d with Some x => (fst t, x :: snd t) | None => (ERR_INVALID_DATA, INVALID_TIMESTAMP :: snd t) end)
  end.
Definition MPEG_IDS : list (list Z) := [[65; 95; 77; 80; 69; 71; 47; 76; 51; 0]; [65; 95; 77; 80; 69; 71; 47; 76; 50; 0]; [65; 95; 77; 80; 69; 71; 47; 76; 49; 0]].
Definition AC3_ID : list Z := [65; 95; 65; 67; 51; 0].
Definition EAC3_ID : list Z := [65; 95; 69; 65; 67; 51; 0].
Definition DTS_ID : list Z := [65; 95; 68; 84; 83; 0].
Definition AAC_ID : list Z := [65; 95; 65; 65; 67; 0].
Definition AAC_PREFIX : list Z := [65; 95; 65; 65; 67; 47].
(** tcsncmp(CodecID,T("A_AAC/"),6)==0: stops at the first difference. *)
Fixpoint starts_with (p s : list Z) : res bool :=
  match p, s with
  | [], _ => Ok true
  | x :: p, y :: s => if x =? y then starts_with p s else Ok false
  | _, [] => Bad
  end.
Definition any_of (ids : list (list Z)) (codec : list Z) : res bool :=
  (fix go (l : list (list Z)) : res bool := match l with [] => Ok false | i :: l => do b <- tcsisame_ascii codec i; if b then Ok true else go l end) ids.
(** MATROSKA_BlockProcessFrameDurations, 48-313, for a block with a read track: [typ] is the TrackType if there, [loc] FirstFrameLocation,
    [codec] the buffer of the CodecID if there, [rate] the SamplingFrequency of the Audio element if there, converted to int;
    [data] and [sizes] are the data of the block, already read, and its frame sizes; [old] the durations it had.  Gives the error and the durations. *)
Definition MATROSKA_TRACK_TYPE_AUDIO : Z := 2.
Definition process_durations (typ : option Z) (loc : Z) (codec : option (list Z)) (rate : option Z) (data sizes old : list Z) : res (Z * list Z) :=
  match typ with
  | Some t =>
      if negb (t =? MATROSKA_TRACK_TYPE_AUDIO) then Ok (ERR_INVALID_DATA, old)
      else if loc =? 0 then Ok (ERR_READ, old)
      else match codec with
           | None => Ok (ERR_INVALID_DATA, old)
           | Some codec =>
               do mpeg <- any_of MPEG_IDS codec;
               if mpeg then frame_loop (mpeg_frame data) 0 sizes else
               do ac3 <- tcsisame_ascii codec AC3_ID;
               if ac3 then frame_loop (ac3_frame data) 0 sizes else
               do eac3 <- tcsisame_ascii codec EAC3_ID;
               if eac3 then frame_loop (eac3_frame data) 0 sizes else
               do dts <- tcsisame_ascii codec DTS_ID;
               if dts then frame_loop (dts_frame data) 0 sizes else
               do aac <- (do b <- tcsisame_ascii codec AAC_ID; if b then Ok true else starts_with AAC_PREFIX codec);
               if aac then
                 match rate with
                 | Some r => frame_loop (fun _ => do d <- scale64 1000000000 1024 r; Ok (Some d)) 0 sizes
                 | None => Ok (ERR_NONE, old)
                 end
               else Ok (ERR_NONE, old)
           end
  | None => Ok (ERR_INVALID_DATA, old)
  end.

(** EBML_DateTime, ebmldate.c 9-15; Scale32, helper.h 54-57. *)
Definition date_time (e : elt) : res Z :=
  match e with
  | Leaf i (VInt v) => if e_set i then do q <- scale64 v 1 1000000000; Ok (s32 q) else Ok 0
  | _ => Bad
  end.
(** EBML_DateSetDateTime, ebmldate.c 17-23: the error and the element.  INVALID_DATETIME_T is 0. *)
Definition date_set (e : elt) (d : Z) : res (Z * elt) :=
  if d =? 0 then Ok (ERR_INVALID_PARAM, e)
  else match e with
       | Leaf i (VInt _) => do x <- scale64 d 1000000000 1; Ok (ERR_NONE, int_set i x)
       | _ => Bad
       end.
(** LinuxToDateTime, date_libc.c 22-28: time_t has 64 bits. *)
Definition DATETIME_OFFSET : Z := 978307200.
Definition linux_to_date (t : Z) : Z := let t := s64 (t - DATETIME_OFFSET) in s32 (if t =? 0 then t + 1 else t).
(** GetDatePacked, 42: the time given to gmtime.  datetime_t and the constant are ints: the sum is undefined when it does not fit one. *)
Definition packed_time (t : Z) : res (option Z) :=
  if t =? 0 then Ok None else let s := t + DATETIME_OFFSET in if s32 s =? s then Ok (Some s) else Bad.
