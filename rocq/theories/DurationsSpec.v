(** Frame headers of the audio codecs, from their standards: samples per frame and sampling rate. *)
From Verif Require Import Base Stream Frame StrSpec.

Definition bits (b hi lo : Z) : Z := b / 2 ^ lo mod 2 ^ (hi - lo + 1).
Definition at_ (f : list Z) (k : nat) : Z := nth k f 0.

(** MPEG audio (ISO 11172-3, 13818-3): version and layer in bits 4-3 and 2-1 of the second byte, the rate in bits 3-2 of the third. *)
Inductive mversion := MPEG1 | MPEG2 | MPEG25.
Inductive mlayer := LayerI | LayerII | LayerIII.
Definition mpeg_version (f : list Z) : option mversion :=
  let v := bits (at_ f 1) 4 3 in if v =? 3 then Some MPEG1 else if v =? 2 then Some MPEG2 else if v =? 0 then Some MPEG25 else None.
Definition mpeg_layer (f : list Z) : option mlayer :=
  let v := bits (at_ f 1) 2 1 in if v =? 3 then Some LayerI else if v =? 2 then Some LayerII else if v =? 1 then Some LayerIII else None.
Definition mpeg_base (f : list Z) : option Z :=
  let v := bits (at_ f 2) 3 2 in if v =? 0 then Some 44100 else if v =? 1 then Some 48000 else if v =? 2 then Some 32000 else None.
Definition mpeg_divisor (v : mversion) : Z := match v with MPEG1 => 1 | MPEG2 => 2 | MPEG25 => 4 end.
Definition mpeg_samples (v : mversion) (l : mlayer) : Z :=
  match l, v with LayerI, _ => 384 | LayerII, _ => 1152 | LayerIII, MPEG1 => 1152 | LayerIII, _ => 576 end.
Definition mpeg_header (f : list Z) : option (Z * Z) :=
  match mpeg_version f, mpeg_layer f, mpeg_base f with Some v, Some l, Some b => Some (mpeg_samples v l, b / mpeg_divisor v) | _, _, _ => None end.

(** AC-3 (ETSI TS 102 366): fscod in bits 7-6 of the fifth byte, bsid in bits 7-3 of the sixth; bsid 9 and 10 halve and quarter the rate. *)
Definition ac3_rate (code : Z) : option Z := if code =? 0 then Some 48000 else if code =? 1 then Some 44100 else if code =? 2 then Some 32000 else None.
Definition ac3_header (f : list Z) : option (Z * Z) :=
  let bsid := bits (at_ f 5) 7 3 in
  if 10 <? bsid then None
  else match ac3_rate (bits (at_ f 4) 7 6) with Some r => Some (1536, r / (if bsid =? 9 then 2 else if bsid =? 10 then 4 else 1)) | None => None end.
(** E-AC-3: numblkscod 0, 1, 2, 3 for 1, 2, 3 and 6 blocks of 256 samples; fscod 3 has six blocks and half the rate of fscod2. *)
Definition eac3_header (f : list Z) : option (Z * Z) :=
  let n := bits (at_ f 4) 5 4 in
  match ac3_rate (bits (at_ f 4) 7 6) with
  | Some r => Some (256 * (if n =? 3 then 6 else n + 1), r)
  | None => match ac3_rate n with Some r => Some (256 * 6, r / 2) | None => None end
  end.
(** DTS (ETSI TS 102 114): NBLKS is the last bit of the fifth byte and the first six of the sixth, blocks of 32 samples; SFREQ in bits 5-2 of the ninth. *)
Definition dts_rate (code : Z) : option Z :=
  if (1 <=? code) && (code <=? 3) then Some (4000 * 2 ^ code) else if (6 <=? code) && (code <=? 8) then Some (11025 * 2 ^ (code - 6)) else if (11 <=? code) && (code <=? 13) then Some (12000 * 2 ^ (code - 11)) else None.
Definition dts_nblks (f : list Z) : Z := bits (at_ f 4) 0 0 * 64 + bits (at_ f 5) 7 2.
Definition dts_header (f : list Z) : option (Z * Z) := match dts_rate (bits (at_ f 8) 5 2) with Some r => Some (32 * (dts_nblks f + 1), r) | None => None end.

(** The duration in nanoseconds. *)
Definition duration (h : option (Z * Z)) : option Z := match h with Some (samples, rate) => Some (1000000000 * samples / rate) | None => None end.

(** ** Codecs *)
Inductive codec := MpegAudio | AC3 | EAC3 | DTS.
Definition codec_ids (k : codec) : list (list Z) :=
  match k with
  | MpegAudio => [[65; 95; 77; 80; 69; 71; 47; 76; 49]; [65; 95; 77; 80; 69; 71; 47; 76; 50]; [65; 95; 77; 80; 69; 71; 47; 76; 51]] (* A_MPEG/L1 A_MPEG/L2 A_MPEG/L3 *)
  | AC3 => [[65; 95; 65; 67; 51]] (* A_AC3 *)
  | EAC3 => [[65; 95; 69; 65; 67; 51]] (* A_EAC3 *)
  | DTS => [[65; 95; 68; 84; 83]] (* A_DTS *)
  end.
(** The codec ID names the codec, letters of either case. *)
Definition is_codec (id : list Z) (k : codec) : Prop := exists c, In c (codec_ids k) /\ same_text id c.
Definition AAC : list Z := [65; 95; 65; 65; 67].
Definition is_aac (id : list Z) : Prop := same_text id AAC \/ exists profile, id = AAC ++ 47 :: profile.
Definition header (k : codec) (f : list Z) : option (Z * Z) :=
  match k with MpegAudio => mpeg_header f | AC3 => ac3_header f | EAC3 => eac3_header f | DTS => dts_header f end.
(** Number of bytes of a frame that the header takes, as far as it is looked at. *)
Definition header_len (k : codec) : Z := match k with MpegAudio => 3 | AC3 => 6 | EAC3 => 5 | DTS => 9 end.
(** What an application sees for the frames of a block. *)
Definition err_of (ds : list (option Z)) : Z := if forallb (fun d => match d with Some _ => true | None => false end) ds then ERR_NONE else ERR_INVALID_DATA.
Definition show (d : option Z) : Z := match d with Some x => x | None => INVALID_TIMESTAMP end.
