(** Independent specification of the Block structure (Matroska specification, "Block Structure"). *)
From Verif Require Import Base VintSpec Block.

Definition b2z (b : bool) : Z := if b then 1 else 0.
(** The track number as a variable-length integer on one or two bytes. *)
Definition track_code (n : Z) : list Z := if n <? 128 then [128 + n] else [64 + n / 256; n mod 256].
(** Signed 16-bit big-endian timestamp. *)
Definition time_code (t : Z) : list Z := let u := if t <? 0 then t + 65536 else t in [u / 256; u mod 256].
(** Flags of a SimpleBlock: keyframe, invisible, lacing, discardable; of a Block: invisible, lacing. *)
Definition flag_code (simple key disc invis : bool) (lacing : Z) : Z :=
  (if simple then 128 * b2z key + b2z disc else 0) + 8 * b2z invis + 2 * lacing.
Definition head_code (simple : bool) (track time : Z) (key disc invis : bool) (lacing : Z) : list Z :=
  track_code track ++ time_code time ++ [flag_code simple key disc invis lacing].

(** Xiph lacing of a size: as many 255 as it holds, then the rest. *)
Definition xiph_code (n : Z) : list Z := repeat 255 (Z.to_nat (n / 255)) ++ [n mod 255].
(** A signed variable-length integer on k bytes is the variable-length integer d + 2^(7k-1) - 1. *)
Definition signed_vint (bs : list Z) (d : Z) : Prop := vint_spec bs (d + 2 ^ (7 * zlen bs - 1) - 1).
(** The differences between successive sizes, each on at most [m] bytes. *)
Inductive delta_codes (m : Z) : Z -> list Z -> list Z -> Prop :=
| dc_nil p : delta_codes m p [] []
| dc_cons p d l c bs : signed_vint c (d - p) -> zlen c <= m -> delta_codes m d l bs -> delta_codes m p (d :: l) (c ++ bs).

(** [lace m lacing frames bs]: [bs] is what precedes the bytes of the frames in a block.  [m] bounds the
    length of the variable-length integers of an EBML lace (8 in the format). *)
Inductive lace (m : Z) : Z -> list (list Z) -> list Z -> Prop :=
| lace_none f : lace m 0 [f] []
| lace_xiph fs f : zlen fs < 256 -> lace m 1 (fs ++ [f]) (zlen fs :: concat (map (fun x => xiph_code (zlen x)) fs))
| lace_fixed f fs : zlen fs < 256 -> Forall (fun x => zlen x = zlen f) fs -> lace m 2 (f :: fs) [zlen fs]
| lace_ebml f fs g c bs : zlen fs < 255 -> vint_spec c (zlen f) -> zlen c <= m -> delta_codes m (zlen f) (map zlen fs) bs ->
    lace m 3 (f :: fs ++ [g]) (zlen (f :: fs) :: c ++ bs).

(** The bytes of a block with the given header fields and frames. *)
Definition block_code (m : Z) (simple : bool) (track time : Z) (key disc invis : bool) (lacing : Z) (frames : list (list Z)) (bs : list Z) : Prop :=
  exists l, lace m lacing frames l /\ bs = head_code simple track time key disc invis lacing ++ l ++ concat frames.

(** The frames held by a block whose size table is [sizes] and whose buffer is [data]. *)
Definition holds (sizes data : list Z) (frames : list (list Z)) : Prop := sizes = map zlen frames /\ data = concat frames.

(** Where the flags of a block starting at [p] are, its lacing and the byte after. *)
Definition flags_pos (data : list Z) (p : Z) : nat := Z.to_nat (p + if nth (Z.to_nat p) data 0 <? 128 then 4 else 3).
Definition lacing_at (data : list Z) (p : Z) : Z := nth (flags_pos data p) data 0 / 2 mod 4.
Definition count_at (data : list Z) (p : Z) : Z := nth (S (flags_pos data p)) data 0.

(** [track_header t h]: the frames of the track are stored without their first bytes [h]: header stripping
    (ContentCompAlgo 3) applied to the blocks (bit 0 of ContentEncodingScope, 1 by default), or nothing. *)
Inductive track_header : encodings -> list Z -> Prop :=
| th_none : track_header None []
| th_empty e l : en_children e = false -> track_header (Some (e :: l)) []
| th_strip scope h : match scope with Some x => Z.odd x = true | None => True end ->
    track_header (Some [mkEnc true scope (Some (mkCompr (Some 3) (Some h)))]) h
| th_nosettings scope : track_header (Some [mkEnc true scope (Some (mkCompr (Some 3) None))]) [].

(** Successive sizes, from [p] on, differ by less than 2^27: what a signed integer on four bytes codes. *)
Fixpoint steps_ok (p : Z) (l : list Z) : Prop :=
  match l with [] => True | d :: l => - 2 ^ 27 < d - p < 2 ^ 27 /\ steps_ok d l end.
