(** The frames of a block: libmatroska2/matroskamain.c 975-1012 and 1561-1591, matroskablock.c 305-354.
    Built with NDEBUG. *)
From Verif Require Import Base Stream Ebml Tree TreeRead Block.

(** matroska.h 38. *)
Definition INVALID_TIMESTAMP : Z := 2 ^ 63 - 1.

(** MATROSKA_BlockGetFrameCount and MATROSKA_BlockGetLength, matroskablock.c 305-315; size_t. *)
Definition frame_count (b : block) : Z := zlen (b_sizes b).
Definition frame_length (b : block) (n : Z) : Z := if n >=? zlen (b_sizes b) then 0 else u64 (nth (Z.to_nat n) (b_sizes b) 0).

(** The loop of MATROSKA_BlockGetFrame on the timestamps, matroskamain.c 1573-1583: [durs] are the
    durations of the frames before, [k] how many frames are left.  Signed overflow wraps. *)
Fixpoint frame_time (k : nat) (durs : list Z) (ts : Z) : Z :=
  match k with
  | O => ts
  | S k =>
      let ts := if ts =? INVALID_TIMESTAMP then ts
                else match durs with
                     | d :: _ => if d =? INVALID_TIMESTAMP then INVALID_TIMESTAMP else s64 (ts + d)
                     | [] => INVALID_TIMESTAMP
                     end in
      frame_time k (tl durs) ts
  end.

(** matroska_frame, matroska.h 47-54; Data is an offset in the data of the block. *)
Record frame := mkFrame { f_off : Z; f_size : Z; f_time : Z; f_dur : Z }.

(** MATROSKA_BlockGetFrame, matroskamain.c 1561-1591.  [ts] is what MATROSKA_BlockTimestamp returns.
    SizeList is read as uint32_t. *)
Definition get_frame (b : block) (ts n : Z) (withdata : bool) : Z * option frame :=
  if withdata && (zlen (b_data b) =? 0) then (ERR_READ, None)
  else if n >=? zlen (b_sizes b) then (ERR_INVALID_PARAM, None)
  else
    let k := Z.to_nat n in
    (ERR_NONE, Some (mkFrame (if withdata then fold_right Z.add 0 (map u32 (firstn k (b_sizes b))) else 0)
       (u32 (nth k (b_sizes b) 0)) (frame_time k (b_durs b) ts)
       (if n <? zlen (b_durs b) then nth k (b_durs b) 0 else INVALID_TIMESTAMP))).

(** MATROSKA_BlockGetFrameDuration, matroskablock.c 317-322. *)
Definition frame_duration (b : block) (n : Z) : Z :=
  if n >=? zlen (b_durs b) then INVALID_TIMESTAMP else nth (Z.to_nat n) (b_durs b) 0.
(** MATROSKA_BlockGetFrameStart, matroskablock.c 324-343. *)
Fixpoint start_loop (k : nat) (durs : list Z) (ts : Z) : Z :=
  match k, durs with
  | O, _ | _, [] => ts
  | S k, d :: l => if d =? INVALID_TIMESTAMP then INVALID_TIMESTAMP else start_loop k l (s64 (ts + d))
  end.
Definition frame_start (b : block) (ts n : Z) : Z :=
  if n >=? zlen (b_durs b) then INVALID_TIMESTAMP
  else if ts =? INVALID_TIMESTAMP then ts
  else start_loop (Z.to_nat n) (b_durs b) ts.
(** MATROSKA_BlockGetFrameEnd, matroskablock.c 345-354. *)
Definition frame_end (b : block) (ts n : Z) : Z :=
  let r := frame_start b ts n in
  if r =? INVALID_TIMESTAMP then INVALID_TIMESTAMP
  else let a := frame_duration b n in if a =? INVALID_TIMESTAMP then INVALID_TIMESTAMP else s64 (r + a).

(** MATROSKA_BlockSkipToFrame, matroskamain.c 993-1012: error and position. *)
Definition skip_to_frame (b : block) (s : ist) (pos n : Z) : Z * Z :=
  if n >=? zlen (b_sizes b) then (ERR_INVALID_PARAM, pos)
  else
    let p := if b_lacing b =? LACING_NONE then b_dpos b + head_size b
             else b_first b + fold_right Z.add 0 (map u32 (firstn (Z.to_nat n) (b_sizes b))) in
    let '(q, p') := i_seek s p pos in
    (if q =? p then ERR_NONE else ERR_READ, p').

(** MATROSKA_BlockReleaseData, matroskamain.c 975-991; [known]: GlobalTimestamp is not
    INVALID_TIMESTAMP_T. *)
Definition release_data (b : block) (known all : bool) : block :=
  if negb all && negb known then b
  else
    let sizes := match b_sizes_in b with [] => b_sizes b | l => l end in
    bl_set (bl_frames b (b_first b) sizes [] []) false.

(** What a player does: EBML_ElementReadData(SCOPE_PARTIAL_DATA), then MATROSKA_LinkBlockReadTrack for
    reading (matroskamain.c 349-370, which calls CheckCompression for a block not linked yet), then
    MATROSKA_BlockReadData.  The track linked is the one with the number of the block, so that
    TrackNumber keeps its value.  [moved] is UseForWriteToo == 0. *)
Definition read_frames (fuel : nat) (b : block) (t : encodings) (moved : bool) (s : ist) (pos : Z) : res (Z * block * Z) :=
  do r <- read_head fuel b s pos;
  let '(err, b, p) := r in
  if negb (err =? ERR_NONE) then Ok (err, b, p)
  else
    do r <- check_compression b t;
    let '(err, b) := r in
    if negb (err =? ERR_NONE) then Ok (err, b, p) else read_data b t moved s p.
