(** Reading blocks of tracks compressed with LZO: the branches of MATROSKA_BlockReadData for
    MATROSKA_TRACK_ENCODING_COMP_LZO1X, libmatroska2/matroskamain.c 1084-1132, 1212-1265, 1305-1310,
    1338-1342, in a build with CONFIG_LZO1X. *)
From Verif Require Import Base Ebml Stream Finder Tree TreeRead Block Lzo.

(** The room given to the output of a frame of [z] bytes, 1114, 1251: an int, converted to size_t. *)
Definition out_room (z : Z) : Z := Z.max 2048 (s32 (z * 4)).
(** The loop on the frames, 1235-1265, 1305-1306: error, the size table, the data.  [junk] is the memory
    after the buffer read. *)
Fixpoint lzo_frames (junk buf : list Z) (sizes : list Z) : res (Z * list Z * list Z) :=
  match sizes with
  | [] => Ok (ERR_NONE, [], [])
  | z :: l =>
      if (z <? 0) || (zlen buf <? z) then Bad
      else
        do r <- lzo (skipn (Z.to_nat z) buf ++ junk) (firstn (Z.to_nat z) buf) (out_room z);
        let '(code, out) := r in
        if negb (code =? L_SUCCESS) then Ok (ERR_INVALID_DATA, z :: l, [])
        else
          do r <- lzo_frames junk (skipn (Z.to_nat z) buf) l;
          let '(err, sizes, d) := r in Ok (err, s32 (zlen out) :: sizes, out ++ d)
  end.
(** MATROSKA_BlockReadData of a block of such a track, 1014-1373.  When an unlaced frame fails, there is
    no jump to the end: the block counts as read (1360), with what is in its buffer. *)
Definition read_lzo (b : block) (junk : list Z) (s : ist) (pos : Z) : res (Z * block * Z) :=
  if b_set b then Ok (ERR_NONE, b, pos)
  else
    let p := snd (i_seek s (b_first b) pos) in
    let done err sizes d v q := Ok (err, bl_set (bl_frames b (b_first b) sizes (b_sizes b) d) v, q) in
    if b_lacing b =? LACING_NONE then
      let z := hd 0 (b_sizes b) in
      if z <? 0 then Bad
      else
        do r <- i_read s p z;
        let '(err, buf, q) := r in
        if negb (err =? ERR_NONE) then done err (b_sizes b) (b_data b) true q
        else
          do r <- lzo junk buf (out_room z);
          let '(code, out) := r in
          if negb (code =? L_SUCCESS) then done ERR_INVALID_DATA (b_sizes b) out true q
          else done ERR_NONE (s32 (zlen out) :: tl (b_sizes b)) out true q
    else
      let n := fold_right Z.add 0 (b_sizes b) in
      if n <? 0 then done ERR_OUT_OF_MEMORY (b_sizes b) (b_data b) false p
      else
        do r <- i_read s p n;
        let '(err, buf, q) := r in
        if negb (err =? ERR_NONE) then done err (b_sizes b) (b_data b) false q
        else
          do r <- lzo_frames junk buf (b_sizes b);
          let '(err, sizes, d) := r in done err sizes d (err =? ERR_NONE) q.
(** MATROSKA_BlockReadHead-style parsing followed by reading the data. *)
Definition read_lzo_block (fuel : nat) (b : block) (junk : list Z) (s : ist) (pos : Z) : res (Z * block * Z) :=
  do r <- read_head fuel b s pos;
  let '(err, b, p) := r in
  if negb (err =? ERR_NONE) then Ok (err, b, p) else read_lzo b junk s p.
