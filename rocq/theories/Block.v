(** Block and SimpleBlock elements: lacing, rendering, reading; libmatroska2/matroskamain.c,
    matroskablock.c.

    Built with NDEBUG (assertions off), CONFIG_EBML_WRITING on, CONFIG_ZLIB, CONFIG_LZO1X and
    CONFIG_BZLIB off: the only compression understood is header stripping.  Allocations succeed unless
    the size is negative as a signed number. *)
From Verif Require Import Base Vint EbmlId IntElt Crc EltHead Void Ebml Arr Stream Finder Tree TreeRead.

(** Lacing types, matroskamain.c 67-71. *)
Definition LACING_NONE : Z := 0.
Definition LACING_XIPH : Z := 1.
Definition LACING_FIXED : Z := 2.
Definition LACING_EBML : Z := 3.
Definition LACING_AUTO : Z := 4.

(** ERR_NOT_SUPPORTED and ERR_WRITE, corec/corec/err.h 20, 37. *)
Definition ERR_NOT_SUPPORTED : Z := -5.
Definition ERR_WRITE : Z := -22.

(** MATROSKA_TRACK_ENCODING_COMP_HEADERSTRIP, matroska2/matroska_sem.h 345. *)
Definition COMP_HEADERSTRIP : Z := 3.

(** matroska_block, matroska2/matroska_classes.h 22-44.  [b_simple]: the element is a SimpleBlock (its
    context), [b_dsize], [b_dpos] the size and the position of its data (EBML_ElementPositionData).
    The links to tracks, segment info and cluster are parameters of the functions that use them. *)
Record block := mkBlock {
  b_simple : bool; b_set : bool; b_need : bool; b_dsize : Z; b_dpos : Z;
  b_track : Z; b_time : Z; b_tused : bool; b_key : bool; b_disc : bool; b_invis : bool; b_lacing : Z;
  b_first : Z; b_sizes : list Z; b_sizes_in : list Z; b_data : list Z; b_durs : list Z }.

Definition bl_set (b : block) (v : bool) : block :=
  mkBlock (b_simple b) v (b_need b) (b_dsize b) (b_dpos b) (b_track b) (b_time b) (b_tused b) (b_key b) (b_disc b) (b_invis b)
    (b_lacing b) (b_first b) (b_sizes b) (b_sizes_in b) (b_data b) (b_durs b).
Definition bl_need (b : block) (v : bool) : block :=
  mkBlock (b_simple b) (b_set b) v (b_dsize b) (b_dpos b) (b_track b) (b_time b) (b_tused b) (b_key b) (b_disc b) (b_invis b)
    (b_lacing b) (b_first b) (b_sizes b) (b_sizes_in b) (b_data b) (b_durs b).
Definition bl_dsize (b : block) (d : Z) : block :=
  mkBlock (b_simple b) (b_set b) (b_need b) d (b_dpos b) (b_track b) (b_time b) (b_tused b) (b_key b) (b_disc b) (b_invis b)
    (b_lacing b) (b_first b) (b_sizes b) (b_sizes_in b) (b_data b) (b_durs b).
Definition bl_time (b : block) (t : Z) : block :=
  mkBlock (b_simple b) (b_set b) (b_need b) (b_dsize b) (b_dpos b) (b_track b) t true (b_key b) (b_disc b) (b_invis b)
    (b_lacing b) (b_first b) (b_sizes b) (b_sizes_in b) (b_data b) (b_durs b).
Definition bl_lacing (b : block) (l : Z) : block :=
  mkBlock (b_simple b) (b_set b) (b_need b) (b_dsize b) (b_dpos b) (b_track b) (b_time b) (b_tused b) (b_key b) (b_disc b) (b_invis b)
    l (b_first b) (b_sizes b) (b_sizes_in b) (b_data b) (b_durs b).
Definition bl_frames (b : block) (first : Z) (sizes sizes_in data : list Z) : block :=
  mkBlock (b_simple b) (b_set b) (b_need b) (b_dsize b) (b_dpos b) (b_track b) (b_time b) (b_tused b) (b_key b) (b_disc b) (b_invis b)
    (b_lacing b) first sizes sizes_in data (b_durs b).
Definition bl_durs (b : block) (d : list Z) : block :=
  mkBlock (b_simple b) (b_set b) (b_need b) (b_dsize b) (b_dpos b) (b_track b) (b_time b) (b_tused b) (b_key b) (b_disc b) (b_invis b)
    (b_lacing b) (b_first b) (b_sizes b) (b_sizes_in b) (b_data b) d.
Definition bl_head (b : block) (track time : Z) (key disc invis : bool) (lacing : Z) : block :=
  mkBlock (b_simple b) (b_set b) (b_need b) (b_dsize b) (b_dpos b) track time true key disc invis
    lacing (b_first b) (b_sizes b) (b_sizes_in b) (b_data b) (b_durs b).

(** ** Track compression *)

(** ContentCompression: its ContentCompAlgo and ContentCompSettings children.  A ContentEncoding: has
    it any child, its ContentEncodingScope and ContentCompression.  A track: its ContentEncodings, as
    the elements from the first ContentEncoding on.  The size of the settings element is the number of
    its bytes. *)
Record compr := mkCompr { cp_algo : option Z; cp_settings : option (list Z) }.
Record encoding := mkEnc { en_children : bool; en_scope : option Z; en_compr : option compr }.
Definition encodings := option (list encoding).

(** Header of the functions below; [Strip] is the ContentCompSettings element. *)
Inductive header := NoHeader | Strip (h : list Z).

(** The walk shared by CheckCompression (matroskamain.c 266-300), BlockReadData (1026-1070),
    GetBestLacingType (1650-1689), RenderBlockData (1782-1818) and UpdateBlockSize (1992-2024); the
    three error values differ.  Header and scope; the default of ContentCompAlgo is 0, of the scope
    here 1.  Without the libraries every algorithm but header stripping is refused. *)
Definition find_header (cascaded no_compr cannot : Z) (t : encodings) : res (Z + header * Z) :=
  match t with
  | None => Ok (inr (NoHeader, 1))
  | Some [] => Null
  | Some (e :: l) =>
      if negb (en_children e) then Ok (inr (NoHeader, 1))
      else match l with
      | _ :: _ => Ok (inl cascaded)
      | [] =>
          let scope := match en_scope e with Some s => s | None => 1 end in
          match en_compr e with
          | None => Ok (inl no_compr)
          | Some c =>
              if match cp_algo c with Some a => a | None => 0 end =? COMP_HEADERSTRIP
              then Ok (inr (match cp_settings c with Some h => Strip h | None => NoHeader end, scope))
              else Ok (inl cannot)
          end
      end
  end.

(** The bytes a header takes off each frame when its scope has MATROSKA_CONTENTENCODINGSCOPE_BLOCK. *)
Definition strip_of (h : header) (scope : Z) : list Z :=
  match h with NoHeader => [] | Strip s => if Z.land scope 1 =? 0 then [] else s end.

(** GetBlockFrameSize for every frame, matroskamain.c 1607-1641. *)
Definition coded_sizes (b : block) (h : header) (scope : Z) : list Z := map (fun s => s - zlen (strip_of h scope)) (b_sizes b).

(** CheckCompression, matroskamain.c 258-309: called when the block is first linked to a track. *)
Definition check_compression (b : block) (t : encodings) : res (Z * block) :=
  match t with
  | None => Ok (ERR_NONE, b)
  | Some _ =>
      if 0 <? zlen (b_data b) then Ok (ERR_INVALID_PARAM, b)
      else
        do r <- find_header ERR_INVALID_DATA ERR_INVALID_DATA ERR_INVALID_DATA t;
        match r with
        | inl err => Ok (err, b)
        | inr (NoHeader, _) => Ok (ERR_NONE, b)
        | inr (Strip h, _) =>
            Ok (ERR_NONE, bl_frames b (b_first b) (map (fun s => s32 (s + zlen h)) (b_sizes b)) (b_sizes_in b) (b_data b))
        end
  end.

(** ** Writing *)

(** MATROSKA_BlockAppendFrame, matroskamain.c 1593-1604.  The timestamp is modelled in BlockTime.v. *)
Definition append_frame (b : block) (frame : list Z) (duration : Z) : block :=
  bl_lacing (bl_need (bl_set (bl_durs (bl_frames b (b_first b) (b_sizes b ++ [zlen frame]) (b_sizes_in b) (b_data b ++ frame))
    (b_durs b ++ [duration])) true) true) LACING_AUTO.

(** GetBlockHeadSize, matroskamain.c 966-973. *)
Definition head_size (b : block) : Z := if b_track b <? 128 then 4 else 5.

(** matroskamain.c 1735-1766: the bytes before the lace. *)
Definition block_flags (b : block) : Z :=
  let c := if b_invis b then 8 else 0 in
  let c := Z.lor c (u8 (Z.shiftl (b_lacing b) 1)) in
  if b_simple b then Z.lor (Z.lor c (if b_key b then 128 else 0)) (if b_disc b then 1 else 0) else c.
Definition block_head (b : block) : option (list Z) :=
  let tail := [u16 (b_time b) / 256; u16 (b_time b) mod 256; block_flags b] in
  if b_track b <? 128 then Some (Z.lor 128 (Z.land (b_track b) 255) :: tail)
  else if b_track b <? 16384 then Some (Z.lor 64 (Z.shiftr (b_track b) 8) :: Z.land (b_track b) 255 :: tail)
  else None.

(** matroskamain.c 1851-1856: one Xiph size.  [fuel] bounds the loop. *)
Fixpoint xiph_loop (fuel : nat) (d : Z) : res (list Z) :=
  if d <? 255 then Ok [u8 d]
  else match fuel with O => Fuel | S fuel => do l <- xiph_loop fuel (d - 255); Ok (255 :: l) end.
Definition xiph_size (d : Z) : res (list Z) := xiph_loop (Z.to_nat (d / 255)) d.
(** matroskamain.c 1848-1858: the sizes of all the frames but the last. *)
Fixpoint xiph_lace (sizes : list Z) : res (list Z) :=
  match sizes with
  | [] => Ok []
  | d :: l => do x <- xiph_size d; do r <- xiph_lace l; Ok (x ++ r)
  end.
(** matroskamain.c 1839-1844: the differences of the frames after the first. *)
Fixpoint ebml_deltas (prev : Z) (sizes : list Z) : res (list Z) :=
  match sizes with
  | [] => Ok []
  | d :: l =>
      do x <- opt_res (coded_value_length_signed (d - prev) (coded_size_length_signed (d - prev) 0));
      do r <- ebml_deltas d l; Ok (x ++ r)
  end.
(** matroskamain.c 1836-1845. *)
Definition ebml_lace (sizes : list Z) : res (list Z) :=
  match sizes with
  | [] => Bad
  | d :: l => do x <- opt_res (coded_value_length d (coded_size_length d 0 true) true); do r <- ebml_deltas d (removelast l); Ok (x ++ r)
  end.

(** matroskamain.c 1825-1869: the lace head; writing past the 1 + 4 * count bytes allocated is [Bad],
    as is a laced block without frames (the loops run over 2^64 frames). *)
Definition lace_head (lacing : Z) (sizes : list Z) : res (list Z) :=
  let n := zlen sizes in
  if n =? 0 then Bad
  else
    do l <- (if lacing =? LACING_EBML then ebml_lace sizes
             else if lacing =? LACING_XIPH then xiph_lace (removelast sizes)
             else Ok []);
    if 4 * n <? zlen l then Bad else Ok (Z.land (n - 1) 255 :: l).

(** matroskamain.c 1913-1930: the frames without the header.  [cursor] is the position in Data.  As in
    the code the error of one write is replaced by that of the next. *)
Fixpoint render_stripped (h data : list Z) (cursor : Z) (sizes : list Z) (err rendered : Z) (o : ost) : res (Z * Z * ost) :=
  match sizes with
  | [] => Ok (err, rendered, o)
  | s :: l =>
      do x <- opt_res (mem_get data cursor (zlen h));
      if negb (list_eqb x h) then Ok (ERR_INVALID_DATA, rendered, o)
      else
        do bs <- opt_res (mem_get data (cursor + zlen h) (s - zlen h));
        do r <- o_write o bs;
        let '(err, n, o) := r in
        render_stripped h data (cursor + zlen h + n) l err (rendered + n) o
  end.

(** matroskamain.c 1643-1723, from the sizes of the frames on the wire.  The computations are in int
    and int32_t. *)
Fixpoint xiph_cost (sizes : list Z) (acc : Z) (d : Z) : Z * Z :=
  match sizes with
  | [] => (acc, d)
  | s :: l => xiph_cost l (acc + (if s <? 255 then 1 else s / 255 + 1)) (if s <? 255 then s else s mod 255)
  end.
(** As in the code, what is subtracted is the result of the previous subtraction, and at first what
    the Xiph loop left. *)
Fixpoint ebml_cost (sizes : list Z) (acc : Z) (d : Z) : Z :=
  match sizes with
  | [] => acc
  | s :: l => let d := s32 (s - d) in ebml_cost l (acc + coded_size_length_signed d 0) d
  end.
Definition best_lacing (b : block) (t : encodings) : res Z :=
  match b_sizes b with
  | [] | [_] => Ok LACING_NONE
  | s :: l =>
      if forallb (fun x => x =? s) l then Ok LACING_FIXED
      else
        do r <- find_header 0 0 0 t;
        match r with
        | inl _ => Ok LACING_NONE
        | inr (h, scope) =>
            let cs := coded_sizes b h scope in
            let '(xs, d) := xiph_cost (removelast cs) 0 s in
            let es := ebml_cost (removelast (tl cs)) (coded_size_length (hd 0 cs) 0 true) d in
            Ok (if xs <? es then LACING_XIPH else LACING_EBML)
        end
  end.

(** RenderBlockData, matroskamain.c 1725-1943: error, *Rendered, the stream.  [b_lacing] is not AUTO
    (asserted), so GetBestLacingType is not called.  The read track becoming the write track is left
    out. *)
Definition render_block (b : block) (t : encodings) (o : ost) : res (Z * Z * ost) :=
  match block_head b with
  | None => Ok (ERR_INVALID_DATA, 0, o)
  | Some hd =>
      do r <- o_write o hd;
      let '(err, n, o) := r in
      if negb (err =? ERR_NONE) then Ok (err, 0, o)
      else if negb (n =? zlen hd) then Ok (ERR_WRITE, 0, o)
      else
        do r <- find_header ERR_INVALID_DATA ERR_INVALID_DATA ERR_NOT_SUPPORTED t;
        match r with
        | inl err => Ok (err, n, o)
        | inr (h, scope) =>
            do r <- (if b_lacing b =? LACING_NONE then Ok (ERR_NONE, 0, o)
                     else do l <- lace_head (b_lacing b) (coded_sizes b h scope); o_write o l);
            let '(err, m, o) := r in
            if negb (err =? ERR_NONE) then Ok (err, n, o)
            else
              match h with
              | Strip s =>
                  if Z.land scope 1 =? 0
                  then do r <- o_write o (b_data b); let '(err, k, o) := r in Ok (err, n + m + k, o)
                  else render_stripped s (b_data b) 0 (b_sizes b) ERR_NONE (n + m) o
              | NoHeader => do r <- o_write o (b_data b); let '(err, k, o) := r in Ok (err, n + m + k, o)
              end
        end
  end.

(** matroskamain.c 2028-2076: the data size for each lacing. *)
Fixpoint ebml_delta_sizes (prev : Z) (sizes : list Z) : Z :=
  match sizes with
  | [] => 0
  | s :: l => s + coded_size_length_signed (s - prev) 0 + ebml_delta_sizes s l
  end.
(** The frame read after the loop: index max(1, count-1) for EBML, count-1 for Xiph; an index outside
    counts 0 (line 1610). *)
Definition laced_size (lacing : Z) (sizes : list Z) : Z :=
  if lacing =? LACING_EBML then
    coded_size_length (hd 0 sizes) 0 true + hd 0 sizes + ebml_delta_sizes (hd 0 sizes) (removelast (tl sizes))
    + (match tl sizes with [] => 0 | _ => last sizes 0 end)
  else if lacing =? LACING_XIPH then
    fold_right (fun s a => (Z.quot s 255 + 1) + s + a) 0 (removelast sizes) + last sizes 0
  else fold_right Z.add 0 sizes.

(** UpdateBlockSize, matroskamain.c 1978-2121: the returned value and the block.  The block is always
    written whatever bWithDefault (it has no default value) and its DefaultSize is -1. *)
Definition update_block_size (b : block) (t : encodings) : res (Z * block) :=
  if b_need b then
    do l <- (if b_lacing b =? LACING_AUTO then best_lacing b t else Ok (b_lacing b));
    let b := bl_lacing b l in
    do r <- find_header ERR_INVALID_DATA ERR_INVALID_DATA ERR_INVALID_DATA t;
    match r with
    | inl err => Ok (err, b)
    | inr (h, scope) =>
        let cs := coded_sizes b h scope in
        let d :=
          if l =? LACING_NONE then head_size b + hd 0 cs
          else if (l =? LACING_EBML) || (l =? LACING_XIPH) || (l =? LACING_FIXED) then head_size b + 1 + laced_size l cs
          else b_dsize b in
        let d := if d <? -1 then -1 else d in
        Ok (d, bl_need (bl_dsize b d) false)
    end
  else Ok (b_dsize b, b).

(** ** Reading *)

(** Stream_Read of one byte in _TempHead[0]; at the end of the stream the byte keeps its value. *)
Definition read_byte (s : ist) (pos prev : Z) : res (Z * Z) :=
  do r <- i_read s pos 1;
  let '(_, bs, p) := r in
  Ok (match bs with x :: _ => x | [] => prev end, p).

(** matroskamain.c 1495-1503: one Xiph size: the size, the bytes it took, the last byte, the position.
    FrameSize is an int32_t.  [fuel] bounds the loop, which does not end by itself. *)
Fixpoint read_xiph (fuel : nat) (s : ist) (pos prev acc n : Z) : res (Z * Z * Z * Z) :=
  match fuel with
  | O => Fuel
  | S fuel =>
      do r <- read_byte s pos prev;
      let '(x, pos) := r in
      let acc := s32 (acc + x) in
      if x =? 255 then read_xiph fuel s pos x acc (n + 1) else Ok (acc, n + 1, x, pos)
  end.
(** matroskamain.c 1491-1508, [k] frames left: the sizes, LastBufferSize, the length of the lace. *)
Fixpoint read_xiph_sizes (fuel : nat) (s : ist) (k : nat) (pos prev lbs len : Z) : res (list Z * Z * Z) :=
  match k with
  | O => Ok ([], lbs, len)
  | S k =>
      do r <- read_xiph fuel s pos prev 0 0;
      let '(d, n, x, pos) := r in
      do r <- read_xiph_sizes fuel s k pos x (u32 (lbs - n - d)) (len + n);
      let '(l, lbs, len) := r in Ok (d :: l, lbs, len)
  end.

(** matroskamain.c 1519-1527: the differences.  [buf] is what was read in the buffer of FrameNum*4
    bytes, [off] cursor - _tmpBuf.  Reading outside those bytes is [Bad]. *)
Fixpoint read_deltas (buf : list Z) (k : nat) (off prev lbs : Z) : res (list Z * Z * Z) :=
  match k with
  | O => Ok ([], lbs, off)
  | S k =>
      do r <- opt_res (read_coded_size_signed (skipn (Z.to_nat off) buf) lbs);
      let d := s32 (prev + s32 (sz_val r)) in
      do r <- read_deltas buf k (off + sz_len r) d (u32 (lbs - (d + sz_len r)));
      let '(l, lbs, off) := r in Ok (d :: l, lbs, off)
  end.

(** ReadBlockData, matroskamain.c 1407-1540: error, the block, the position.  [b_dpos], [b_dsize] and
    [b_simple] are set by the finder.  [fuel] bounds each Xiph size.  SCOPE_NO_DATA returns at once and
    is left out.  The errors of the reads in the lace are forgotten, as in the code. *)
Definition read_parse (fuel : nat) (b : block) (s : ist) (pos : Z) : res (Z * block * Z) :=
  let b := bl_set b false in
  let '(sk, p) := i_seek s (b_dpos b) pos in
  if sk =? INVALID_FILEPOS then Ok (ERR_READ, b, p)
  else
    do r <- i_read s p 5;
    let '(err, bs, p) := r in
    if negb (err =? ERR_NONE) then Ok (err, b, p)
    else
      let at_ n := nth n bs 0 in
      if (Z.land (at_ 0%nat) 128 =? 0) && (Z.land (at_ 0%nat) 64 =? 0) then Ok (ERR_INVALID_DATA, b, p)
      else
        let k := if Z.land (at_ 0%nat) 128 =? 0 then 2%nat else 1%nat in
        let track := if Z.land (at_ 0%nat) 128 =? 0 then u16 (Z.shiftl (Z.land (at_ 0%nat) 63) 8 + at_ 1%nat) else Z.land (at_ 0%nat) 127 in
        let hsz := Z.of_nat k + 3 in
        let time := s16 (at_ k * 256 + at_ (k + 1)%nat) in
        let fl := at_ (k + 2)%nat in
        let lacing := Z.shiftr (Z.land fl 6) 1 in
        let b := bl_head b track time (if b_simple b then negb (Z.land fl 128 =? 0) else b_key b)
                   (if b_simple b then negb (Z.land fl 1 =? 0) else b_disc b) (negb (Z.land fl 8 =? 0)) lacing in
        let first := b_dpos b + hsz in
        do r <- (if (k =? 1)%nat then Ok (at_ 4%nat, p) else read_byte s p (at_ 0%nat));
        let '(num, p) := r in
        let body := b_dsize b - hsz in
        if lacing =? LACING_NONE then
          Ok (ERR_NONE, bl_frames b first [s32 body] (b_sizes_in b) (b_data b), p)
        else
          let lbs := u32 (body - 1) in
          do r <- (if lacing =? LACING_XIPH then
                     do r <- read_xiph_sizes fuel s (Z.to_nat num) p num lbs 0;
                     let '(l, lbs, len) := r in Ok (l ++ [s32 lbs], len)
                   else if lacing =? LACING_EBML then
                     do r <- i_read s p (num * 4);
                     let '(_, buf, _) := r in
                     do z <- opt_res (read_coded_size buf lbs);
                     let d := s32 (sz_val z) in
                     do r <- read_deltas buf (Z.to_nat (num - 1)) (sz_len z) d (u32 (lbs - (d + sz_len z)));
                     let '(l, lbs, len) := r in
                     (* SizeList[Index] with Index 1 and one entry *)
                     if num =? 0 then Bad else Ok (d :: l ++ [s32 lbs], len)
                   else if num =? 255 then Fuel (* for (Index=0; Index<=FrameNum; Index++) on uint8_t never ends *)
                   else Ok (repeat (s32 (lbs / (num + 1))) (Z.to_nat (num + 1)), 0));
          let '(sizes, len) := r in
          Ok (ERR_NONE, bl_frames b (first + 1 + len) sizes (b_sizes_in b) (b_data b), p).

(** ReadBlockData with SCOPE_PARTIAL_DATA, matroskamain.c 1542-1548. *)
Definition read_head (fuel : nat) (b : block) (s : ist) (pos : Z) : res (Z * block * Z) :=
  do r <- read_parse fuel b s pos;
  let '(err, b, p) := r in
  if negb (err =? ERR_NONE) then Ok (err, b, p)
  else let '(sk, q) := i_seek s (b_first b) p in Ok (if sk =? INVALID_FILEPOS then ERR_READ else ERR_NONE, b, q).

(** matroskamain.c 1342-1356: frame after frame, with the header put back.  The assertion on the room
    left in Data is off: data written outside the [room] bytes left is [Bad]. *)
Fixpoint read_stripped (h : list Z) (s : ist) (pos : Z) (sizes : list Z) (room : Z) : res (Z * list Z * Z) :=
  match sizes with
  | [] => Ok (ERR_NONE, [], pos)
  | z :: l =>
      if (z <? zlen h) || (room <? z) then Bad
      else
        do r <- i_read s pos (z - zlen h);
        let '(err, bs, p) := r in
        if negb (err =? ERR_NONE) then Ok (err, h ++ bs, p)
        else
          do r <- read_stripped h s p l (room - z);
          let '(err, d, p) := r in Ok (err, h ++ bs ++ d, p)
  end.

(** MATROSKA_BlockReadData, matroskamain.c 1014-1373: error, the block, the position.  [moved]: the block
    is linked to another track or segment info for writing.  The bytes of Data after an error are
    those stored before it; the rest is not initialised. *)
Definition read_data (b : block) (t : encodings) (moved : bool) (s : ist) (pos : Z) : res (Z * block * Z) :=
  let ready b p := Ok (ERR_NONE, if moved then bl_need b true else b, p) in
  if b_set b then ready b pos
  else
    do r <- find_header ERR_NOT_SUPPORTED ERR_NOT_SUPPORTED ERR_INVALID_DATA t;
    match r with
    | inl err => Ok (err, b, pos)
    | inr (h, _) =>
        let p := snd (i_seek s (b_first b) pos) in
        let b := match h with NoHeader => b | Strip _ => bl_frames b (b_first b) (b_sizes b) (b_sizes b) (b_data b) end in
        let fill b d := bl_frames b (b_first b) (b_sizes b) (b_sizes_in b) d in
        if b_lacing b =? LACING_NONE then
          let n := hd 0 (b_sizes b) in
          if n <? 0 then Ok (ERR_OUT_OF_MEMORY, b, p)
          else
            let hb := match h with NoHeader => [] | Strip x => x end in
            if n <? zlen hb then Bad
            else
              do r <- i_read s p (n - zlen hb);
              let '(err, bs, q) := r in
              if negb (err =? ERR_NONE) then Ok (err, fill b (hb ++ bs), q)
              else ready (bl_set (fill b (hb ++ bs)) true) q
        else
          let n := fold_right Z.add 0 (b_sizes b) in
          if n <? 0 then Ok (ERR_OUT_OF_MEMORY, b, p)
          else
            do r <- match h with
                    | NoHeader => i_read s p n
                    | Strip x => read_stripped x s p (b_sizes b) n
                    end;
            let '(err, d, q) := r in
            if negb (err =? ERR_NONE) then Ok (err, fill b d, q)
            else ready (bl_set (fill b d) true) q
    end.

(** ReadBlockData with SCOPE_ALL_DATA: matroskamain.c 1407-1553. *)
Definition read_block (fuel : nat) (b : block) (t : encodings) (moved : bool) (s : ist) (pos : Z) : res (Z * block * Z) :=
  do r <- read_parse fuel b s pos;
  let '(err, b, p) := r in
  if negb (err =? ERR_NONE) then Ok (err, b, p) else read_data b t moved s p.
