(** Frames compressed with zlib: the two functions of libmatroska2/matroskamain.c around the library,
    144-226, and the parts of the reading and the writing of blocks compiled with CONFIG_ZLIB (ON by
    default, libmatroska2/CMakeLists.txt 3), which Block.v leaves out.

    zlib itself is a parameter: what it promises is stated in ZlibSpec.v.  Allocations succeed unless
    said otherwise. *)
From Verif Require Import Base Arr Vint Void Ebml Stream Tree TreeRead Block Frame.

(** The result of inflate and deflate: Z_OK, Z_STREAM_END or anything else. *)
Inductive zres := ZOk | ZEnd | ZErr.

(** An inflate stream is set up on its whole input (inflateInit, next_in and avail_in; [None] when
    inflateInit fails); a call has [n] bytes of room (avail_out) and gives the result, the bytes written
    and the stream; [z_ileft] is avail_in.  A deflate stream likewise, each call with Z_FINISH. *)
Record zlib := Zlib {
  zi : Type; z_istart : list Z -> option zi; z_icall : zi -> Z -> zres * list Z * zi; z_ileft : zi -> Z;
  zo : Type; z_ostart : list Z -> option zo; z_ocall : zo -> Z -> zres * list Z * zo }.

(** MATROSKA_TRACK_ENCODING_COMP_ZLIB, matroska2/matroska_sem.h 341-342. *)
Definition ALGO_ZLIB : Z := 0.

(** The walk of matroskamain.c 1026-1070, 1650-1689, 1782-1818, 1992-2024 and 266-300 when it ends on
    zlib: the scope of the encoding.  The default of ContentCompAlgo is 0, of the scope 1. *)
Definition zlib_of (t : encodings) : option Z :=
  match t with
  | Some [e] =>
      if en_children e then
        match en_compr e with
        | Some c => if match cp_algo c with Some a => a | None => 0 end =? ALGO_ZLIB
                    then Some (match en_scope e with Some s => s | None => 1 end) else None
        | None => None
        end
      else None
  | _ => None
  end.
(** The scope has MATROSKA_CONTENTENCODINGSCOPE_BLOCK: 1075-1076, 1613, 1875. *)
Definition on_blocks (scope : Z) : bool := negb (Z.land scope 1 =? 0).

Section Zlib.
(** zlib, and what memory not written yet holds. *)
Context (z : zlib) (junk : Z).

(** ArrayResize: what was there is kept, what is added is not set. *)
Definition resize (l : list Z) (n : Z) : list Z := firstn (Z.to_nat n) l ++ repeat junk (Z.to_nat (n - zlen l)).

(** UnCompressFrameZLib, matroskamain.c 160-173.  [count]: next_out from the start of the array, [total]
    total_out.  Bytes written outside the room are [Bad].  [fuel] bounds the turns. *)
Fixpoint inflate_loop (fuel : nat) (st : zi z) (buf : list Z) (count total : Z) : res (zres * list Z * Z) :=
  match fuel with
  | O => Fuel
  | S fuel =>
      let buf := resize buf (count + 1024) in
      let '(r, out, st) := z_icall z st 1024 in
      if 1024 <? zlen out then Bad
      else
        let buf := patch buf count out in
        let total := total + zlen out in
        match r with
        | ZOk => if (0 <? z_ileft z st) && (zlen out =? 1024) then inflate_loop fuel st buf (count + zlen out) total else Ok (ZOk, buf, total)
        | _ => Ok (r, buf, total)
        end
  end.

(** UnCompressFrameZLib, 145-180: the error, the array, *FrameSize (not set when inflateInit fails, 0
    here) and *ArrayOffset. *)
Definition uncompress_frame (fuel : nat) (c : list Z) (buf : list Z) (off : Z) : res (Z * list Z * Z * Z) :=
  match z_istart z c with
  | None => Ok (ERR_INVALID_DATA, buf, 0, off)
  | Some st =>
      do r <- inflate_loop fuel st buf off 0;
      let '(r, buf, total) := r in
      Ok (match r with ZEnd => ERR_NONE | _ => ERR_INVALID_DATA end, buf, total, off + total)
  end.

(** CompressFrameZLib, 198-210: each turn gives as much room as the frame has bytes, [n].  [out]: what the
    array holds. *)
Fixpoint deflate_loop (fuel : nat) (st : zo z) (n : Z) (out : list Z) : res (list Z) :=
  match fuel with
  | O => Fuel
  | S fuel =>
      let '(r, o, st) := z_ocall z st n in
      if n <? zlen o then Bad
      else if (zlen o =? n) && match r with ZEnd => false | _ => true end then deflate_loop fuel st n (out ++ o)
      else Ok (out ++ o)
  end.

(** CompressFrameZLib, 184-224: the error, the bytes copied to *OutBuf, which has [room] bytes (none
    without OutBuf), and *OutSize, left alone (0 here) when deflateInit fails. *)
Definition compress_frame (fuel : nat) (d : list Z) (room : Z) : res (Z * list Z * Z) :=
  match z_ostart z d with
  | None => Ok (ERR_INVALID_DATA, [], 0)
  | Some st => do out <- deflate_loop fuel st (zlen d) []; Ok (ERR_NONE, firstn (Z.to_nat room) out, zlen out)
  end.

(** GetBlockFrameSize for every frame of a zlib track, 1607-1641.  The code asks for the size of the
    last frame only outside the lace. *)
Fixpoint zsizes (fuel : nat) (data : list Z) (prev : Z) (sizes : list Z) : res (list Z) :=
  match sizes with
  | [] => Ok []
  | s :: l =>
      do d <- opt_res (mem_get data prev s);
      do r <- compress_frame fuel d 0;
      let '(err, _, n) := r in
      do t <- zsizes fuel data (prev + s) l;
      Ok ((if err =? ERR_NONE then n else s) :: t)
  end.
Definition z_sizes (fuel : nat) (b : block) : res (list Z) := if b_set b then zsizes fuel (b_data b) 0 (b_sizes b) else Ok (b_sizes b).

(** GetBestLacingType, 1643-1723: the sizes compared for the fixed lacing are those of the frames as they
    are, the others those of the compressed frames. *)
Definition z_best (fuel : nat) (b : block) : res Z :=
  match b_sizes b with
  | [] | [_] => Ok LACING_NONE
  | s :: l =>
      if forallb (fun x => x =? s) l then Ok LACING_FIXED
      else
        do cs <- z_sizes fuel b;
        let '(xs, d) := xiph_cost (removelast cs) 0 s in
        let es := ebml_cost (removelast (tl cs)) (coded_size_length (hd 0 cs) 0 true) d in
        Ok (if xs <? es then LACING_XIPH else LACING_EBML)
  end.

(** UpdateBlockSize, 1978-2121. *)
Definition z_update (fuel : nat) (b : block) (t : encodings) : res (Z * block) :=
  match zlib_of t with
  | None => update_block_size b t
  | Some scope =>
      if negb (on_blocks scope) then update_block_size b None
      else if b_need b then
        do l <- (if b_lacing b =? LACING_AUTO then z_best fuel b else Ok (b_lacing b));
        let b := bl_lacing b l in
        do cs <- z_sizes fuel b;
        let d :=
          if l =? LACING_NONE then head_size b + hd 0 cs
          else if (l =? LACING_EBML) || (l =? LACING_XIPH) || (l =? LACING_FIXED) then head_size b + 1 + laced_size l cs
          else b_dsize b in
        let d := if d <? -1 then -1 else d in
        Ok (d, bl_need (bl_dsize b d) false)
      else Ok (b_dsize b, b)
  end.

(** RenderBlockData, 1880-1911: the frames one by one.  TmpBuf has 100 bytes more than the frame; what is
    written are *OutSize bytes of it: reading past it is [Bad]. *)
Fixpoint render_zlib (fuel : nat) (data : list Z) (cursor : Z) (sizes : list Z) (rendered : Z) (o : ost) : res (Z * Z * ost) :=
  match sizes with
  | [] => Ok (ERR_NONE, rendered, o)
  | s :: l =>
      do d <- opt_res (mem_get data cursor s);
      do r <- compress_frame fuel d (s + 100);
      let '(err, bs, n) := r in
      if negb (err =? ERR_NONE) then Ok (ERR_OUT_OF_MEMORY, rendered, o)
      else if s + 100 <? n then Bad
      else
        do r <- o_write o bs;
        let '(err, k, o) := r in
        if negb (err =? ERR_NONE) then Ok (err, rendered + k, o) else render_zlib fuel data (cursor + s) l (rendered + k) o
  end.

(** RenderBlockData, 1725-1943, as in Block.v. *)
Definition z_render (fuel : nat) (b : block) (t : encodings) (o : ost) : res (Z * Z * ost) :=
  match zlib_of t with
  | None => render_block b t o
  | Some scope =>
      if negb (on_blocks scope) then render_block b None o
      else
        match block_head b with
        | None => Ok (ERR_INVALID_DATA, 0, o)
        | Some hd =>
            do r <- o_write o hd;
            let '(err, n, o) := r in
            if negb (err =? ERR_NONE) then Ok (err, 0, o)
            else if negb (n =? zlen hd) then Ok (ERR_WRITE, 0, o)
            else
              do r <- (if b_lacing b =? LACING_NONE then Ok (ERR_NONE, 0, o)
                       else do cs <- z_sizes fuel b; do l <- lace_head (b_lacing b) cs; o_write o l);
              let '(err, m, o) := r in
              if negb (err =? ERR_NONE) then Ok (err, n, o)
              else render_zlib fuel (b_data b) 0 (b_sizes b) (n + m) o
        end
  end.

(** BlockReadData, 1232-1307: the frames of a lace, [tmp] what was read, [buf] Data, [off] where the next
    frame goes.  The error, SizeList, Data and OutSize. *)
Fixpoint read_zlib (fuel : nat) (tmp : list Z) (cursor : Z) (sizes : list Z) (buf : list Z) (off : Z) : res (Z * list Z * list Z * Z) :=
  match sizes with
  | [] => Ok (ERR_NONE, [], buf, off)
  | s :: l =>
      do c <- opt_res (mem_get tmp cursor s);
      do r <- uncompress_frame fuel c buf off;
      let '(err, buf, n, off') := r in
      if negb (err =? ERR_NONE) then Ok (err, s :: l, buf, off)
      else
        do r <- read_zlib fuel tmp (cursor + s) l buf off';
        let '(err, sizes, buf, off) := r in Ok (err, s32 n :: sizes, buf, off)
  end.

(** MATROSKA_BlockReadData, 1014-1373, as in Block.v.  In a block without lacing no error jumps to the
    end: the value counts as set (1364) whatever happened (1083-1171). *)
Definition z_read_data (fuel : nat) (b : block) (t : encodings) (moved : bool) (s : ist) (pos : Z) : res (Z * block * Z) :=
  match zlib_of t with
  | None => read_data b t moved s pos
  | Some scope =>
      if negb (on_blocks scope) then read_data b None moved s pos
      else
        let ready err b p := Ok (err, if moved then bl_need b true else b, p) in
        if b_set b then ready ERR_NONE b pos
        else
          let p := snd (i_seek s (b_first b) pos) in
          let b := bl_frames b (b_first b) (b_sizes b) (b_sizes b) (b_data b) in
          let fill b sizes d := bl_frames b (b_first b) sizes (b_sizes_in b) d in
          if b_lacing b =? LACING_NONE then
            do r <- i_read s p (hd 0 (b_sizes b));
            let '(err, bs, q) := r in
            if negb (err =? ERR_NONE) then ready err (bl_set b true) q
            else
              do r <- uncompress_frame fuel bs (b_data b) 0;
              let '(err, buf, n, _) := r in
              if negb (err =? ERR_NONE) then ready err (bl_set (fill b (b_sizes b) buf) true) q
              else ready ERR_NONE (bl_set (fill b (s32 n :: tl (b_sizes b)) (resize buf n)) true) q
          else
            let n := fold_right Z.add 0 (b_sizes b) in
            if n <? 0 then Ok (ERR_OUT_OF_MEMORY, b, p)
            else
              do r <- i_read s p n;
              let '(err, tmp, q) := r in
              if negb (err =? ERR_NONE) then Ok (err, b, q)
              else
                do r <- read_zlib fuel tmp 0 (b_sizes b) (b_data b) 0;
                let '(err, sizes, buf, out) := r in
                let b := fill b sizes (resize buf out) in
                if negb (err =? ERR_NONE) then Ok (err, b, q) else ready ERR_NONE (bl_set b true) q
  end.

(** What a player does, as read_frames of Frame.v; for a zlib track CheckCompression, 258-309, only
    refuses a block that holds data. *)
Definition z_read_frames (fuel zf : nat) (b : block) (t : encodings) (moved : bool) (s : ist) (pos : Z) : res (Z * block * Z) :=
  match zlib_of t with
  | None => read_frames fuel b t moved s pos
  | Some _ =>
      do r <- read_head fuel b s pos;
      let '(err, b, p) := r in
      if negb (err =? ERR_NONE) then Ok (err, b, p)
      else if 0 <? zlen (b_data b) then Ok (ERR_INVALID_PARAM, b, p)
      else z_read_data zf b t moved s p
  end.
End Zlib.
