(** Memory and buffering streams, corec/corec/helpers/file. *)
From Verif Require Import Base Arr.

(** Error codes, corec/corec/err.h. *)
Definition ERR_NONE : Z := 0.
Definition ERR_INVALID_DATA : Z := -3.
Definition ERR_INVALID_PARAM : Z := -4.
Definition ERR_END_OF_FILE : Z := -9.

(** ** memstream.c.  [mptr] is the block Ptr[0..Size), [mpos] is Pos, [mvoff] VirtualOffset. *)
Record mems := mkMem { mptr : list Z; mpos : Z; mvoff : Z }.

(** MemRead, memstream.c 22-41: error code and bytes stored (their number is *Readed).
    [None] is the failed assertion at line 26 or an access outside the block. *)
Definition mem_read (m : mems) (n : Z) : option (Z * list Z * mems) :=
  if zlen (mptr m) <? mpos m then None
  else
    let short := zlen (mptr m) - mpos m <? n in
    let n := if short then zlen (mptr m) - mpos m else n in
    match mem_get (mptr m) (mpos m) n with
    | None => None
    | Some bs => Some (if short then ERR_END_OF_FILE else ERR_NONE, bs, mkMem (mptr m) (mpos m + n) (mvoff m))
    end.

(** MemWrite, memstream.c 43-53: error code and *Written.  [want_count] is Written != NULL: line 45
    stores through it without a test.  The sum at line 46 is computed in size_t (64 bits). *)
Definition mem_write (m : mems) (bs : list Z) (want_count : bool) : option (Z * Z * mems) :=
  if negb want_count then None
  else if zlen (mptr m) <? u64 (zlen bs + mpos m) then Some (ERR_INVALID_PARAM, 0, m)
  else
    match mem_put (mptr m) (mpos m) bs with
    | None => None
    | Some p => Some (ERR_NONE, zlen bs, mkMem p (mpos m + zlen bs) (mvoff m))
    end.

Inductive whence := SeekSet | SeekCur | SeekEnd.
(** MemSeek, memstream.c 55-80, built with NDEBUG (the assertions at 68 and 74 are off): the returned
    position and the new state.  Mixed size_t/int64_t sums wrap modulo 2^64. *)
Definition mem_seek (m : mems) (vp : Z) (mode : whence) : Z * mems :=
  let vp := match mode with
            | SeekSet => vp
            | SeekCur => s64 (vp + mpos m + mvoff m)
            | SeekEnd => s64 (vp + zlen (mptr m) + mvoff m)
            end in
  let vp := if vp <? 0 then 0 else vp in
  let vp := if zlen (mptr m) + mvoff m <? vp then zlen (mptr m) + mvoff m else vp in
  (vp, mkMem (mptr m) (u64 (vp - mvoff m)) (mvoff m)).

(** ** bufstream.c over an arbitrary underlying stream. *)
Definition BUFSTREAM_SIZE : Z := 4096.

Section Buf.
Context {U : Type}.
(** Stream_Read on the underlying stream: error, bytes delivered, new state. *)
Context (urd : U -> Z -> Z * list Z * U).
(** Stream_Write on the underlying stream: error, count written, new state. *)
Context (uwr : U -> list Z -> Z * Z * U).

(** One buffer serves both directions (bufstream.c 17-20). *)
Record bufs := mkBuf { bu : U; brpos : Z; brsize : Z; bwpos : Z; bbuf : list Z }.

(** BufFlush, bufstream.c 24-34, for a non-NULL Stream. *)
Definition buf_flush (b : bufs) : option (Z * bufs) :=
  if 0 <? bwpos b then
    match mem_get (bbuf b) 0 (bwpos b) with
    | None => None
    | Some bs =>
        let '(e, _, u) := uwr (bu b) bs in
        Some (e, mkBuf u (brpos b) (brsize b) (if e =? ERR_NONE then 0 else bwpos b) (bbuf b))
    end
  else Some (ERR_NONE, b).

(** bufstream.c 85-90. *)
Definition buf_read_end (size err : Z) (out : list Z) (b : bufs) : option (Z * list Z * bufs) :=
  Some (if size <=? zlen out then ERR_NONE else err, out, b).

(** BufRead loop, bufstream.c 59-83: [out] is Data[0..Pos).  [None] is fuel exhausted or a copy
    outside the buffer. *)
Fixpoint buf_read_loop (fuel : nat) (b : bufs) (size : Z) (out : list Z) (err : Z) : option (Z * list Z * bufs) :=
  let left := size - zlen out in
  if left <=? 0 then buf_read_end size err out b
  else match fuel with
  | O => None
  | S f =>
      let copy (b : bufs) (err : Z) :=
        let left := if brsize b - brpos b <? left then brsize b - brpos b else left in
        match mem_get (bbuf b) (brpos b) left with
        | None => None
        | Some bs => buf_read_loop f (mkBuf (bu b) (brpos b + left) (brsize b) (bwpos b) (bbuf b)) size (out ++ bs) err
        end in
      if brsize b <=? brpos b then
        if BUFSTREAM_SIZE <? left then
          let '(e, bs, u) := urd (bu b) left in
          Some (e, out ++ bs, mkBuf u (brpos b) (brsize b) (bwpos b) (bbuf b))
        else
          let '(e, bs, u) := urd (bu b) BUFSTREAM_SIZE in
          match mem_put (bbuf b) 0 bs with
          | None => None
          | Some nb =>
              let b := mkBuf u 0 (zlen bs) (bwpos b) nb in
              if zlen bs <=? 0 then buf_read_end size e out b else copy b e
          end
      else copy b err
  end.
(** BufRead, bufstream.c 53-91. *)
Definition buf_read (b : bufs) (size : Z) : option (Z * list Z * bufs) :=
  buf_read_loop (Z.to_nat size) b size [] ERR_NONE.

(** BufWrite loop, bufstream.c 99-117: [rest] is Data[Pos..Size), [pos] is Pos; returns Err and Pos. *)
Fixpoint buf_write_loop (fuel : nat) (b : bufs) (rest : list Z) (pos : Z) : option (Z * Z * bufs) :=
  let left := zlen rest in
  if left <=? 0 then Some (ERR_NONE, pos, b)
  else match fuel with
  | O => None
  | S f =>
      match (if BUFSTREAM_SIZE <=? bwpos b then buf_flush b else Some (ERR_NONE, b)) with
      | None => None
      | Some (e, b) =>
          if negb (e =? ERR_NONE) then Some (e, pos, b)
          else if (bwpos b =? 0) && (BUFSTREAM_SIZE <? left) then
            let '(e, n, u) := uwr (bu b) rest in
            Some (e, pos + n, mkBuf u (brpos b) (brsize b) (bwpos b) (bbuf b))
          else
            let n := if BUFSTREAM_SIZE - bwpos b <? left then BUFSTREAM_SIZE - bwpos b else left in
            match mem_put (bbuf b) (bwpos b) (firstn (Z.to_nat n) rest) with
            | None => None
            | Some nb => buf_write_loop f (mkBuf (bu b) (brpos b) (brsize b) (bwpos b + n) nb) (skipn (Z.to_nat n) rest) (pos + n)
            end
      end
  end.
(** BufWrite, bufstream.c 93-122. *)
Definition buf_write (b : bufs) (bs : list Z) : option (Z * Z * bufs) :=
  buf_write_loop (length bs) b bs 0.

(** BufStream(set), bufstream.c 36-44: flush, then attach a new stream. *)
Definition buf_attach (b : bufs) (u : U) : option (U * bufs) :=
  match buf_flush b with
  | Some (_, b') => Some (bu b', mkBuf u 0 0 0 (bbuf b'))
  | None => None
  end.
End Buf.
Arguments bufs : clear implicits.
