(** Reading, writing, seeking and truncating files, and skipping over any stream: corec/corec/helpers/file/file_libc.c 94-155 and
    streams.c 12-25.

    Simplified: the system is a file of bytes with a position (POSIX read, write, lseek, ftruncate); how much it takes of a call,
    or that it fails, is an answer given with the call. *)
From Verif Require Import Base Tree Stream Ebml.

(** limits.h: SSIZE_MAX; err.h 37, 38, 17. *)
Definition SSIZE_MAX : Z := 2 ^ 63 - 1.
Definition E_READ : Z := -21.
Definition E_WRITE : Z := -22.
Definition E_BUFFER_FULL : Z := -1.

(** A file of the system, and its position. *)
Record pfile := mkPf { f_data : list Z; f_pos : Z }.
(** [None]: the call fails; [Some k]: at most [k] bytes are taken. *)
Definition answer := option Z.

(** read(2). *)
Definition os_read (a : answer) (f : pfile) (size : Z) : option (list Z * pfile) :=
  match a with
  | None => None
  | Some k => let bs := firstn (Z.to_nat (Z.min k size)) (skipn (Z.to_nat (f_pos f)) (f_data f)) in Some (bs, mkPf (f_data f) (f_pos f + zlen bs))
  end.
(** The bytes of a file when [bs] are put at [p]: a hole is filled with zeros. *)
Definition put_at (p : nat) (bs d : list Z) : list Z := firstn p d ++ repeat 0 (p - length d) ++ bs ++ skipn (p + length bs) d.
(** write(2). *)
Definition os_write (a : answer) (f : pfile) (bs : list Z) : option (Z * pfile) :=
  match a with
  | None => None
  | Some k => let bs := firstn (Z.to_nat k) bs in Some (zlen bs, match bs with [] => f | _ => mkPf (put_at (Z.to_nat (f_pos f)) bs (f_data f)) (f_pos f + zlen bs) end)
  end.
(** lseek(2): -1 for a position that is negative or does not fit. *)
Definition os_seek (f : pfile) (p : Z) (w : whence) : Z * pfile :=
  let q := p + match w with SeekSet => 0 | SeekCur => f_pos f | SeekEnd => zlen (f_data f) end in
  if (q <? 0) || (2 ^ 63 <=? q) then (-1, f) else (q, mkPf (f_data f) q).
(** ftruncate(2). *)
Definition os_truncate (ok : bool) (f : pfile) (n : Z) : option pfile :=
  if negb ok || (n <? 0) then None
  else Some (mkPf (firstn (Z.to_nat n) (f_data f) ++ repeat 0 (Z.to_nat n - length (f_data f))) (f_pos f)).

(** Read, file_libc.c 94-111: the error, what is stored in Readed ([None]: nothing is), the bytes. *)
Definition f_read (a : answer) (f : pfile) (size : Z) : Z * option Z * list Z * pfile :=
  if SSIZE_MAX <? size then (E_READ, None, [], f)
  else match os_read a f size with
       | None => (E_READ, Some 0, [], f)
       | Some (bs, f) => (if zlen bs =? size then ERR_NONE else ERR_END_OF_FILE, Some (zlen bs), bs, f)
       end.
(** Write, 118-136. *)
Definition f_write (a : answer) (f : pfile) (bs : list Z) : Z * option Z * pfile :=
  if SSIZE_MAX <? zlen bs then (E_WRITE, None, f)
  else match os_write a f bs with
       | None => (E_WRITE, Some 0, f)
       | Some (n, f) => (if n =? zlen bs then ERR_NONE else E_WRITE, Some n, f)
       end.
(** Seek, 138-144. *)
Definition f_seek (f : pfile) (p : Z) (w : whence) : Z * pfile :=
  let (q, f) := os_seek f p w in (if q <? 0 then INVALID_FILEPOS else q, f).
(** SetLength, 146-155, with a value of the right size. *)
Definition f_set_length (ok : bool) (f : pfile) (n : Z) : Z * pfile :=
  match os_truncate ok f n with None => (E_BUFFER_FULL, f) | Some f => (ERR_NONE, f) end.

(** DummySkip, streams.c 12-25, over the reading [rd] of a stream: the error and the number of bytes read. *)
Section Skip.
Context {U : Type} (rd : U -> Z -> Z * Z * U).
Fixpoint skip_loop (fuel : nat) (u : U) (n err : Z) : res (Z * Z * U) :=
  if (0 <? n) && (err =? ERR_NONE) then
    match fuel with
    | O => Fuel
    | S fuel => let '(e, k, u) := rd u (Z.min n 1024) in skip_loop fuel u (n - k) e
    end
  else Ok (err, n, u).
Definition skip (fuel : nat) (u : U) (n : Z) : res (Z * Z * U) := skip_loop fuel u n ERR_NONE.
End Skip.

(** The reading of a file as DummySkip sees it; the answers of the system are used up one by one, and then it gives all. *)
Definition file_rd (u : pfile * list answer) (size : Z) : Z * Z * (pfile * list answer) :=
  let (f, l) := u in
  let '(e, k, _, f) := f_read (hd (Some size) l) f size in
  (e, match k with Some k => k | None => 0 end, (f, tl l)).

(** Calls on a file stream, and what is told. *)
Inductive fcall := FRead (size : Z) (a : answer) | FWrite (bs : list Z) (a : answer) | FSeek (p : Z) (w : whence) | FLength (n : Z) (ok : bool) | FSkip (n : Z) (l : list answer).
Inductive freply := RRead (e : Z) (k : option Z) (bs : list Z) | RWrite (e : Z) (k : option Z) | RSeek (p : Z) | RLength (e : Z) | RSkip (e n : Z).
Definition fstep (f : pfile) (c : fcall) : res (pfile * freply) :=
  match c with
  | FRead size a => let '(e, k, bs, f) := f_read a f size in Ok (f, RRead e k bs)
  | FWrite bs a => let '(e, k, f) := f_write a f bs in Ok (f, RWrite e k)
  | FSeek p w => let (q, f) := f_seek f p w in Ok (f, RSeek q)
  | FLength n ok => let (e, f) := f_set_length ok f n in Ok (f, RLength e)
  | FSkip n l => do r <- skip file_rd (Z.to_nat n) (f, l) n; let '(e, n, (f, _)) := r in Ok (f, RSkip e n)
  end.
