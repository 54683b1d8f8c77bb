(** Specifications for streams: an abstract file is its contents and a cursor. *)
From Verif Require Import Base Arr Stream.

(** Bytes obtained by reading [n] bytes at the cursor, and whether the end was hit. *)
Definition file_take (contents : list Z) (cur n : Z) : list Z := firstn (Z.to_nat n) (skipn (Z.to_nat cur) contents).

Inductive fileop := FRead (n : Z) | FWrite (bs : list Z) | FSeek (target : Z) (mode : whence).
(** What the caller sees of each operation. *)
Inductive fileout := ORead (err : Z) (bs : list Z) | OWrite (err n : Z) | OSeek (pos : Z).

(** A file of fixed size whose first byte has position [voff].  Seeks are clamped into the file;
    positions before [voff] are outside the contract ([None]). *)
Definition file_step (voff : Z) (c : list Z) (cur : Z) (op : fileop) : option (fileout * list Z * Z) :=
  match op with
  | FRead n =>
      if n <? 0 then None
      else let bs := file_take c cur n in
           Some (ORead (if zlen bs <? n then ERR_END_OF_FILE else ERR_NONE) bs, c, cur + zlen bs)
  | FWrite bs =>
      if zlen c <? cur + zlen bs then Some (OWrite ERR_INVALID_PARAM 0, c, cur)
      else Some (OWrite ERR_NONE (zlen bs),
                 firstn (Z.to_nat cur) c ++ bs ++ skipn (Z.to_nat (cur + zlen bs)) c, cur + zlen bs)
  | FSeek t mode =>
      let abs := match mode with SeekSet => t | SeekCur => t + voff + cur | SeekEnd => t + voff + zlen c end in
      let abs := Z.max 0 (Z.min abs (voff + zlen c)) in
      if abs <? voff then None else Some (OSeek abs, c, abs - voff)
  end.
Fixpoint file_run (voff : Z) (c : list Z) (cur : Z) (ops : list fileop) : option (list fileout * list Z * Z) :=
  match ops with
  | [] => Some ([], c, cur)
  | op :: ops' =>
      match file_step voff c cur op with
      | Some (o, c', cur') => match file_run voff c' cur' ops' with Some (os, c2, cur2) => Some (o :: os, c2, cur2) | None => None end
      | None => None
      end
  end.

(** The same history on the memory stream. *)
Definition mem_step (m : mems) (op : fileop) : option (fileout * mems) :=
  match op with
  | FRead n => match mem_read m n with Some (e, bs, m') => Some (ORead e bs, m') | None => None end
  | FWrite bs => match mem_write m bs true with Some (e, n, m') => Some (OWrite e n, m') | None => None end
  | FSeek t mode => let '(p, m') := mem_seek m t mode in Some (OSeek p, m')
  end.
Fixpoint mem_run (m : mems) (ops : list fileop) : option (list fileout * mems) :=
  match ops with
  | [] => Some ([], m)
  | op :: ops' =>
      match mem_step m op with
      | Some (o, m') => match mem_run m' ops' with Some (os, m2) => Some (o :: os, m2) | None => None end
      | None => None
      end
  end.
(** Arguments a 64-bit caller can pass: no sum overflows. *)
Definition op_small (lim : Z) (op : fileop) : Prop :=
  match op with
  | FRead n => 0 <= n
  | FWrite bs => zlen bs < 2 ^ 63
  | FSeek t _ => - 2 ^ 63 <= t < 2 ^ 63 - lim
  end.

(** Underlying readers and writers: they deliver a prefix of what is left, store a prefix of what is given. *)
Definition reader_ok {U} (content : U -> list Z) (urd : U -> Z -> Z * list Z * U) : Prop :=
  forall u n, 0 <= n -> let '(e, bs, u') := urd u n in zlen bs <= n /\ content u = bs ++ content u'.
Definition writer_ok {U} (stored : U -> list Z) (uwr : U -> list Z -> Z * Z * U) : Prop :=
  forall u bs, let '(e, n, u') := uwr u bs in
    0 <= n <= zlen bs /\ stored u' = stored u ++ firstn (Z.to_nat n) bs /\ (e = ERR_NONE -> n = zlen bs).
(** A failing write stores nothing. *)
Definition writer_atomic {U} (uwr : U -> list Z -> Z * Z * U) : Prop :=
  forall u bs, let '(e, n, u') := uwr u bs in e <> ERR_NONE -> n = 0.

(** A plain file being read: its remaining bytes. *)
Definition plain_read (u : list Z) (n : Z) : Z * list Z * list Z :=
  (if zlen u <? n then ERR_END_OF_FILE else ERR_NONE, firstn (Z.to_nat n) u, skipn (Z.to_nat n) u).

(** Unread buffered bytes, bytes accepted but not yet passed on, and buffer well-formedness. *)
Definition ahead {U} (b : bufs U) : list Z := skipn (Z.to_nat (brpos b)) (firstn (Z.to_nat (brsize b)) (bbuf b)).
Definition behind {U} (b : bufs U) : list Z := firstn (Z.to_nat (bwpos b)) (bbuf b).
Definition buf_ok {U} (b : bufs U) : Prop :=
  zlen (bbuf b) = BUFSTREAM_SIZE /\ 0 <= brpos b /\ 0 <= brsize b <= BUFSTREAM_SIZE /\ 0 <= bwpos b <= BUFSTREAM_SIZE.

(** Sequences of reads. *)
Fixpoint buf_reads {U} (urd : U -> Z -> Z * list Z * U) (b : bufs U) (sizes : list Z) : option (list (Z * list Z) * bufs U) :=
  match sizes with
  | [] => Some ([], b)
  | n :: ns =>
      match buf_read urd b n with
      | Some (e, bs, b') => match buf_reads urd b' ns with Some (r, b2) => Some ((e, bs) :: r, b2) | None => None end
      | None => None
      end
  end.
Fixpoint plain_reads (u : list Z) (sizes : list Z) : list (Z * list Z) * list Z :=
  match sizes with
  | [] => ([], u)
  | n :: ns => let '(e, bs, u') := plain_read u n in let '(r, u2) := plain_reads u' ns in ((e, bs) :: r, u2)
  end.
(** Sequences of writes: bytes accepted, as told to the caller. *)
Fixpoint buf_writes {U} (uwr : U -> list Z -> Z * Z * U) (b : bufs U) (ws : list (list Z)) : option (list Z * bufs U) :=
  match ws with
  | [] => Some ([], b)
  | w :: ws' =>
      match buf_write uwr b w with
      | Some (e, n, b') => match buf_writes uwr b' ws' with Some (r, b2) => Some (firstn (Z.to_nat n) w ++ r, b2) | None => None end
      | None => None
      end
  end.
