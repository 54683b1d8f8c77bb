(** The LZO decompressor: libmatroska2/lzokay/lzokay.c 22-270.

    The input pointer is the list of the bytes left before inp_end; [tail] is the memory that follows the
    input, which only the scan of zero bytes can reach.  The output pointer is the list of the bytes
    written so far; [cap] is the size of the output.  A read or write anywhere else is [Bad].
    size_t and pointer arithmetic is exact, as for buffers below 2^48 bytes. *)
From Verif Require Import Base Tree.

(** lzokay_EResult, lzokay.h 12-19. *)
Definition L_LOOK := -4.
Definition L_OUT := -3.
Definition L_IN := -2.
Definition L_ERROR := -1.
Definition L_SUCCESS := 0.
Definition L_NOT_CONSUMED := 1.

(** lzokay.c 40 *)
Definition MAX255 : Z := (2 ^ 64 - 1) / 255 - 2.

(** What a part of the decoder does: return a result with the output so far, or go on. *)
Inductive outcome := Stop (code : Z) (out : list Z) | Go (rest out : list Z) (state : Z).

(** The loop of CONSUME_ZERO_BYTE_LENGTH, lzokay.c 57-58: the number of zero bytes and what follows. *)
Fixpoint zero_run (n : Z) (l : list Z) : option (Z * list Z) :=
  match l with
  | [] => None
  | b :: l' => if b =? 0 then zero_run (n + 1) l' else Some (n, l)
  end.
(** CONSUME_ZERO_BYTE_LENGTH, NEEDS_IN(1) and the read of the last byte, lzokay.c 54-64, 162-164. *)
Definition extend (tail rest out : list Z) (k : Z -> list Z -> res outcome) : res outcome :=
  match zero_run 0 rest with
  | Some (off, b :: rest) => if MAX255 <? off then Ok (Stop L_ERROR out) else k (off * 255 + b) rest
  | _ =>
      match zero_run (zlen rest) tail with
      | None => Bad
      | Some (off, _) => if MAX255 <? off then Ok (Stop L_ERROR out) else Ok (Stop L_IN out)
      end
  end.

(** The copy loops, lzokay.c 97-98, 251-252, 255-256. *)
Fixpoint lits (cap : Z) (k : nat) (rest out : list Z) : res (list Z * list Z) :=
  match k with
  | O => Ok (rest, out)
  | S k =>
      match rest with
      | [] => Bad
      | b :: rest => if zlen out <? cap then lits cap k rest (out ++ [b]) else Bad
      end
  end.
Fixpoint back (cap : Z) (k : nat) (lb : Z) (out : list Z) : res (list Z) :=
  match k with
  | O => Ok out
  | S k =>
      if (0 <=? lb) && (lb <? zlen out) then
        if zlen out <? cap then back cap k (lb + 1) (out ++ [nth (Z.to_nat lb) out 0]) else Bad
      else Bad
  end.
(** A literal run, lzokay.c 95-99, 107-110, 209-214. *)
Definition copy_lits (cap : Z) (rest out : list Z) (len state : Z) : res outcome :=
  if zlen rest <? len then Ok (Stop L_IN out)
  else if cap <? zlen out + len then Ok (Stop L_OUT out)
  else do r <- lits cap (Z.to_nat len) rest out; let '(rest, out) := r in Ok (Go rest out state).
(** A block copy, lzokay.c 244-256. *)
Definition copy_match (cap : Z) (rest out : list Z) (lblen lb nstate : Z) : res outcome :=
  if lb <? 0 then Ok (Stop L_LOOK out)
  else if zlen rest <? nstate then Ok (Stop L_IN out)
  else if cap <? zlen out + (lblen + nstate) then Ok (Stop L_OUT out)
  else
    do out <- back cap (Z.to_nat lblen) lb out;
    do r <- lits cap (Z.to_nat nstate) rest out;
    let '(rest, out) := r in Ok (Go rest out nstate).
(** NEEDS_IN(2) and get_le16, lzokay.c 166-168, 188-190. *)
Definition word16 (rest out : list Z) (k : Z -> list Z -> res outcome) : res outcome :=
  match rest with
  | a :: b :: rest => k (a + Z.shiftl b 8) rest
  | _ => Ok (Stop L_IN out)
  end.
(** The end of the stream, lzokay.c 259-267. *)
Definition finish (lblen : Z) (rest out : list Z) : res outcome :=
  Ok (Stop (if negb (lblen =? 3) then L_ERROR else match rest with [] => L_SUCCESS | _ => L_NOT_CONSUMED end) out).

(** One turn of the loop, lzokay.c 118-257. *)
Definition step (tail : list Z) (cap : Z) (rest out : list Z) (state : Z) : res outcome :=
  match rest with
  | [] => Ok (Stop L_IN out)
  | inst :: rest =>
      if negb (Z.land inst 192 =? 0) then
        match rest with
        | [] => Ok (Stop L_IN out)
        | h :: rest =>
            copy_match cap rest out (Z.shiftr inst 5 + 1) (zlen out - (Z.shiftl h 3 + Z.land (Z.shiftr inst 2) 7 + 1)) (Z.land inst 3)
        end
      else if negb (Z.land inst 32 =? 0) then
        let lblen := Z.land inst 31 + 2 in
        let k lblen rest :=
          word16 rest out (fun w rest => copy_match cap rest out lblen (zlen out - (Z.shiftr w 2 + 1)) (Z.land w 3)) in
        if lblen =? 2 then extend tail rest out (fun x rest => k (lblen + (31 + x)) rest) else k lblen rest
      else if negb (Z.land inst 16 =? 0) then
        let lblen := Z.land inst 7 + 2 in
        let k lblen rest :=
          word16 rest out (fun w rest =>
            let lb := zlen out - (Z.shiftl (Z.land inst 8) 11 + Z.shiftr w 2) in
            if lb =? zlen out then finish lblen rest out else copy_match cap rest out lblen (lb - 16384) (Z.land w 3)) in
        if lblen =? 2 then extend tail rest out (fun x rest => k (lblen + (7 + x)) rest) else k lblen rest
      else if state =? 0 then
        let len := inst + 3 in
        if len =? 3 then extend tail rest out (fun x rest => copy_lits cap rest out (len + (15 + x)) 4)
        else copy_lits cap rest out len 4
      else
        match rest with
        | [] => Ok (Stop L_IN out)
        | h :: rest =>
            if negb (state =? 4) then copy_match cap rest out 2 (zlen out - (Z.shiftr inst 2 + Z.shiftl h 2 + 1)) (Z.land inst 3)
            else copy_match cap rest out 3 (zlen out - (Z.shiftr inst 2 + Z.shiftl h 2 + 2049)) (Z.land inst 3)
        end
  end.
Fixpoint lzo_loop (tail : list Z) (cap : Z) (fuel : nat) (o : outcome) : res (Z * list Z) :=
  match o with
  | Stop code out => Ok (code, out)
  | Go rest out state =>
      match fuel with
      | O => Fuel
      | S f => do o <- step tail cap rest out state; lzo_loop tail cap f o
      end
  end.
(** The first byte, lzokay.c 87-111. *)
Definition first_byte (cap : Z) (src : list Z) : res outcome :=
  match src with
  | [] => Bad
  | b :: rest =>
      if 22 <=? b then copy_lits cap rest [] (b - 17) 4
      else if 18 <=? b then copy_lits cap rest [] (b - 17) (b - 17)
      else Ok (Go src [] 0)
  end.
(** lzokay_decompress, lzokay.c 71-270: the result and the bytes counted in *dst_size. *)
Definition lzo (tail src : list Z) (cap : Z) : res (Z * list Z) :=
  if zlen src <? 3 then Ok (L_IN, [])
  else do o <- first_byte cap src; lzo_loop tail cap (S (length src)) o.
