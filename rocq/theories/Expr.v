(** Model of the scanners of expressions in corec/corec/helpers/parser/parser2.c (576-1028): base 64, numbers,
    names, symbols and fractions; and of FractionToString, corec/corec/helpers/parser/strtypes.c 43-90.

    A pointer to text is what follows it in its buffer, as unsigned bytes (tchar_t is char); reading past the
    buffer is [Bad].  intptr_t has 64 bits; signed overflow and shifts out of range are [Bad].  A scanner that
    returns 0 is [None]: it leaves its pointer where it was, except where said. *)
From Verif Require Import Base Tree Arr Str Printf Scan.

(** ** Base 64 *)
(** Base64, 612-619: the values of the characters from '+' (43) on; 128 for none. *)
Definition base64_tab : list Z :=
  [62;128;128;128;63;52;53;54;55;56;57;58;59;60;61;128;
   128;128;128;128;128;128;0;1;2;3;4;5;6;7;8;9;
   10;11;12;13;14;15;16;17;18;19;20;21;22;23;24;25;
   128;128;128;128;128;128;26;27;28;29;30;31;32;33;34;35;
   36;37;38;39;40;41;42;43;44;45;46;47;48;49;50;51].
(** Base64Char, 621-633. *)
Definition base64_char (v : Z) : Z :=
  if v <? 26 then v + 65 else if v <? 52 then v - 26 + 97 else if v <? 62 then v - 52 + 48 else if v =? 62 then 43 else 47.
(** One packet, 639-642, and the last one, 653-669 (a, then b and c when they are there). *)
Definition packet (a b c : Z) : list Z :=
  [base64_char (Z.shiftr a 2); base64_char (Z.lor (Z.shiftl (Z.land a 3) 4) (Z.shiftr b 4));
   base64_char (Z.lor (Z.shiftl (Z.land b 15) 2) (Z.shiftr c 6)); base64_char (Z.land c 63)].
Definition packet2 (a b : Z) : list Z :=
  [base64_char (Z.shiftr a 2); base64_char (Z.lor (Z.shiftl (Z.land a 3) 4) (Z.shiftr b 4)); base64_char (Z.shiftl (Z.land b 15) 2); 61].
Definition packet1 (a : Z) : list Z := [base64_char (Z.shiftr a 2); base64_char (Z.shiftl (Z.land a 3) 4); 61; 61].
(** BufferToBase64, 635-675.  [buf] is the buffer, of BufferSize bytes; [pos] is where Out points in its
    buffer.  The characters of a packet are stored at once. *)
Fixpoint to_base64 (out : list Z) (pos len : Z) (buf : list Z) : res (bool * list Z) :=
  let last (p : list Z) := if len <? 5 then Ok (false, out) else do o <- opt_res (mem_put out pos p); do o <- opt_res (mem_put o (pos + 4) [0]); Ok (true, o) in
  match buf with
  | [] => do o <- opt_res (mem_put out pos [0]); Ok (true, o)
  | [a] => last (packet1 a)
  | [a; b] => last (packet2 a b)
  | a :: b :: c :: r => if 4 <? len then do o <- opt_res (mem_put out pos (packet a b c)); to_base64 o (pos + 4) (len - 4) r else Ok (false, out)
  end.
(** The '=' at the end, 688. *)
Fixpoint skip_char (ch : Z) (l : list Z) : res (list Z) :=
  match l with [] => Bad | c :: r => if c =? ch then skip_char ch r else Ok l end.
(** ExprIsBase64, 677-705: the loop.  Only n & 3 counts of n. *)
Fixpoint base64_loop (l : list Z) (n v : Z) (out : list Z) (pos size : Z) : res (list Z * list Z * Z) :=
  match l with
  | [] => Bad
  | c :: r =>
      if c =? 0 then Ok (l, out, pos)
      else if c =? 61 then do l <- skip_char 61 l; Ok (l, out, pos)
      else if (c <? 43) || (43 + 80 <=? c) || (nth (Z.to_nat (c - 43)) base64_tab 128 =? 128) then Ok (l, out, pos)
      else
        let v := u64 (u64 (Z.shiftl v 6) + nth (Z.to_nat (c - 43)) base64_tab 128) in
        let k := Z.land n 3 in
        if negb (k =? 0) && (0 <? size)
        then do o <- opt_res (mem_put out pos [u8 (Z.shiftr v (6 - k * 2))]); base64_loop r (n + 1) v o (pos + 1) (size - 1)
        else base64_loop r (n + 1) v out pos size
  end.
(** The rest of the text, the output buffer and the number of bytes stored. *)
Definition is_base64 (l : list Z) (out : list Z) (size : Z) : res (list Z * list Z * Z) := do l <- expr_skip_space l; base64_loop l 0 0 out 0 size.

(** ** Words and symbols *)
(** ExprSkipAfter, 576-589. *)
Fixpoint skip_after (ch : Z) (l : list Z) : res (bool * list Z) :=
  match l with
  | [] => Bad
  | c :: r =>
      if c =? 0 then Ok (false, l)
      else if (negb (ch =? 0) && (c =? ch)) || ((ch =? 0) && is_space c) then (if ch =? 0 then do r <- expr_skip_space r; Ok (true, r) else Ok (true, r))
      else skip_after ch r
  end.
(** The loop of ExprIsName, 712-718. *)
Fixpoint name_loop (l : list Z) (out : list Z) (pos len : Z) (delim : list Z) (found : bool) : res (bool * list Z * list Z * Z * Z) :=
  match l with
  | [] => Bad
  | c :: r =>
      if (c =? 0) || is_space c then Ok (found, l, out, pos, len)
      else
        do d <- tcschr delim c;
        match d with
        | Some _ => Ok (found, l, out, pos, len)
        | None => if 1 <? len then do o <- opt_res (mem_put out pos [c]); name_loop r o (pos + 1) (len - 1) delim true else name_loop r out pos len delim found
        end
  end.
(** ExprIsName, 707-724: found, the rest of the text and the output buffer. *)
Definition is_name (l : list Z) (out : list Z) (len : Z) (delim : list Z) : res (bool * list Z * list Z) :=
  do l <- expr_skip_space l;
  do r <- name_loop l out 0 len delim false;
  let '(found, l, out, pos, len) := r in
  do o <- (if len =? 0 then Ok out else opt_res (mem_put out pos [0]));
  Ok (found, l, o).
(** ExprIsSymbol, 726-738, and ExprIsSymbol2, 740-749: these move over blanks in any case. *)
Definition is_symbol (ch : Z) (l : list Z) : res (bool * list Z) :=
  do c <- cur l;
  if c =? 0 then Ok (false, l)
  else do l <- expr_skip_space l; do c <- cur l; Ok (if c =? ch then (true, tl l) else (false, l)).
Definition is_symbol2 (ch ch2 : Z) (l : list Z) : res (bool * list Z) :=
  do l <- expr_skip_space l; do c <- cur l;
  if c =? ch then do d <- cur (tl l); Ok (if d =? ch2 then (true, tl (tl l)) else (false, l)) else Ok (false, l).
(** ExprParamEnd, 751-754, and ExprParamNext, 756-762. *)
Definition param_next (l : list Z) : res (bool * list Z) :=
  do r <- is_symbol 44 l;
  if fst r then Ok r else do r <- is_symbol 41 (snd r); Ok (false, snd r).

(** ** Numbers *)
(** A signed 64-bit result. *)
Definition chk64 (v : Z) : res Z := if (- 2 ^ 63 <=? v) && (v <? 2 ^ 63) then Ok v else Bad.
(** The sign: 799-801 and the same lines of the other scanners. *)
Definition sign_of (l : list Z) : res (bool * list Z) := do c <- cur l; Ok (c =? 45, if (c =? 45) || (c =? 43) then tl l else l).
(** The digits of a number in base 10, 910-914 and 936-940, and of ReadHex, 774-778. *)
Fixpoint num_loop (base : Z) (l : list Z) (v n : Z) : res (Z * Z * list Z) :=
  match l with
  | [] => Bad
  | c :: r =>
      let w := digit_val base c in
      if w <? 0 then Ok (v, n, l) else do v <- chk64 (v * base + w); num_loop base r v (n + 1)
  end.
(** ExprIsInt, 898-922, and ExprIsInt64, 924-948 (intptr_t has 64 bits). *)
Definition is_int (l : list Z) : res (option (Z * list Z)) :=
  do s <- sign_of l;
  do r <- num_loop 10 (snd s) 0 0;
  let '(v, n, rest) := r in
  if n =? 0 then Ok None else do v <- (if fst s then chk64 (- v) else Ok v); Ok (Some (v, rest)).
(** ExprIsIntEx, 840-867, and ExprIsInt64Ex, 869-896: the loop, with Size an int of at least 1; None when the
    digits end before. *)
Fixpoint fixed_loop (size : nat) (l : list Z) (v : Z) : res (option (Z * list Z)) :=
  match size with
  | O => Ok (Some (v, l))
  | S size => do c <- cur l; if is_digit c then do v <- chk64 (v * 10 + (c - 48)); fixed_loop size (tl l) v else Ok None
  end.
Definition is_int_ex (size : nat) (l : list Z) : res (option (Z * list Z)) :=
  do s <- sign_of l;
  do r <- fixed_loop size (snd s) 0;
  match r with None => Ok None | Some (v, rest) => do v <- (if fst s then chk64 (- v) else Ok v); Ok (Some (v, rest)) end.
(** INT32BE, corec/corec/helper.h 11-13, 20 and 28: SWAP32 of the low 32 bits on a little-endian host. *)
Definition int32be (be : bool) (v : Z) : Z :=
  if be then v else let b k := v / 256 ^ k mod 256 in ((b 0 * 256 + b 1) * 256 + b 2) * 256 + b 3.
(** ReadHex, 764-793. *)
Definition read_hex (be : bool) (rgb neg : bool) (l : list Z) : res (option (Z * list Z)) :=
  do r <- num_loop 16 l 0 0;
  let '(v, n, rest) := r in
  if n =? 0 then Ok None
  else do v <- (if rgb then do v <- (if n <=? 6 then chk64 (v * 256) else Ok v); Ok (int32be be v) else Ok v);
       do v <- (if neg then chk64 (- v) else Ok v); Ok (Some (v, rest)).
(** ExprIsHex, 795-813, and ExprIsRGB, 815-824. *)
Definition is_hex (l : list Z) : res (option (Z * list Z)) :=
  do s <- sign_of l;
  do c <- cur (snd s);
  if c =? 48 then do d <- cur (tl (snd s)); if d =? 120 then read_hex false false (fst s) (tl (tl (snd s))) else Ok None else Ok None.
Definition is_rgb (be : bool) (l : list Z) : res (option (Z * list Z)) :=
  do c <- cur l; if c =? 35 then read_hex be true false (tl l) else Ok None.
(** ExprIsFourCC, 826-838; [local] is the buffer of StringToFourCC. *)
Definition is_fourcc (be : bool) (local : list Z) (l : list Z) : res (option (Z * list Z)) :=
  do c <- cur l;
  if c =? 64 then
    do d <- cur (tl l);
    if d =? 39 then
      do r <- skip_after 39 (tl (tl l));
      let n := zlen l - zlen (snd r) in
      if fst r && (n <=? 7) then
        do v <- tcsncpy_s (repeat 0 16) 0 16 (tl (tl l)) (n - 3);
        do f <- string_to_fourcc be local v false; Ok (Some (f, snd r))
      else Ok None
    else Ok None
  else Ok None.

(** ** Fractions *)
(** The loop of Euclid in SimplifyFrac, 989-994, [n] turns at most: a and b at the end and whether it ended by itself. *)
Fixpoint euclid (n : nat) (a b : Z) : Z * bool :=
  match n with
  | O => (b, (a <=? 0) || (b <=? 0))
  | S n => if (0 <? a) && (0 <? b) then euclid n (Z.rem b a) a else (b, true)
  end.
(** The halving, 1002-1006; 64 turns are enough for any 64-bit number. *)
Fixpoint halve (n : nat) (a b : Z) : res (Z * Z) :=
  if (2 ^ 31 - 1 <? a) || (2 ^ 31 - 1 <? b) then match n with O => Fuel | S n => halve n (Z.shiftr a 1) (Z.shiftr b 1) end else Ok (a, b).
(** SimplifyFrac, 977-1012: Num and Den.  MAX_GCD_ITER is 128: n < 128 when the loop ends before its last turn. *)
Definition simplify_frac (num den : Z) : res (Z * Z) :=
  let sign := negb (Bool.eqb (num <? 0) (den <? 0)) in
  do n <- chk64 (Z.abs num);
  do d <- chk64 (Z.abs den);
  do r <- (if (2 ^ 31 - 1 <? n) || (2 ^ 31 - 1 <? d) then
             let '(g, fin) := euclid 127 n d in
             let '(n, d) := if fin && (1 <? g) then (n / g, d / g) else (n, d) in
             halve 64 n d
           else Ok (n, d));
  Ok (s32 (if sign then - fst r else fst r), s32 (snd r)).
(** The decimals of ExprIsFrac, 961-969. *)
Fixpoint decimals (l : list Z) (num den : Z) : res (Z * Z * list Z) :=
  match l with
  | [] => Bad
  | c :: r => if is_digit c then do num <- chk64 (num * 10); do num <- chk64 (num + (c - 48)); do den <- chk64 (den * 10); decimals r num den else Ok (num, den, l)
  end.
(** ExprIsFrac, 950-973. *)
Definition is_frac (l : list Z) : res (option (Z * Z * list Z)) :=
  do r <- is_int l;
  match r with
  | None => Ok None
  | Some (v, l) =>
      do c <- cur l;
      do t <- (if (c =? 46) || (c =? 44) then decimals (tl l) v 1 else Ok (v, 1, l));
      let '(num, den, l) := t in
      do f <- simplify_frac num den; Ok (Some (fst f, snd f, l))
  end.
(** DoubleToFrac, 1014-1028; [v] is the bit pattern of the double as a signed number. *)
Definition double_to_frac (v : Z) : res (Z * Z) :=
  if v =? 0 then Ok (0, 1)
  else
    let e := Z.land (Z.shiftr v 52) 4095 - 1023 in
    if (52 - e <? 0) || (62 <? 52 - e) then Bad
    else do f <- simplify_frac (Z.lor (Z.land v (2 ^ 52 - 1)) (2 ^ 52)) (2 ^ (52 - e)); Ok (if v <? 0 then (- fst f, snd f) else f).

(** FractionToString, strtypes.c 43-90.  int_fast32_t has 64 bits.  The halving for percents, 51-55; [n] turns. *)
Fixpoint percent_loop (n : nat) (num den : Z) : res (Z * Z) :=
  if (2 ^ 31 - 1) / 100 <? Z.abs num then match n with O => Fuel | S n => percent_loop n (Z.shiftr num 1) (Z.shiftr den 1) end else Ok (num, den).
Definition chk32 (v : Z) : res Z := if (- 2 ^ 31 <=? v) && (v <? 2 ^ 31) then Ok v else Bad.
(** b: 66. *)
Fixpoint ten_power (n : nat) (b : Z) : res Z := match n with O => Ok b | S n => do b <- chk32 (b * 10); ten_power n b end.
(** The whole and the decimal part, 47-78.  2*b is an int (70). *)
Definition fraction_parts (num den : Z) (percent : bool) (decimal : nat) : res (Z * Z) :=
  do nd <- (if percent then do r <- percent_loop 64 num den; Ok (fst r * 100, snd r) else Ok (num, den));
  let '(num, den) := nd in
  if den =? 0 then Ok (0, 0)
  else
    let '(num, den) := if den <? 0 then (- num, - den) else (num, den) in
    do b <- ten_power decimal 1;
    do num <- (if 0 <? num then do b2 <- chk32 (2 * b); let r := Z.quot den b2 in Ok (if num <? 2 ^ 31 - 1 - r then num + r else 2 ^ 31 - 1) else Ok num);
    let a := s32 (Z.quot num den) in
    let num := num - a * den in
    do m <- chk64 (num * b);
    Ok (a, s32 (Z.quot m den)).
(** 80-89: [percent] is the argument, an int.  The characters written; for percents the whole buffer, as if it held zeros. *)
Definition fraction_to_string (len num den percent : Z) (decimal : nat) : res (list Z) :=
  do p <- fraction_parts num den (negb (percent =? 0)) decimal;
  do o <- (if (decimal =? 0)%nat then vstprintf false len [37; 100; 0] [AInt (fst p)]
           else vstprintf false len [37; 100; 46; 37; 48; 42; 100; 0] [AInt (fst p); AInt (Z.of_nat decimal); AInt (snd p)]);
  if 0 <? percent then tcscat_s (o ++ repeat 0 (Z.to_nat (len - zlen o))) len [37; 0] else Ok o.
