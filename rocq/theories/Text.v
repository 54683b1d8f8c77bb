(** Character conversion: corec/corec/helpers/charconvert/charconvert_utf8.c (the portable version), with
    a wchar_t of 32 bits and a uint_fast32_t of 64 bits.

    A string is the list of the values in memory from its first one; a read after the last one is [Bad].
    What is written is the list of the values written, in order, to the output. *)
From Verif Require Import Base Tree CodePages.

(** struct codepage, 193-201, and the table 429-443; pages that cannot be used for strings of char (with a
    NULL Read) are left out. *)
Inductive codepage := Simple (utf index : list Z) | Utf8.
Definition code_pages : list (Z * codepage) :=
  [(1252, Simple codepage_1252 codepage_1252_r); (1250, Simple codepage_1250 codepage_1250_r); (1254, Simple codepage_1254 codepage_1254_r);
   (1257, Simple codepage_1257 codepage_1257_r); (1251, Simple codepage_1251 codepage_1251_r); (1256, Simple codepage_1256 codepage_1256_r);
   (1253, Simple codepage_1253 codepage_1253_r); (1255, Simple codepage_1255 codepage_1255_r); (65001, Utf8)].

(** Read_Simple, 207-216. *)
Definition read_simple (utf l : list Z) : res (Z * list Z) :=
  match l with
  | [] => Bad
  | b :: l =>
      if Z.land b 128 =? 0 then Ok (b, l)
      else match nth_error utf (Z.to_nat (b - 128)) with Some c => Ok (c, l) | None => Bad end
  end.

(** Read_UTF8, 218-253; && stops at the first test that fails. *)
Definition trail (l : list Z) (k : Z -> list Z -> res (Z * list Z)) (other : res (Z * list Z)) : res (Z * list Z) :=
  match l with
  | [] => Bad
  | b :: l => if Z.land b 192 =? 128 then k (Z.land b 63) l else other
  end.
Definition read_utf8 (l : list Z) : res (Z * list Z) :=
  match l with
  | [] => Bad
  | a :: l =>
      if Z.land a 128 =? 0 then Ok (a, l)
      else
        let other := Ok (a, l) in
        if Z.land a 224 =? 192 then trail l (fun b l => Ok (Z.shiftl (Z.land a 31) 6 + b, l)) other
        else if Z.land a 240 =? 224 then
          trail l (fun b l => trail l (fun c l => Ok (Z.shiftl (Z.land a 15) 12 + Z.shiftl b 6 + c, l)) other) other
        else if Z.land a 248 =? 240 then
          trail l (fun b l => trail l (fun c l => trail l (fun d l =>
            Ok (Z.shiftl (Z.land a 7) 18 + Z.shiftl b 12 + Z.shiftl c 6 + d, l)) other) other) other
        else other
  end.

(** Write_Simple, 255-284: what is written and the room left.  The binary search, 262-277; [Fuel] cannot be
    met with 8 steps. *)
Fixpoint search (fuel : nat) (utf index : list Z) (ch lower upper : Z) : res Z :=
  if upper <? lower then Ok 63
  else match fuel with
  | O => Fuel
  | S fuel =>
      let mid := (upper + lower) / 2 in
      match nth_error index (Z.to_nat mid) with
      | None => Bad
      | Some i =>
          match nth_error utf (Z.to_nat i) with
          | None => Bad
          | Some c => if ch <? c then search fuel utf index ch lower (mid - 1)
                      else if c <? ch then search fuel utf index ch (mid + 1) upper
                      else Ok (i + 128)
          end
      end
  end.
Definition write_simple (utf index : list Z) (len ch : Z) : res (list Z * Z) :=
  if 1 <? len then
    do c <- (if (128 <=? ch) && ((256 <=? ch) || negb (nth (Z.to_nat (ch - 128)) utf 0 =? ch))
             then search 8 utf index ch 0 127 else Ok ch);
    Ok ([u8 c], len - 1)
  else Ok ([], len).

(** Write_UTF8, 286-321. *)
Definition write_utf8 (len ch : Z) : list Z * Z :=
  let low k := Z.lor 128 (Z.land (Z.shiftr ch k) 63) in
  if (ch <? 128) && (1 <? len) then ([u8 ch], len - 1)
  else if (ch <? 2048) && (2 <? len) then ([Z.lor 192 (Z.land (Z.shiftr ch 6) 31); low 0], len - 2)
  else if (ch <? 65536) && (3 <? len) then ([Z.lor 224 (Z.land (Z.shiftr ch 12) 15); low 6; low 0], len - 3)
  else if 4 <? len then ([Z.lor 240 (Z.land (Z.shiftr ch 18) 7); low 12; low 6; low 0], len - 4)
  else ([], len).

Definition read_cp (p : codepage) (l : list Z) : res (Z * list Z) :=
  match p with Simple utf _ => read_simple utf l | Utf8 => read_utf8 l end.
Definition write_cp (p : codepage) (len ch : Z) : res (list Z * Z) :=
  match p with Simple utf index => write_simple utf index len ch | Utf8 => Ok (write_utf8 len ch) end.

(** The loops of CharConvSS, 331-336, CharConvUS, 353-370, and CharConvSU, 380-395, which differ in what
    reads and writes one character; up to and including the final zero. *)
Fixpoint conv_loop (rd : list Z -> res (Z * list Z)) (wr : Z -> Z -> res (list Z * Z)) (fuel : nat) (len : Z) (l : list Z) : res (list Z) :=
  match fuel with
  | O => Fuel
  | S fuel =>
      match l with
      | [] => Bad
      | b :: _ =>
          if b =? 0 then Ok [0]
          else
            do r <- rd l;
            let '(ch, l) := r in
            do w <- wr len ch;
            do out <- conv_loop rd wr fuel (snd w) l;
            Ok (fst w ++ out)
      end
  end.
(** strlen, as used by CharConvSS without a conversion, 340-342: the bytes before the zero. *)
Fixpoint c_str (l : list Z) : res (list Z) :=
  match l with [] => Bad | b :: l => if b =? 0 then Ok [] else do r <- c_str l; Ok (b :: r) end.
(** CharConvSS, 323-345; [cc] is NULL when both pages are the same (CharConvOpen, 465-479). *)
Definition conv_ss (cc : option (codepage * codepage)) (len : Z) (l : list Z) : res (list Z) :=
  if 0 <? len then
    match cc with
    | Some (from, to) => conv_loop (read_cp from) (write_cp to) (S (length l)) len l
    | None => do s <- c_str l; Ok (firstn (Z.to_nat (Z.min (zlen s) (len - 1))) s ++ [0])
    end
  else Ok [].

(** CharConvUS, 348-373: from char to UTF-16. *)
Definition write_utf16 (len ch : Z) : list Z * Z :=
  if (65536 <=? ch) && (2 <? len) then
    ([u16 (Z.lor (Z.land (Z.shiftr (ch - 65536) 10) 1023) 55296); u16 (Z.lor (Z.land (ch - 65536) 1023) 56320)], len - 2)
  else if 1 <? len then ([u16 ch], len - 1)
  else ([], len).
Definition conv_us (from : codepage) (len : Z) (l : list Z) : res (list Z) :=
  if 0 <? len then conv_loop (read_cp from) (fun len ch => Ok (write_utf16 len ch)) (S (length l)) len l else Ok [].

(** CharConvSU, 375-397: from UTF-16 to char. *)
Definition read_utf16 (l : list Z) : res (Z * list Z) :=
  match l with
  | [] => Bad
  | a :: l =>
      if Z.shiftl (Z.shiftr a 10) 10 =? 55296 then
        match l with
        | [] => Bad
        | b :: l' =>
            if Z.shiftl (Z.shiftr b 10) 10 =? 56320 then Ok (Z.lor (Z.shiftl (Z.land a 1023) 10) (Z.land b 1023) + 65536, l') else Ok (a, l)
        end
      else Ok (a, l)
  end.
Definition conv_su (to : codepage) (len : Z) (l : list Z) : res (list Z) :=
  if 0 <? len then conv_loop read_utf16 (write_cp to) (S (length l)) len l else Ok [].

(** CharConvWS, 400-413: from char to wchar_t. *)
Fixpoint conv_ws_loop (fuel : nat) (from : codepage) (len : Z) (l : list Z) : res (list Z) :=
  match fuel with
  | O => Fuel
  | S fuel =>
      match l with
      | [] => Bad
      | b :: _ =>
          if (b =? 0) || (len <=? 1) then Ok [0]
          else
            do r <- read_cp from l;
            let '(ch, l) := r in
            do out <- conv_ws_loop fuel from (len - 1) l;
            Ok (s32 ch :: out)
      end
  end.
Definition conv_ws (from : codepage) (len : Z) (l : list Z) : res (list Z) :=
  if 0 <? len then conv_ws_loop (S (length l)) from len l else Ok [].

(** CharConvSW, 415-427: from wchar_t (signed) to char. *)
Fixpoint conv_sw_loop (to : codepage) (len : Z) (l : list Z) : res (list Z) :=
  match l with
  | [] => Bad
  | b :: l =>
      if b =? 0 then Ok [0]
      else
        do w <- write_cp to len (u64 b);
        do out <- conv_sw_loop to (snd w) l;
        Ok (fst w ++ out)
  end.
Definition conv_sw (to : codepage) (len : Z) (l : list Z) : res (list Z) :=
  if 0 <? len then conv_sw_loop to len l else Ok [].
