(** Model of formatted printing: vstprintf_s, corec/corec/str/str.c 186-648, and the conversions of
    corec/corec/helpers/parser/strtypes.c built on it.

    The floating-point directives (g, G, f, e, E) are not modelled: they end in [Bad].  A read outside the
    format or an argument, a write outside the buffer, a failed assert and an argument of the wrong kind are
    [Bad] too. *)
From Verif Require Import Base Tree Arr Str.

Inductive arg := AInt (v : Z) | AStr (s : option (list Z)).

(** What was written so far and OutLen. *)
Record pst := Pst { p_out : list Z; p_len : Z }.
(** Writing characters; [cap] is the size of the buffer. *)
Definition puts (cap : Z) (s : pst) (cs : list Z) : res pst :=
  if zlen (p_out s) + zlen cs <=? cap then Ok (Pst (p_out s ++ cs) (u64 (p_len s - zlen cs))) else Bad.
(** while (--Width>=0 && OutLen>1), 344-348 and others: [w] blanks or as many as fit. *)
Definition blanks (cap w : Z) (s : pst) : res pst := puts cap s (repeat 32 (Z.to_nat (Z.min w (p_len s - 1)))).

(** IsDigit, 818. *)
Definition is_digit (c : Z) : bool := (48 <=? c) && (c <=? 57).
Definition cur (m : list Z) : res Z := match m with c :: _ => Ok c | [] => Bad end.
(** Reading a number, 232-233 and 241-242 (the number is not wrapped to 64 bits). *)
Fixpoint number (acc : Z) (m : list Z) : res (Z * list Z) :=
  match m with
  | [] => Bad
  | c :: r => if is_digit c then number (acc * 10 + (c - 48)) r else Ok (acc, m)
  end.
(** if ( *Mask==c ) ++Mask. *)
Definition flag (c : Z) (m : list Z) : res (bool * list Z) := do x <- cur m; Ok (if x =? c then (true, tl m) else (false, m)).
(** while ( *Mask=='l' ), 256-260. *)
Fixpoint longs (l : bool) (m : list Z) : res (bool * list Z) :=
  match m with [] => Bad | c :: r => if c =? 108 then longs true r else Ok (l, m) end.
Record dir := Dir { d_left : bool; d_zero : bool; d_width : Z; d_long : bool; d_uns : bool }.
(** 220-270: the directive after '%', up to its letter. *)
Definition parse_dir (m : list Z) (args : list arg) : res (dir * list Z * list arg) :=
  do l <- flag 45 m;
  do z <- flag 48 (snd l);
  do c <- cur (snd z);
  do w <- (if is_digit c then number 0 (snd z) else Ok (-1, snd z));
  do d <- flag 46 (snd w);
  do e <- (if fst d then number 0 (snd d) else Ok (0, snd d));
  do t <- flag 42 (snd e);
  do wa <- (if fst t then match args with AInt v :: r => Ok (s32 v, r) | _ => Bad end else Ok (fst w, args));
  do g <- longs false (snd t);
  do i6 <- match snd g with
           | [] => Bad
           | 73 :: 54 :: 52 :: r => Ok (true, r)
           | 73 :: [] => Bad
           | 73 :: 54 :: [] => Bad
           | r => Ok (fst g, r)
           end;
  do u <- flag 117 (snd i6);
  Ok (Dir (fst l) (fst z) (fst wa) (fst i6) (fst u), snd u, snd wa).

(** while (vl<ww && ww>w0) ww/=q, 307-308. *)
Fixpoint reduce (fuel : nat) (q w0 vl ww : Z) : res Z :=
  match fuel with
  | O => Fuel
  | S fuel => if (vl <? ww) && (w0 <? ww) then reduce fuel q w0 vl (Z.quot ww q) else Ok ww
  end.
(** The digits, 310-342. *)
Fixpoint digits (fuel : nat) (cap q : Z) (up : bool) (ww vl : Z) (sign zf : bool) (s : pst) : res pst :=
  match fuel with
  | O => Fuel
  | S fuel =>
      if 0 <? ww then
        let i := u32 (Z.quot vl ww) in
        let vl := s64 (vl - i * ww) in
        let minus := (1 <? p_len s) && sign && ((ww =? 1) || zf || (0 <? i)) in
        do s <- (if minus then puts cap s [45] else Ok s);
        let sign := sign && negb minus in
        do r <- (if 1 <? p_len s then
                   if (i =? 0) && negb zf && negb (ww =? 1) then do s <- puts cap s [32]; Ok (zf, s)
                   else do s <- puts cap s [u8 (if 10 <=? i then i + (if up then 55 else 87) else i + 48)]; Ok (true, s)
                 else Ok (zf, s));
        digits fuel cap q up (Z.quot ww q) vl sign (fst r) (snd r)
      else Ok s
  end.
(** d, i, x and X, 274-344; [c] is the letter.  w0 is computed by a loop in the code. *)
Definition print_int (cap : Z) (d : dir) (c : Z) (v : Z) (s : pst) : res pst :=
  let hex := (c =? 120) || (c =? 88) in
  let q := if hex then 16 else 10 in
  let vl := if d_long d then s64 v else s32 v in
  let sign := (vl <? 0) && negb (d_uns d || hex) in
  let width := if sign then d_width d - 1 else d_width d in
  let vl := if sign then s64 (- vl) else vl in
  let w0 := if 1 <? width then u32 (q ^ (width - 1)) else 1 in
  do ww <- reduce 20 q w0 vl (if hex then 268435456 else 100000000000);
  digits 20 cap q (c =? 88) ww vl sign (d_zero d) s.
(** c, 348-364. *)
Definition print_char (cap : Z) (d : dir) (v : Z) (s : pst) : res pst :=
  let w := d_width d - 1 in
  do s <- (if d_left d then Ok s else blanks cap w s);
  do s <- puts cap s [u8 v];
  if d_left d then blanks cap w s else Ok s.
(** s, 366-388: NULL writes nothing. *)
Definition print_str (cap : Z) (d : dir) (t : option (list Z)) (s : pst) : res pst :=
  match t with
  | None => Ok s
  | Some t =>
      do k <- tcslen t;
      let n := Z.min k (p_len s - 1) in
      let w := d_width d - n in
      do s <- (if d_left d then Ok s else blanks cap w s);
      do c <- opt_res (mem_get t 0 n);
      do s <- puts cap s c;
      if d_left d then blanks cap w s else Ok s
  end.
(** S, 389-406: each character is written only if it fits. *)
Definition print_str_a (cap : Z) (d : dir) (t : option (list Z)) (s : pst) : res pst :=
  match t with
  | None => Bad
  | Some t =>
      do k <- tcslen t;
      let n := Z.min k (p_len s - 1) in
      let w := d_width d - n in
      do s <- (if d_left d then Ok s else blanks cap w s);
      do s <- puts cap s (firstn (Z.to_nat (Z.min n (p_len s - 1))) t);
      if d_left d then blanks cap w s else Ok s
  end.
(** p, 596-619: the low 32 bits. *)
Definition hex_digit (q : Z) : Z := if q <? 10 then q + 48 else q + 55.
Definition print_ptr (cap : Z) (d : dir) (v : Z) (s : pst) : res pst :=
  do s <- (if d_left d then Ok s else blanks cap (d_width d - 8) s);
  do s <- puts cap s (firstn (Z.to_nat (p_len s - 1)) (map (fun k => hex_digit (Z.land (Z.shiftr v k) 15)) [28; 24; 20; 16; 12; 8; 4; 0]));
  if d_left d then blanks cap (d_width d - 8) s else Ok s.
(** r, 620-631: OutLen is increased by what was written. *)
Definition print_fcc (be : bool) (cap v : Z) (s : pst) : res pst :=
  if 4 <? p_len s then
    do w <- fourcc_to_string be (repeat 0 (Z.to_nat (cap - zlen (p_out s)))) (p_len s) (u32 v);
    Ok (Pst (p_out s ++ firstn (Z.to_nat (snd w)) (fst w)) (u64 (p_len s + snd w)))
  else Ok s.
(** The switch, 271-632.  An unknown letter writes nothing. *)
Definition print_dir (be : bool) (cap : Z) (d : dir) (c : Z) (args : list arg) (s : pst) : res (pst * list arg) :=
  if (c =? 100) || (c =? 105) || (c =? 120) || (c =? 88) then
    match args with AInt v :: r => do s <- print_int cap d c v s; Ok (s, r) | _ => Bad end
  else if c =? 99 then match args with AInt v :: r => do s <- print_char cap d v s; Ok (s, r) | _ => Bad end
  else if c =? 115 then match args with AStr t :: r => do s <- print_str cap d t s; Ok (s, r) | _ => Bad end
  else if c =? 83 then match args with AStr t :: r => do s <- print_str_a cap d t s; Ok (s, r) | _ => Bad end
  else if c =? 112 then match args with AInt v :: r => do s <- print_ptr cap d v s; Ok (s, r) | _ => Bad end
  else if c =? 114 then match args with AInt v :: r => do s <- print_fcc be cap v s; Ok (s, r) | _ => Bad end
  else if (c =? 103) || (c =? 71) || (c =? 102) || (c =? 101) || (c =? 69) then Bad
  else Ok (s, args).
(** The loop, 205-642. *)
Fixpoint print_loop (fuel : nat) (be : bool) (cap : Z) (m : list Z) (args : list arg) (s : pst) : res pst :=
  match fuel with
  | O => Fuel
  | S fuel =>
      if 1 <? p_len s then
        do c <- cur m;
        if c =? 0 then Ok s
        else if c =? 37 then
          let m := tl m in
          do c <- cur m;
          if c =? 37 then do s <- puts cap s [c]; print_loop fuel be cap (tl m) args s
          else
            do p <- parse_dir m args;
            let '(d, m, args) := p in
            do c <- cur m;
            do r <- print_dir be cap d c args s;
            print_loop fuel be cap (tl m) (snd r) (fst r)
        else do s <- puts cap s [c]; print_loop fuel be cap (tl m) args s
      else Ok s
  end.
(** vstprintf_s: the characters written, with the final zero.  [len] is OutLen, the size of the buffer. *)
Definition vstprintf (be : bool) (len : Z) (m : list Z) (args : list arg) : res (list Z) :=
  do s <- print_loop (S (length m)) be len m args (Pst [] len);
  if 0 <? p_len s then do s <- puts len s [0]; Ok (p_out s) else Bad.

(** GUIDToString, strtypes.c 36-41: "%08x-%04x-%04x-%02x%02x-%02x%02x%02x%02x%02x%02x". *)
Definition fmt_x (w : Z) : list Z := [37; 48; w; 120].
Definition guid_fmt : list Z :=
  fmt_x 56 ++ [45] ++ fmt_x 52 ++ [45] ++ fmt_x 52 ++ [45] ++ fmt_x 50 ++ fmt_x 50 ++ [45] ++ concat (repeat (fmt_x 50) 6) ++ [0].
Definition guid_to_string (len v1 v2 v3 : Z) (v4 : list Z) : res (list Z) :=
  vstprintf false len guid_fmt (map AInt ([s32 v1; v2; v3] ++ v4)).
(** IntToString, strtypes.c 114-117: "0x%08X" or "%d". *)
Definition int_to_string (len p : Z) (hex : bool) : res (list Z) :=
  vstprintf false len (if hex then [48; 120; 37; 48; 56; 88; 0] else [37; 100; 0]) [AInt p].
(** Int64ToString, strtypes.c 106-112: "%d", "0x%08X%08X" or "%d%d". *)
Definition int64_to_string (len p : Z) (hex : bool) : res (list Z) :=
  if negb hex && (Z.land p 4294967295 =? p) then vstprintf false len [37; 100; 0] [AInt (s32 p)]
  else vstprintf false len (if hex then [48; 120; 37; 48; 56; 88; 37; 48; 56; 88; 0] else [37; 100; 37; 100; 0]) [AInt (u32 (Z.shiftr (u64 p) 32)); AInt (u32 p)].
