(** Model of formatted scanning and the conversions of numbers from text.
    corec/corec/str/str.c: IsSpace 816, IsDigit 818, Hex 820-829, var_stscanf_s 650-803, stscanf 805-814;
    corec/corec/helpers/parser/strtypes.c: StringToInt 92-104, StringToInt64 106-111;
    corec/corec/helpers/parser/parser2.c: ExprSkipSpace 591-597.
    tchar_t is char.  Not modelled: 'f' ([Bad]); stores through the pointer arguments, the values stored are listed instead. *)
From Verif Require Import Base Tree Arr Str Printf.

(** IsSpace, str.c 816. *)
Definition is_space (c : Z) : bool := (c =? 32) || (c =? 9) || (c =? 13) || (c =? 10).
(** Hex, str.c 820-829: -1 for other characters. *)
Definition hex_val (c : Z) : Z :=
  if is_digit c then c - 48 else if (97 <=? c) && (c <=? 102) then c - 87 else if (65 <=? c) && (c <=? 70) then c - 55 else -1.
(** The digit of a character for d and i (715), x and X (693) and o (738). *)
Definition digit_val (base c : Z) : Z :=
  if base =? 16 then hex_val c else if base =? 10 then (if is_digit c then c - 48 else -1) else if (48 <=? c) && (c <=? 55) then c - 48 else -1.
(** for (;inlen && IsSpace( *In );++In,--inlen), 686 and others. *)
Fixpoint skip_space (n : Z) (l : list Z) : res (list Z * Z) :=
  if n =? 0 then Ok (l, n)
  else match l with
       | [] => Bad
       | c :: r => if is_space c then skip_space (u64 (n - 1)) r else Ok (l, n)
       end.
(** The loop over the digits, 691-696, 715-716 and 736-742.  The value is an int64_t: it is wrapped, and [ov] tells that it was (undefined in C). *)
Fixpoint take_digits (base w v : Z) (ov : bool) (n : Z) (l : list Z) : res (Z * bool * list Z * Z) :=
  if (n =? 0) || (w =? 0) then Ok (v, ov, l, n)
  else match l with
       | [] => Bad
       | c :: r =>
           let h := digit_val base c in
           if h <? 0 then Ok (v, ov, l, n)
           else let v' := v * base + h in take_digits base (w - 1) (s64 v') (ov || negb (s64 v' =? v')) (u64 (n - 1)) r
       end.
(** A number: 686-705, 710-729 and 732-751.  The sign counts in the width only for x ([xw]).  None: no number. *)
Definition scan_int (base : Z) (xw : bool) (w n : Z) (l : list Z) : res (option (Z * bool * list Z * Z)) :=
  do k <- skip_space n l;
  do c <- cur (fst k);
  let sign := c =? 45 in
  do r <- (if sign then take_digits base (if xw then w - 1 else w) 0 false (u64 (snd k - 1)) (tl (fst k)) else take_digits base w 0 false (snd k) (fst k));
  let '(v, ov, l2, n2) := r in
  let v' := if sign then s64 (- v) else v in
  Ok (if (length l2 =? length (fst k))%nat then None else Some (v', ov || (sign && negb (v' =? - v)), l2, n2)).

(** What is stored: an int or an int64_t. *)
Inductive stored := SI (v : Z) | SL (v : Z).
(** In (None is NULL), inlen, Long, the values stored and whether a value overflowed. *)
Record sst := Sst { s_in : option (list Z); s_len : Z; s_long : bool; s_vals : list stored; s_ov : bool }.
Definition scan_dir (m l : list Z) (st : sst) : res (sst * list Z) :=
  do c <- cur m;
  do w <- (if is_digit c then number 0 m else Ok (-1, m));
  do g <- longs (s_long st) (snd w);
  do c <- cur (snd g);
  let st := Sst (s_in st) (s_len st) (fst g) (s_vals st) (s_ov st) in
  let store (base : Z) (xw : bool) (k : Z -> stored) :=
    do r <- scan_int base xw (fst w) (s_len st) l;
    match r with
    | None => Ok (Sst None (s_len st) (fst g) (s_vals st) (s_ov st))
    | Some (v, ov, l, n) => Ok (Sst (Some l) n (fst g) (s_vals st ++ [k v]) (s_ov st || ov))
    end in
  do st <- (if (c =? 88) || (c =? 120) then store 16 true (fun v => SI (s32 v))
            else if (c =? 100) || (c =? 105) then store 10 false (fun v => if fst g then SL v else SI (s32 v))
            else if c =? 111 then store 8 false (fun v => SI (s32 v))
            else if c =? 102 then Bad
            else Ok st);
  do c <- cur (snd g);
  Ok (st, tl (snd g)).
(** The loop, 660-799. *)
Fixpoint scan_loop (fuel : nat) (m : list Z) (st : sst) : res sst :=
  match fuel with
  | O => Fuel
  | S fuel =>
      match s_in st with
      | None => Ok st
      | Some l =>
          if s_len st =? 0 then Ok st
          else
            do c <- cur m;
            if c =? 0 then Ok st
            else if c =? 37 then do r <- scan_dir (tl m) l st; scan_loop fuel (snd r) (fst r)
            else if (c =? 9) || (c =? 32) then do k <- skip_space (s_len st) l; scan_loop fuel (tl m) (Sst (Some (fst k)) (snd k) (s_long st) (s_vals st) (s_ov st))
            else do x <- cur l; scan_loop fuel (tl m) (if c =? x then Sst (Some (tl l)) (u64 (s_len st - 1)) (s_long st) (s_vals st) (s_ov st) else Sst None (s_len st) (s_long st) (s_vals st) (s_ov st))
      end
  end.
(** stscanf, 805-814: the values stored (their number is returned) and whether a value overflowed. *)
Definition stscanf (inp m : list Z) : res (list stored * bool) :=
  do n <- tcslen inp;
  do st <- scan_loop (S (length m)) m (Sst (Some inp) n false [] false);
  Ok (s_vals st, s_ov st).
(** ExprSkipSpace, parser2.c 591-597. *)
Fixpoint expr_skip_space (l : list Z) : res (list Z) :=
  match l with [] => Bad | c :: r => if is_space c then expr_skip_space r else Ok l end.
(** StringToInt, strtypes.c 92-104. *)
Definition string_to_int (inp : list Z) (hex : Z) : res Z :=
  do a <- (if hex <? 0 then
             do l <- expr_skip_space inp;
             do c <- char_at l 0;
             do x <- (if c =? 48 then do d <- char_at l 1; Ok (d =? 120) else Ok false);
             Ok (if x then tl (tl l) else l, x)
           else Ok (inp, negb (hex =? 0)));
  do r <- stscanf (fst a) (if snd a then [37; 88; 0] else [37; 100; 0]);
  Ok (match fst r with SI v :: _ => v | _ => 0 end).
(** StringToInt64, strtypes.c 106-111: "0x%8x%8x". *)
Definition string_to_int64 (inp : list Z) : res Z :=
  do r <- stscanf inp [48; 120; 37; 56; 120; 37; 56; 120; 0];
  let hi := match fst r with SI v :: _ => v | _ => 0 end in
  let lo := match fst r with _ :: SI v :: _ => v | _ => 0 end in
  Ok (s64 (u64 (u64 (u64 hi * 2 ^ 32) + u64 lo))).
