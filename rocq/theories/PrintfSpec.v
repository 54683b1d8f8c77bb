(** Specification of formatted printing: formats as sequences of pieces, with the text each stands for. *)
From Verif Require Import Base.

(** Positional numerals, most significant digit first. *)
Fixpoint numeral (fuel : nat) (q n : Z) : list Z :=
  match fuel with
  | O => []
  | S fuel => if n <? q then [n] else numeral fuel q (n / q) ++ [n mod q]
  end.
Definition value (q : Z) (ds : list Z) : Z := fold_left (fun a d => a * q + d) ds 0.
Definition digit_char (up : bool) (d : Z) : Z := if d <? 10 then 48 + d else (if up then 55 else 87) + d.
Definition shown (q : Z) (up : bool) (n : Z) : list Z := map (digit_char up) (numeral 40 q n).

(** Field widths: none, in the format, or from the arguments. *)
Inductive width := WNone | WLit (ds : list Z) | WArg (w : Z).
Definition width_of (w : width) : Z := match w with WNone => 0 | WLit ds => value 10 ds | WArg n => n end.
Definition width_fmt (w : width) : list Z := match w with WNone => [] | WLit ds => map (fun d => 48 + d) ds | WArg _ => [42] end.
Definition width_ok (hi : Z) (w : width) : Prop :=
  match w with
  | WNone => True
  | WLit ds => Forall (fun d => 0 <= d < 10) ds /\ hd 0 ds <> 0 /\ value 10 ds <= hi
  | WArg n => 0 <= n <= hi
  end.

Inductive piece :=
| Lit (c : Z)                                           (* a character *)
| Percent                                               (* %% *)
| Num (zero : bool) (w : width) (long : bool) (c v : Z) (* %d, %i *)
| Hex (zero : bool) (w : width) (long up : bool) (v : Z)(* %x, %X *)
| Txt (lf : bool) (w : width) (s : list Z)            (* %s *)
| Chr (lf : bool) (w : width) (c : Z)                 (* %c *)
| Ptr (lf : bool) (w : width) (v : Z).                (* %p *)

Definition blank (n : Z) : list Z := repeat 32 (Z.to_nat n).
Definition field (lf : bool) (w : Z) (s : list Z) : list Z := if lf then s ++ blank (w - zlen s) else blank (w - zlen s) ++ s.
(** A number in its field: filled with blanks before the sign or zeros after it. *)
Definition num_field (zero : bool) (w : Z) (neg : bool) (ds : list Z) : list Z :=
  let sign := if neg then [45] else [] in
  if zero then sign ++ repeat 48 (Z.to_nat (w - zlen sign - zlen ds)) ++ ds else blank (w - zlen sign - zlen ds) ++ sign ++ ds.
Definition text_of (p : piece) : list Z :=
  match p with
  | Lit c => [c]
  | Percent => [37]
  | Num zero w _ _ v => num_field zero (width_of w) (v <? 0) (shown 10 false (Z.abs v))
  | Hex zero w _ up v => num_field zero (width_of w) false (shown 16 up v)
  | Txt lf w s => field lf (width_of w) s
  | Chr lf w c => field lf (width_of w) [c]
  | Ptr lf w v => field lf (width_of w) (map (fun k => digit_char true (v / 16 ^ k mod 16)) [7; 6; 5; 4; 3; 2; 1; 0])
  end.
Definition dir_fmt (lf zero : bool) (w : width) (long : bool) (c : Z) : list Z :=
  [37] ++ (if lf then [45] else []) ++ (if zero then [48] else []) ++ width_fmt w ++ (if long then [108] else []) ++ [c].
Definition fmt_of (p : piece) : list Z :=
  match p with
  | Lit c => [c]
  | Percent => [37; 37]
  | Num zero w long c _ => dir_fmt false zero w long c
  | Hex zero w long up _ => dir_fmt false zero w long (if up then 88 else 120)
  | Txt lf w _ => dir_fmt lf false w false 115
  | Chr lf w _ => dir_fmt lf false w false 99
  | Ptr lf w _ => dir_fmt lf false w false 112
  end.
(** What a piece can show: numbers in range, characters. *)
Definition piece_ok (p : piece) : Prop :=
  match p with
  | Lit c => 0 < c < 256 /\ c <> 37
  | Percent => True
  | Num _ w long c v => width_ok 10 w /\ (c = 100 \/ c = 105) /\ if long then - 10 ^ 12 < v < 10 ^ 12 else - 2 ^ 31 <= v < 2 ^ 31
  | Hex _ w long _ v => width_ok 8 w /\ if long then 0 <= v < 2 ^ 32 else 0 <= v < 2 ^ 31
  | Txt _ w s => width_ok (2 ^ 31 - 1) w /\ Forall (fun b => 0 < b < 256) s
  | Chr _ w c => width_ok (2 ^ 31 - 1) w /\ 0 <= c < 256
  | Ptr _ w v => width_ok (2 ^ 31 - 1) w
  end.
(** A right-aligned string or character wants room for its field. *)
Definition room_for (p : piece) (left_over : Z) : Prop :=
  match p with Txt false w _ | Chr false w _ => width_of w < left_over | _ => True end.
Fixpoint rooms (cap : Z) (ps : list piece) : Prop :=
  match ps with
  | [] => True
  | p :: ps => (1 < cap -> room_for p cap) /\ rooms (cap - zlen (text_of p)) ps
  end.
(** The decimal text of a number and its hexadecimal digits, filled with zeros. *)
Definition decimal (p : Z) : list Z := (if p <? 0 then [45] else []) ++ shown 10 false (Z.abs p).
Definition hex_digits (up : bool) (k : Z) (v : Z) : list Z := num_field true k false (shown 16 up v).
(** The text of a GUID. *)
Definition guid_text (v1 v2 v3 : Z) (v4 : list Z) : list Z :=
  hex_digits false 8 v1 ++ [45] ++ hex_digits false 4 v2 ++ [45] ++ hex_digits false 4 v3 ++ [45] ++ concat (map (hex_digits false 2) (firstn 2 v4)) ++ [45] ++ concat (map (hex_digits false 2) (skipn 2 v4)).
