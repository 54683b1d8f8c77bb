(** What the texts of Texts.v should be. *)
From Verif Require Import Base Vint.

(** The digits of a number, [k] of them, the last being the last of the list. *)
Fixpoint fixed (q : Z) (k : nat) (n : Z) : list Z := match k with O => [] | S k => fixed q k (n / q) ++ [n mod q] end.
(** Digits in text, capitals for hexadecimal ones. *)
Definition char_of (d : Z) : Z := if d <? 10 then 48 + d else 55 + d.
Definition digits (q : Z) (k : nat) (n : Z) : list Z := map char_of (fixed q k n).
(** A number without zeros in front: the [k] digits with the first of them not 0, or one digit. *)
Definition plainly (n : Z) (s : list Z) : Prop := exists k, s = digits 10 (S k) n /\ n < 10 ^ Z.of_nat (S k) /\ (k = O \/ 10 ^ Z.of_nat k <= n).

(** An ID: each byte in two hexadecimal digits between brackets. *)
Definition shown_bytes (bs : list Z) : list Z := concat (map (fun b => [91] ++ digits 16 2 b ++ [93]) bs).

(** A colour: # and two digits for red, green and blue, and for the fourth component unless it is 0. *)
Definition shown_colour (r g b a : Z) : list Z := [35] ++ digits 16 2 r ++ digits 16 2 g ++ digits 16 2 b ++ (if a =? 0 then [] else digits 16 2 a).

(** Hours (when there are any), minutes (when there are any, or hours), seconds and milliseconds. *)
Inductive clock : Z -> list Z -> Prop :=
| c_sec s k ds : plainly s ds -> 0 <= s < 60 -> 0 <= k < 1000 -> clock (s * 1000 + k) (ds ++ [46] ++ digits 10 3 k)
| c_min m s k ds : plainly m ds -> 1 <= m < 60 -> 0 <= s < 60 -> 0 <= k < 1000 -> clock ((m * 60 + s) * 1000 + k) (ds ++ [58] ++ digits 10 2 s ++ [46] ++ digits 10 3 k)
| c_hour h m s k ds : plainly h ds -> 1 <= h -> 0 <= m < 60 -> 0 <= s < 60 -> 0 <= k < 1000 ->
    clock (((h * 60 + m) * 60 + s) * 1000 + k) (ds ++ [58] ++ digits 10 2 m ++ [58] ++ digits 10 2 s ++ [46] ++ digits 10 3 k).
