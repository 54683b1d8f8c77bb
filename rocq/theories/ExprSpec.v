(** Specification of base 64, numbers and fractions in text. *)
From Verif Require Import Base PrintfSpec ScanSpec.

(** RFC 4648, section 4. *)
Definition alphabet : list Z :=
  [65;66;67;68;69;70;71;72;73;74;75;76;77;78;79;80;81;82;83;84;85;86;87;88;89;90;
   97;98;99;100;101;102;103;104;105;106;107;108;109;110;111;112;113;114;115;116;117;118;119;120;121;122;
   48;49;50;51;52;53;54;55;56;57;43;47].
Definition sextet (k : Z) : Z := nth (Z.to_nat k) alphabet 0.
Fixpoint base64 (bs : list Z) : list Z :=
  match bs with
  | [] => []
  | [a] => let n := a * 2 ^ 16 in [sextet (n / 2 ^ 18); sextet (n / 2 ^ 12 mod 64); 61; 61]
  | [a; b] => let n := a * 2 ^ 16 + b * 2 ^ 8 in [sextet (n / 2 ^ 18); sextet (n / 2 ^ 12 mod 64); sextet (n / 2 ^ 6 mod 64); 61]
  | a :: b :: c :: r => let n := a * 2 ^ 16 + b * 2 ^ 8 + c in [sextet (n / 2 ^ 18); sextet (n / 2 ^ 12 mod 64); sextet (n / 2 ^ 6 mod 64); sextet (n mod 64)] ++ base64 r
  end.
(** What may follow base 64 text: a character that does not belong to it. *)
Definition base64_ends (l : list Z) : Prop := exists c r, l = c :: r /\ ~ In c alphabet /\ c <> 61.

(** A number in text: an optional sign and digits; what follows is no digit. *)
Definition signed_text (sign : list Z) (neg : bool) : Prop := (sign = [45] /\ neg = true) \/ ((sign = [] \/ sign = [43]) /\ neg = false).
Definition no_digit (base : Z) (l : list Z) : Prop := exists c r, l = c :: r /\ forall d, ~ digit_of base c d.
Definition signed (neg : bool) (v : Z) : Z := if neg then - v else v.

(** A colour as it lies in memory, red first. *)
Definition colour (be : bool) (r g b a : Z) : Z := if be then ((r * 256 + g) * 256 + b) * 256 + a else ((a * 256 + b) * 256 + g) * 256 + r.
(** Characters of a word: not blank and not a delimiter. *)
Definition word_char (delim : list Z) (c : Z) : Prop := 0 < c < 256 /\ ~ space_char c /\ ~ In c delim.
(** What ends a word. *)
Definition word_ends (delim l : list Z) : Prop := exists c r, l = c :: r /\ (c = 0 \/ space_char c \/ In c delim).

(** Terms of a fraction, reduced when they do not fit an int. *)
Definition reduced (num den : Z) (n d : Z) : Prop :=
  let g := if (2 ^ 31 - 1 <? Z.abs num) || (2 ^ 31 - 1 <? Z.abs den) then Z.gcd num den else 1 in n = Z.abs num / g /\ d = Z.abs den / g.
(** [k] halvings are what they need to fit. *)
Definition fits_after (k : nat) (n d : Z) : Prop :=
  n / 2 ^ Z.of_nat k <= 2 ^ 31 - 1 /\ d / 2 ^ Z.of_nat k <= 2 ^ 31 - 1 /\ forall j, (j < k)%nat -> 2 ^ 31 - 1 < n / 2 ^ Z.of_nat j \/ 2 ^ 31 - 1 < d / 2 ^ Z.of_nat j.

(** The number t / 10^k in text, with k decimals. *)
Definition fixed_point (k : nat) (t : Z) : list Z :=
  let p := 10 ^ Z.of_nat k in
  decimal (t / p) ++ (if (k =? 0)%nat then [] else [46] ++ num_field true (Z.of_nat k) false (shown 10 false (t mod p))).
(** [t] units of 1/p are num/den rounded to the nearest: at most half a unit above, and below by half a unit and at
    most one more unit of the rounding term. *)
Definition near (p num den t : Z) : Prop := 2 * (t * den) <= 2 * (num * p) + den /\ 2 * (num * p) + den < 2 * ((t + 1) * den) + 2 * p.
