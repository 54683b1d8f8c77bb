(** Specification of the string helpers. *)
From Verif Require Import Base.

(** The buffer holds the string [s]. *)
Definition holds (buf s : list Z) : Prop := exists t, buf = s ++ 0 :: t /\ Forall (fun b => b <> 0) s.
(** What a buffer of length [len] can hold of a text. *)
Definition fit (len : Z) (s : list Z) : list Z := firstn (Z.to_nat (len - 1)) s.

(** Letters without case, as ASCII has them. *)
Definition same_letter (x y : Z) : Prop := x = y \/ (65 <= x <= 90 /\ y = x + 32) \/ (65 <= y <= 90 /\ x = y + 32).
Definition same_text (a b : list Z) : Prop := Forall2 same_letter a b.

(** The order of texts: by the first place where they differ other than by case, letters as capitals,
    characters as signed numbers, the end of the text as 0. *)
Definition rank (b : Z) : Z := let c := if b <? 128 then b else b - 256 in if (97 <=? c) && (c <=? 122) then c - 32 else c.
Fixpoint order (a b : list Z) : comparison :=
  match a, b with
  | [], [] => Eq
  | [], y :: _ => 0 ?= rank y
  | x :: _, [] => rank x ?= 0
  | x :: a, y :: b => match rank x ?= rank y with Eq => order a b | c => c end
  end.

(** A list of names: items between commas; an item may carry a note after a blank. *)
Fixpoint join (items : list (list Z)) : list Z :=
  match items with [] => [] | [i] => i | i :: r => i ++ 44 :: join r end.
Definition names (s item : list Z) : Prop := same_text s item \/ exists name note, item = name ++ 32 :: note /\ same_text s name.

(** FourCC: the text without the filling. *)
Fixpoint drop_fill (l : list Z) : list Z :=
  match l with [] => [] | b :: r => match drop_fill r with [] => if b =? 95 then [] else [b] | k => b :: k end end.
