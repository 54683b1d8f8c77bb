(** Specification of character encodings: UTF-8 and UTF-16 as in RFC 3629 and RFC 2781 (UTF-8 without the
    limit to 10FFFF), single-byte pages as tables, text as lists of code points. *)
From Verif Require Import Base.

Definition utf8_of (c : Z) : list Z :=
  let t k := 128 + c / 64 ^ k mod 64 in
  if c <? 128 then [c]
  else if c <? 2048 then [192 + c / 64; t 0]
  else if c <? 65536 then [224 + c / 64 ^ 2; t 1; t 0]
  else [240 + c / 64 ^ 3; t 2; t 1; t 0].
Definition utf16_of (c : Z) : list Z :=
  if c <? 65536 then [c] else [55296 + (c - 65536) / 1024; 56320 + (c - 65536) mod 1024].

(** Code points UTF-8 can hold in four bytes, and those of Unicode. *)
Definition code_point (c : Z) : Prop := 0 < c < 2 ^ 21.
Definition unicode (c : Z) : Prop := 0 < c < 55296 \/ 57344 <= c < 1114112.

(** The text a string in a single-byte page stands for. *)
Definition page_char (utf : list Z) (b : Z) : Z := if b <? 128 then b else nth (Z.to_nat (b - 128)) utf 0.

(** A terminated string. *)
Definition c_string (l : list Z) : Prop := exists s t, l = s ++ 0 :: t /\ Forall (fun b => b <> 0) s.

(** Leaving elements out. *)
Inductive subseq {A} : list A -> list A -> Prop :=
| sub_nil : subseq [] []
| sub_keep x a b : subseq a b -> subseq (x :: a) (x :: b)
| sub_skip x a b : subseq a b -> subseq a (x :: b).
