(** What scanning should give, stated without the scanning code: an input is a list of items, each with its text,
    the part of the mask that reads it and the value it carries. *)
From Verif Require Import Base PrintfSpec.

Definition space_char (c : Z) : Prop := c = 32 \/ c = 9 \/ c = 13 \/ c = 10.
(** A digit character of a base with its value, in either case. *)
Inductive digit_of (base : Z) : Z -> Z -> Prop :=
| D_dec d : 0 <= d < 10 -> d < base -> digit_of base (48 + d) d
| D_low d : 10 <= d < base -> digit_of base (87 + d) d
| D_up d : 10 <= d < base -> digit_of base (55 + d) d.
(** Characters of a number with their digits. *)
Definition digits_of (base : Z) (cs ds : list Z) : Prop := Forall2 (digit_of base) cs ds.

Inductive item :=
| SLit (c : Z)                                                                   (* a character *)
| SBlank (ws : list Z)                                                           (* any blanks *)
| SNum (base letter : Z) (w : option Z) (long : bool) (ws : list Z) (neg : bool) (cs ds : list Z). (* a number after blanks *)
Definition item_text (i : item) : list Z :=
  match i with
  | SLit c => [c]
  | SBlank ws => ws
  | SNum _ _ _ _ ws neg cs _ => ws ++ (if neg then [45] else []) ++ cs
  end.
Definition item_mask (i : item) : list Z :=
  match i with
  | SLit c => [c]
  | SBlank _ => [32]
  | SNum _ l w long _ _ _ _ => [37] ++ match w with Some k => [48 + k] | None => [] end ++ (if long then [108] else []) ++ [l]
  end.
(** Numbers stored, with true for 64 bits: once a directive has an l, all decimal ones after it are long. *)
Fixpoint values (lg : bool) (is : list item) : list (bool * Z) :=
  match is with
  | SNum base _ _ long _ neg _ ds :: is =>
      let lg := lg || long in
      let v := if neg then - value base ds else value base ds in
      ((base =? 10) && lg, v) :: values lg is
  | _ :: is => values lg is
  | [] => []
  end.
Definition reads_base (base l : Z) : Prop := base = 10 /\ (l = 100 \/ l = 105) \/ base = 16 /\ (l = 120 \/ l = 88) \/ base = 8 /\ l = 111.
(** Room the width leaves for digits: the sign counts for hexadecimal numbers. *)
Definition digit_room (base : Z) (neg : bool) (k : Z) : Z := if (base =? 16) && neg then k - 1 else k.
Definition item_ok (i : item) : Prop :=
  match i with
  | SLit c => 0 < c < 256 /\ c <> 37 /\ c <> 32 /\ c <> 9
  | SBlank ws => Forall space_char ws
  | SNum base l w long ws neg cs ds =>
      reads_base base l /\ Forall space_char ws /\ digits_of base cs ds /\ cs <> [] /\ value base ds < 2 ^ 63 /\
      match w with Some k => 0 < k < 10 /\ zlen cs <= digit_room base neg k | None => True end
  end.
(** What follows an item does not go on with it: blanks end where another character begins, numbers where no digit follows or their width is used up. *)
Definition ends (i : item) (rest : list Z) : Prop :=
  match i, rest with
  | SBlank _, c :: _ => ~ space_char c
  | SNum base _ w _ _ neg cs _, c :: _ => (forall d, ~ digit_of base c d) \/ (exists k, w = Some k /\ zlen cs = digit_room base neg k)
  | _, _ => True
  end.
Fixpoint separated (is : list item) : Prop :=
  match is with [] => True | i :: is => item_ok i /\ ends i (concat (map item_text is)) /\ separated is end.
