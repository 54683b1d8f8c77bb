(** The names that types and units have. *)
From Verif Require Import Base StrSpec TypeNames.

(** A text is the name of the element at a place, whatever the case of its letters. *)
Definition place_of (t : list (option (list Z))) (s : list Z) (i : Z) : Prop := 0 <= i /\ exists n, nth_error t (Z.to_nat i) = Some (Some n) /\ same_text s n.
Definition nameless (t : list (option (list Z))) (s : list Z) : Prop := forall i, ~ place_of t s i.
(** What is found for a type: its place, with that of the unit. *)
Definition unit_found (format : option (list Z)) (r : Z) : Prop :=
  match format with
  | None => r = 0
  | Some f => (exists k, place_of param_format f k /\ r = k * 2 ^ 24) \/ (nameless param_format f /\ r = 0)
  end.
