(** How memory is to be asked back: from the mildest level on, everybody at each level, to the next
    level somebody asks for, until somebody found some. *)
From Verif Require Import Base.

(** One round: the collectors are asked one after the other, each for the level, and the state goes
    through them. *)
Inductive asked {S} (level : Z) : list (S -> Z -> S * Z) -> S -> S -> list Z -> Prop :=
| asked_none s : asked level [] s s []
| asked_one f l s s1 v s2 vs : f s level = (s1, v) -> asked level l s1 s2 vs -> asked level (f :: l) s s2 (v :: vs).

(** [n] is the least answer above the level, below the greatest int. *)
Definition next_level (level : Z) (vs : list Z) (n : Z) : Prop :=
  In n vs /\ level < n < 2 ^ 31 - 1 /\ forall v, In v vs -> level < v -> n <= v.
Definition no_next (level : Z) (vs : list Z) : Prop := forall v, In v vs -> v <= level \/ v >= 2 ^ 31 - 1.

(** The rounds from a level on: the states, whether memory was found, and the levels with the answers. *)
Inductive rounds {S} (l : list (S -> Z -> S * Z)) : Z -> S -> S -> bool -> list (Z * Z) -> Prop :=
| rounds_found level s s' vs : asked level l s s' vs -> In (-1) vs ->
    rounds l level s s' true (map (fun v => (level, v)) vs)
| rounds_end level s s' vs : asked level l s s' vs -> ~ In (-1) vs -> no_next level vs ->
    rounds l level s s' false (map (fun v => (level, v)) vs)
| rounds_more level s s1 s2 vs n b log : asked level l s s1 vs -> ~ In (-1) vs -> next_level level vs n ->
    rounds l n s1 s2 b log -> rounds l level s s2 b (map (fun v => (level, v)) vs ++ log).
