(** What a program holds that opens and closes streams: for every open stream how many nodes and handles it takes. *)
From Verif Require Import Base Opens.
Record cost := mkCost { c_nodes : nat; c_fds : nat }.
(** A stream is given exactly when its protocol is known and opening tells no error, or that more data is needed. *)
Definition given (known : bool) (err : Z) : Prop := known = true /\ (err = 0 \/ err = -6).
Definition price (takes buffered memory : bool) : cost := mkCost (if buffered && memory then 2 else 1) (if takes then 1 else 0).
Fixpoint drop_nth {A} (i : nat) (l : list A) : list A :=
  match l, i with [], _ => [] | _ :: l, O => l | x :: l, S i => x :: drop_nth i l end.
Inductive holds_after : list scall -> list cost -> Prop :=
| ha_none : holds_after [] []
| ha_open l c known err takes buffered memory : holds_after l c -> given known err -> holds_after (l ++ [SOpen known err takes buffered memory]) (c ++ [price takes buffered memory])
| ha_fail l c known err takes buffered memory : holds_after l c -> ~ given known err -> holds_after (l ++ [SOpen known err takes buffered memory]) c
| ha_close l c i : holds_after l c -> holds_after (l ++ [SClose i]) (drop_nth i c).
Definition sum (l : list nat) : nat := fold_right Nat.add 0%nat l.
