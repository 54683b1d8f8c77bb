(** What leaves with a module. *)
From Verif Require Import Base Tree Unreg.

(** [under table i k]: the class [i] is [k] or derived from it. *)
Inductive under (table : list cls) : nat -> nat -> Prop :=
| un_self k : under table k k
| un_more i j k : k_parent (cl table i) = Some j -> under table j k -> under table i k.

(** Classes derive from each other in levels, none from itself. *)
Definition tree (table : list cls) (level : nat -> nat) : Prop :=
  (forall i, level i < S (length table))%nat /\ forall i j, k_parent (cl table i) = Some j -> (level j < level i)%nat.
(** A context in order: only classes of the table are ready, with their parents, and they have their tables. *)
Definition in_order (table : list cls) (x : ctx) : Prop :=
  (forall i, x_inited x i = true -> (i < length table)%nat) /\ (forall i j, x_inited x i = true -> k_parent (cl table i) = Some j -> x_inited x j = true) /\
  forall i, x_inited x i = true -> x_meta x i = true.
(** Children first: behind a class there is none derived from it. *)
Definition children_first (table : list cls) (ev : list nat) : Prop :=
  forall a j b i, ev = a ++ j :: b -> k_parent (cl table i) = Some j -> ~ In i b.
(** The classes of the module, and those derived from them, are no classes of modules, or these go too. *)
Definition goes (table : list cls) (incl : bool) (m : nat) : Prop :=
  incl = true \/ forall i k, k_module (cl table k) = m -> under table i k -> k_is_module (cl table i) = false.
