(** Specifications for arrays. *)
From Verif Require Import Base Arr.
From Coq Require Export Sorting.Sorted Sorting.Permutation.

(** A comparison function describing a total preorder. *)
Definition total_preorder {A} (cmp : A -> A -> Z) : Prop :=
  (forall x y, cmp x y < 0 <-> 0 < cmp y x) /\
  (forall x y z, cmp x y <= 0 -> cmp y z <= 0 -> cmp x z <= 0).

(** Every earlier item is not above / strictly below every later one. *)
Definition sorted_by {A} (cmp : A -> A -> Z) (l : list A) : Prop := StronglySorted (fun x y => cmp x y <= 0) l.
Definition strictly_sorted_by {A} (cmp : A -> A -> Z) (l : list A) : Prop := StronglySorted (fun x y => cmp x y < 0) l.

(** Items equivalent to [x], in order. *)
Definition class_of {A} (cmp : A -> A -> Z) (x : A) (l : list A) : list A := filter (fun y => cmp x y =? 0) l.

(** The items are first below, then equal to, then above what is searched. *)
Definition search_ready {A} (cmpd : A -> Z) (l : list A) : Prop :=
  StronglySorted (fun x y => (0 <= cmpd x -> 0 <= cmpd y) /\ (0 < cmpd x -> 0 < cmpd y)) l.

Section Histories.
Context {A : Type} (cmp : A -> A -> Z).
(** Histories of insertions and removals against the mathematical set they denote. *)
Inductive sop := SAdd (x : A) | SDel (x : A).
Fixpoint set_run (a : list A) (ops : list sop) : option (list A) :=
  match ops with
  | [] => Some a
  | SAdd x :: ops' => match array_add cmp true a x with Some (a', _) => set_run a' ops' | None => None end
  | SDel x :: ops' => match array_remove cmp a x with Some (a', _) => set_run a' ops' | None => None end
  end.
Fixpoint set_spec (S : A -> Prop) (ops : list sop) : A -> Prop :=
  match ops with
  | [] => S
  | SAdd x :: ops' => set_spec (fun y => y = x \/ (S y /\ cmp y x <> 0)) ops'
  | SDel x :: ops' => set_spec (fun y => S y /\ cmp y x <> 0) ops'
  end.
End Histories.
Arguments sop : clear implicits.

(** Live contents and well-formedness. *)
Definition contents (a : barr) : list Z := firstn (Z.to_nat (used a)) (mem a).
Definition arr_ok (a : barr) : Prop := 0 <= used a <= zlen (mem a).
(** An alignment the callers use: zero or a power of two. *)
Definition align_ok (align : Z) : Prop := align = 0 \/ exists k, 0 <= k /\ align = 2 ^ k.


(** FIFO well-formedness and the bytes still to be delivered. *)
Definition fifo_ok (f : fifo) : Prop := arr_ok (base f) /\ 0 <= rdpos f <= used (base f).
Definition pending (f : fifo) : list Z := skipn (Z.to_nat (rdpos f)) (contents (base f)).

(** ** Whole histories of a FIFO *)
Inductive fop := OpWrite (ok : bool) (junk : Z) (bs : list Z) (align : Z) | OpRead (n : Z).
(** Run the operations; [None] on a fault or a read of more than is pending (a caller error).
    Returns the bytes accepted by successful writes, the bytes delivered and the final state. *)
Fixpoint fifo_run (f : fifo) (ops : list fop) : option (list Z * list Z * fifo) :=
  match ops with
  | [] => Some ([], [], f)
  | OpWrite ok junk bs align :: ops' =>
      match fifo_write ok junk f bs align with
      | FOk f' => match fifo_run f' ops' with Some (i, o, g) => Some (bs ++ i, o, g) | None => None end
      | FFail f' => fifo_run f' ops'
      | FFault => None
      end
  | OpRead n :: ops' =>
      if (n <? 0) || (fifo_size f <? n) then None
      else match fifo_read f n with
      | Some (bs, f') => match fifo_run f' ops' with Some (i, o, g) => Some (i, bs ++ o, g) | None => None end
      | None => None
      end
  end.
Definition op_align_ok (o : fop) : Prop := match o with OpWrite _ _ _ al => align_ok al | OpRead _ => True end.

