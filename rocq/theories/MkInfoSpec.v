(** Specification of what mkclean keeps of a segment and of its Segment Info. *)
From Coq Require Import QArith.
From Verif Require Import Base MkInfo.
Open Scope Z_scope.

(** The last readable element of a kind. *)
Definition readable (k : lkind) (e : lelt) : Prop := l_kind e = k /\ l_ok e = true.
Definition last_readable (k : lkind) (l : list lelt) (e : lelt) : Prop := exists a b, l = a ++ e :: b /\ readable k e /\ forall x, In x b -> ~ readable k x.
Definition got (k : lkind) (l : list lelt) (o : option lelt) : Prop :=
  match o with Some e => last_readable k l e | None => forall x, In x l -> ~ readable k x end.
(** [s] is [l] without its elements that are not P, in the same order. *)
Inductive only {A} (P : A -> Prop) : list A -> list A -> Prop :=
| only_nil : only P [] []
| only_in x l s : P x -> only P l s -> only P (x :: l) (x :: s)
| only_out x l s : ~ P x -> only P l s -> only P (x :: l) s.
(** The same cluster with other children. *)
Definition same_cluster (e c : lelt) : Prop := l_kind c = l_kind e /\ l_id c = l_id e.
Definition plain (c : ckind * Z) : Prop := fst c = COther.
Fixpoint times {A} (dec : A -> bool) (l : list A) : nat := match l with [] => O | x :: l => ((if dec x then 1 else 0) + times dec l)%nat end.
Definition is_pos (c : ckind * Z) : bool := match fst c with CPosition => true | _ => false end.
Definition is_prev (c : ckind * Z) : bool := match fst c with CPrevSize => true | _ => false end.

(** The first child of a kind, and what is left without it. *)
Definition first_of (k : ikind) (l : list ichild) (c : ichild) (rest : list ichild) : Prop :=
  exists a b, l = a ++ c :: b /\ rest = a ++ b /\ c_kind c = k /\ forall x, In x a -> c_kind x <> k.
Definition none (k : ikind) (l : list ichild) : Prop := forall x, In x l -> c_kind x <> k.
(** The scale that is used: the one asked for, or the first of old, 2 old, 4 old .. that is 100000 or more. *)
Definition scale_of (forced old scale : Z) : Prop :=
  forced <> 0 /\ scale = forced \/
  forced = 0 /\ exists k, 0 <= k /\ scale = old * 2 ^ k /\ 100000 <= scale /\ (k = 0 \/ scale < 200000).
