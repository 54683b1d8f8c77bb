(** Specification of node classes: what a set of definitions means, whatever the order. *)
From Verif Require Import Base Arr ArrSpec Ebml Tree Classes.

Section Spec.
Context (mk : Z -> bool) (L : list cdef).
(** Its functions succeed, and so does its singleton, if it is one that is created at once. *)
Definition works (d : cdef) : Prop := d_create d = true /\ (Z.land (d_flags d) 33 = 1 -> mk (d_id d) = true).
(** A class is ready when it works and its parent, if it has one, is defined and ready. *)
Inductive ready : Z -> Prop :=
| ready_intro d : In d L -> works d -> d_parent d = 0 \/ ready (d_parent d) -> ready (d_id d).
(** The size of its method table: the one it gives or the one of its parent. *)
Inductive vmt_size : Z -> Z -> Prop :=
| size_given d : In d L -> d_vsize d <> DEFAULT_VMT -> vmt_size (d_id d) (d_vsize d)
| size_root d : In d L -> d_vsize d = DEFAULT_VMT -> d_parent d = 0 -> vmt_size (d_id d) DEFAULT_VMT
| size_parent d n : In d L -> d_vsize d = DEFAULT_VMT -> vmt_size (d_parent d) n -> vmt_size (d_id d) n.
(** The method at place [s]: its own (the last one given), the one of its parent, or NULL. *)
Inductive method : Z -> Z -> Z -> Prop :=
| method_own d s f l1 l2 : In d L -> d_vmt d = l1 ++ (s, f) :: l2 -> Forall (fun e => fst e <> s) l2 -> method (d_id d) s f
| method_parent d s f : In d L -> Forall (fun e => fst e <> s) (d_vmt d) -> method (d_parent d) s f -> method (d_id d) s f
| method_null d s : In d L -> Forall (fun e => fst e <> s) (d_vmt d) -> d_parent d = 0 -> method (d_id d) s 0.
(** The class is [x] or comes from it. *)
Inductive part_of : Z -> Z -> Prop :=
| part_self d : In d L -> part_of (d_id d) (d_id d)
| part_parent d x : In d L -> part_of (d_parent d) x -> part_of (d_id d) x.
End Spec.
(** Definitions that the library accepts: IDs that differ and are not 0, no class is its own parent, tables
    not smaller than the one of the parent, methods within the table and behind its two fixed fields. *)
Definition good_defs (L : list cdef) : Prop :=
  NoDup (map d_id L) /\ Forall (fun d => d_id d <> 0 /\ d_parent d <> d_id d /\ DEFAULT_VMT <= d_vsize d) L /\
  (forall d n, In d L -> vmt_size L (d_id d) n -> Forall (fun e => 2 <= fst e < n) (d_vmt d) /\ forall m, vmt_size L (d_parent d) m -> m <= n).
(** Better: rated higher, or of higher priority, or with the lower ID. *)
Definition better (a b : rated) : Prop :=
  t_rate b < t_rate a \/ (t_rate a = t_rate b /\ (t_pri b < t_pri a \/ (t_pri a = t_pri b /\ t_id a < t_id b))).
(** Looking up one class after another; the cache goes from one to the next. *)
Fixpoint lookups (r : reg) (l : list Z) : res (list (option Z)) :=
  match l with [] => Ok [] | id :: l => do o <- find_class r id; do os <- lookups (snd o) l; Ok (fst o :: os) end.
(** The class does not work, although its parent is ready. *)
Definition fails (mk : Z -> bool) (L : list cdef) (d : cdef) : Prop := ~ works mk d /\ (d_parent d = 0 \/ ready mk L (d_parent d)).
(** The classes an enumeration has to list. *)
Definition listed (mk : Z -> bool) (L : list cdef) (rate : Z -> Z) (x id : Z) : Prop :=
  exists d, In d L /\ d_id d = id /\ ready mk L id /\ Z.land (d_flags d) CFLAG_ABSTRACT = 0 /\ part_of L id x /\ 0 < rate id.
