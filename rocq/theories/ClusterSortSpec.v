(** Specification of cluster sorting. *)
From Verif Require Import Base ClusterSort.

(** At most one Timestamp. *)
Definition one_time (l : list kid) : Prop := (length (filter is_time l) <= 1)%nat.
(** Timestamps and blocks of the same form. *)
Definition simple_only (k : kid) : Prop := k = KidTime \/ exists t n, k = KidSimple t n.
Definition group_only (k : kid) : Prop := k = KidTime \/ exists t n, k = KidGroup (Some (t, n)).
(** The time and track of a child. *)
Definition stamp (k : kid) (t n : Z) : Prop := k = KidSimple t n \/ k = KidGroup (Some (t, n)).
(** Times that differ do so by 100 us or more, and less than about two days and a half. *)
Definition apart (l : list kid) : Prop :=
  forall a b ta na tb nb, In a l -> In b l -> stamp a ta na -> stamp b tb nb -> ta = tb \/ 100000 <= Z.abs (ta - tb) < 2 ^ 31 * 100000.
(** The order wanted: the Timestamp, then the blocks by time, higher tracks first. *)
Definition kid_le (a b : kid) : Prop :=
  a = KidTime \/ exists ta na tb nb, stamp a ta na /\ stamp b tb nb /\ (ta < tb \/ (ta = tb /\ nb <= na)).
