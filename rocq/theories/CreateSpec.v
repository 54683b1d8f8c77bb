(** Specification of complete element trees, independent of how the library tests or builds them. *)
From Verif Require Import Base Ebml Tree TreeRead.

Section Spec.
Context (E : schema).

(** No profile in [prof] disables the entry. *)
Definition enabled (prof : Z) (s : sem) : Prop := forall n, 0 <= n -> Z.testbit (s_dis s) n = true -> Z.testbit prof n = false.
(** Entries that creation fills in: mandatory, at most one, allowed in the profile. *)
Definition wanted (prof : Z) (s : sem) : Prop := s_mand s = true /\ s_uniq s = true /\ enabled prof s.
(** Entries that must be there; those with a default may be left out unless [wd]. *)
Definition required (wd : bool) (prof : Z) (s : sem) : Prop :=
  s_mand s = true /\ enabled prof s /\ (wd = true \/ c_def (E (s_ctx s)) = None).
Definition sem_id (s : sem) : Z := c_id (E (s_ctx s)).
Definition has (id : Z) (ch : list elt) : Prop := exists c, In c ch /\ eid_of E (einfo c) = id.
(** The children table of a master. *)
Definition table (i : info) (l : list sem) : Prop := exists c, e_kind i = Known c /\ c_sem (E c) = Some l.

(** Every master of the tree has its required children. *)
Inductive complete (wd : bool) (prof : Z) : elt -> Prop :=
| complete_leaf i v : complete wd prof (Leaf i v)
| complete_master i chk ch l : table i l -> (forall s, In s l -> required wd prof s -> has (sem_id s) ch) ->
    Forall (complete wd prof) ch -> complete wd prof (Master i chk ch).
(** Every master of the tree has a table. *)
Inductive tabled : elt -> Prop :=
| tabled_leaf i v : tabled (Leaf i v)
| tabled_master i chk ch l : table i l -> Forall tabled ch -> tabled (Master i chk ch).

(** Elements whose copy is faithful: finite size, the default size of the class, strings with a buffer
    and a size that is not behind. *)
Inductive copyable : elt -> Prop :=
| copyable_leaf i v : e_fin i = true -> e_defsz i = class_defsz (kind_class E (e_kind i)) ->
    match v with VStr b => exists b' s, b = Some b' /\ cstr b' = Some s /\ zlen s <= e_dsize i | _ => True end -> copyable (Leaf i v)
| copyable_master i chk ch : e_fin i = true -> kind_class E (e_kind i) = KMaster -> Forall copyable ch -> copyable (Master i chk ch).

(** Same children, value and flags apart: what a copy must keep. *)
Inductive alike : elt -> elt -> Prop :=
| alike_leaf i v v' :
    match v with VStr (Some b) => exists s r r', b = s ++ 0 :: r /\ v' = VStr (Some (s ++ 0 :: r')) /\ ~ In 0 s | _ => v' = v end ->
    alike (Leaf i v) (Leaf i v')
| alike_master i i' chk ch ch' : e_kind i' = e_kind i -> e_fin i' = e_fin i -> e_szlen i' = e_szlen i -> e_dsize i' = e_dsize i ->
    (e_set i' = e_set i \/ (e_set i' = true /\ ch <> [])) -> (e_need i' = e_need i \/ e_need i' = true) -> e_defsz i' = -1 -> Forall2 alike ch ch' -> alike (Master i chk ch) (Master i' chk ch').
End Spec.
