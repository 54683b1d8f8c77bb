(** Specification of Matroska trees, independent of how the library looks elements up. *)
From Verif Require Import Base Ebml Tree TreeSpec CreateSpec MkSchema.

(** The 270 elements of the schema, the top level included. *)
Definition inside (c : Z) : bool := (0 <=? c) && (c <? 270).
(** The children table of [p] lists [c]. *)
Definition listed (p c : Z) : Prop := exists l s, c_sem (mk p) = Some l /\ In s l /\ s_ctx s = c.
(** A child of [p]: listed there, or a Void element. *)
Definition allowed (p c : Z) : Prop := c_class (mk p) = KMaster /\ (listed p c \/ c = cEbmlVoid).

(** Trees that follow the schema, with finite sizes, values of the type of the element (segment UIDs have 16
    bytes), no blocks (these are read and written by functions of their own, C25), and checksums not below [depth] levels. *)
Inductive conforms (cs : bool) : nat -> elt -> Prop :=
| cf_leaf depth i v c : e_kind i = Known c -> c_class (mk c) <> KMaster -> c <> cEbmlCrc32 -> c <> cSimpleBlock -> c <> cBlock -> e_fin i = true -> val_ok mk i v -> sint_plain mk cs i v ->
    (In c mk_uids -> exists b, v = VBin b /\ zlen b = 16) -> conforms cs depth (Leaf i v)
| cf_master depth i chk ch c : e_kind i = Known c -> c_class (mk c) = KMaster -> e_fin i = true -> (chk = 0 \/ (0 < depth)%nat) ->
    Forall (fun d => exists c', e_kind (einfo d) = Known c' /\ allowed c c') ch -> Forall (conforms cs (Nat.pred depth)) ch -> conforms cs depth (Master i chk ch).

(** Chains of contexts as they are when the library reads a file: each one is listed in the next. *)
Fixpoint nested (chain : list pctx) : Prop :=
  match chain with
  | (c, _) :: (((p, _) :: _) as up) => listed p c /\ nested up
  | _ => True
  end.

(** Elements that creation cannot complete: a child that must be there, may be repeated and is therefore not
    made, at the element itself or at one that is made with it. *)
Inductive needs_many (E : schema) (wd : bool) (prof : Z) : Z -> Prop :=
| many_here c l s : c_class (E c) = KMaster -> c_sem (E c) = Some l -> In s l -> required E wd prof s -> s_uniq s = false -> needs_many E wd prof c
| many_below c l s : c_class (E c) = KMaster -> c_sem (E c) = Some l -> In s l -> wanted prof s -> needs_many E wd prof (s_ctx s) -> needs_many E wd prof c.
