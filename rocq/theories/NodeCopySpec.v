(** What is expected of the copying of nodes. *)
From Verif Require Import Base NodeData NodeCopy.

(** A property that is saved with the node: one of the tables names it with a type, it is not only for reading
    and not marked as not saved, it holds a value, and this is not an expression. *)
Definition saved (c : tables) (src : cnode) (id ty : Z) : Prop :=
  exists l m t, In l c /\ In m l /\ q_id m = id /\ q_type m src = Some t /\ ty = t mod 64 /\
    Z.testbit t 9 = false /\ Z.testbit t 14 = false /\ 0 <= t /\ ty <> 27 /\ exists n, type_size ty = Some n /\ n <> 0.

(** A node that was duplicated is replaced by its (first) duplicate; any other stays. *)
Inductive stands_for (dup : list (Z * Z)) (k : Z) : Z -> Prop :=
| sf_dup a b d : dup = a ++ (k, d) :: b -> ~ In k (map Datatypes.fst a) -> stands_for dup k d
| sf_same : ~ In k (map Datatypes.fst dup) -> stands_for dup k k.
Inductive copied (dup : list (Z * Z)) : pval -> pval -> Prop :=
| cp_plain d : copied dup (VPlain d) (VPlain d)
| cp_node k k' : stands_for dup k k' -> copied dup (VNode k) (VNode k')
| cp_pin k k' i : stands_for dup k k' -> copied dup (VPin k i) (VPin k' i).

(** The types of the tables tell what the properties of the source hold, and are types there are. *)
Definition well_typed (c : tables) (src : cnode) : Prop := forall l m t, In l c -> In m l -> q_type m src = Some t ->
  0 <= t /\ t mod 64 < 42 /\
  match cn_vals src (q_id m) with Some (VNode _) => t mod 64 = 10 | Some (VPin _ _) => t mod 64 = 25 | _ => True end.

(** No size is declared that is larger than the buffer. *)
Definition sizes_fit (meta_size : Z -> Z) (c : tables) : Prop := forall l m, In l c -> In m l -> meta_size (q_id m) <= 4096.

(** The expressions among the data. *)
Definition expression (e : Z * Z * list Z) : bool := let t := Datatypes.snd (Datatypes.fst e) mod 64 in (t =? 27) || (t =? 31) || (t =? 32).
Definition expressions (p : cnode) : list (Z * Z * list Z) := filter expression (cn_data p).
(** One expression as a copy holds it: the same identifier, kind and bytes, but that the nodes named by a compiled
    expression are those of the copy. *)
Definition held (edup : list Z -> list Z) (e : Z * Z * list Z) : Z * Z * list Z :=
  let t := Datatypes.snd (Datatypes.fst e) mod 64 in (Datatypes.fst (Datatypes.fst e), t, if t =? 27 then edup (Datatypes.snd e) else Datatypes.snd e).
