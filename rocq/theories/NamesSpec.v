(** What finding a node by its name means. *)
From Verif Require Import Base Tree Str Names StrSpec.

(** Order of places: [p] comes before [q] among the branches. *)
Inductive before : place -> place -> Prop :=
| before_now i j p q : (i < j)%nat -> before (i :: p) (j :: q)
| before_later i p q : before p q -> before (i :: p) (i :: q).
(** [p] is [q], above it or before it. *)
Definition not_after (p q : place) : Prop := before p q \/ exists r, q = p ++ r.

(** The children that go by a name: children with that name, and those of children without a name. *)
Inductive goes_by (name : list Z) : ntree -> place -> Prop :=
| goes_here t i k s : nth_error (kids_of t) i = Some k -> a_name (attrs_of k) = Some s -> same_text name s -> goes_by name t [i]
| goes_in t i k p : nth_error (kids_of t) i = Some k -> a_name (attrs_of k) = None -> goes_by name k p -> goes_by name t (i :: p).
Definition first_by (name : list Z) (t : ntree) (p : place) : Prop :=
  goes_by name t p /\ forall q, goes_by name t q -> q = p \/ before p q.

(** A node below with a class and a name. *)
Definition bears (class : Z) (name : list Z) (t : ntree) (p : place) : Prop :=
  p <> [] /\ exists k s, node_at t p = Some k /\ a_is (attrs_of k) class = true /\ a_name (attrs_of k) = Some s /\ same_text s name.
Definition has_class (class : Z) (t : ntree) (p : place) : Prop := exists k, node_at t p = Some k /\ a_is (attrs_of k) class = true.

(** All names are texts. *)
Definition texts_only (t : ntree) : Prop := forall p k s, node_at t p = Some k -> a_name (attrs_of k) = Some s -> Forall (fun b => 0 < b < 256) s.

(** Following names from place to place. *)
Inductive follows (root : ntree) : place -> list (list Z) -> place -> Prop :=
| follows_none p : follows root p [] p
| follows_one p t n q ns r : node_at root p = Some t -> first_by n t q -> follows root (p ++ q) ns r -> follows root p (n :: ns) r.
(** Names that can stand in an expression: name characters, at most 31 and not "parent". *)
Definition can_stand (n : list Z) : Prop := n <> [] /\ zlen n <= 31 /\ Forall (fun c => is_name c = true) n.
Definition dotted (ns : list (list Z)) : list Z := concat (map (fun n => n ++ [46]) ns).
(** What stands behind an expression: nothing, or a character that is neither of a name nor a dot. *)
Definition stops (r : list Z) : Prop := match r with [] => True | c :: _ => is_name c = false /\ c <> 46 end.
(** The characters of names: the underscore, the letters and the digits of ASCII. *)
Definition name_char (c : Z) : Prop := c = 95 \/ 97 <= c <= 122 \/ 65 <= c <= 90 \/ 48 <= c <= 57.
