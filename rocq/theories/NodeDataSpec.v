(** Dynamic data of a node as its user sees it: for each identifier and type a stack of values. *)
From Verif Require Import Base NodeData.

(** A value of a type: a string ends with its only zero; the others have the size of the type. *)
Definition value (meta_size : Z -> Z) (id ty : Z) (v : list Z) : Prop :=
  if is_str ty then exists w, v = w ++ [0] /\ ~ In 0 w
  else exists n, max_data_size meta_size id ty = Some n /\ 0 < n /\ zlen v = n.

(** Sizes of the types whose values all have one size (on a 64-bit system): truth values and integers, fractions,
    rectangles, points, colours, codes, positions, pointers, callbacks, dates, identifiers. *)
Definition fixed_sizes : list (Z * Z) :=
  [(18, 1); (19, 2); (2, 4); (7, 4); (8, 4); (20, 4); (28, 4); (33, 4); (36, 4);
   (1, 8); (6, 8); (9, 8); (10, 8); (15, 8); (21, 8); (22, 8); (23, 8); (24, 8); (29, 8); (34, 8); (41, 8);
   (3, 16); (5, 16); (12, 16); (17, 16); (25, 16); (30, 16); (35, 16); (14, 24); (40, 24); (38, 32)].

Definition blank (v : list Z) : bool := if list_eq_dec Z.eq_dec v (repeat 0 (length v)) then true else false.

(** Identifiers and types that have an entry of their own. *)
Definition key_ok (W id ty : Z) : Prop := 0 <= id < 2 ^ (W - 8) /\ 0 < ty < 42.

(** Set (with whatever follows the value in memory), set to NULL, add, remove. *)
Inductive sop :=
  | SSet (id ty : Z) (v rest : list Z) | SNull (id ty : Z) | SAdd (id ty : Z) (v rest : list Z) | SRem (id ty : Z).
Definition to_dop (o : sop) : dop :=
  match o with
  | SSet id ty v rest => DSet id ty (Some (v ++ rest))
  | SNull id ty => DSet id ty None
  | SAdd id ty v rest => DAdd id ty (Some (v ++ rest))
  | SRem id ty => DRem id ty
  end.
Definition op_key (o : sop) : Z * Z :=
  match o with SSet id ty _ _ | SNull id ty | SAdd id ty _ _ | SRem id ty => (id, ty) end.
Definition op_ok (W : Z) (meta_size : Z -> Z) (o : sop) : Prop :=
  key_ok W (fst (op_key o)) (snd (op_key o)) /\
  match o with SSet id ty v _ | SAdd id ty v _ => value meta_size id ty v | _ => True end.

(** The stack of one identifier and type after a history: what is set replaces the top, a value of
    zeros removes it. *)
Definition top_change (k : Z * Z) (st : list (list Z)) (o : sop) : list (list Z) :=
  if (fst (op_key o) =? fst k) && (snd (op_key o) =? snd k) then
    match o with
    | SSet _ _ v _ => if blank v then tl st else v :: tl st
    | SNull _ _ | SRem _ _ => tl st
    | SAdd _ _ v _ => v :: st
    end
  else st.
Definition stack (k : Z * Z) (l : list sop) : list (list Z) := fold_left (top_change k) l [].

(** No reference is set over another one. *)
Fixpoint careful (past : list sop) (l : list sop) : Prop :=
  match l with
  | [] => True
  | o :: l =>
      match o with
      | SSet id ty v _ => ty = T_NODE_REF -> blank v = true \/ stack (id, ty) past = []
      | _ => True
      end /\ careful (past ++ [o]) l
  end.

(** How many entries of the data list refer to the node [p]. *)
Fixpoint held (l : list (Z * list Z)) (p : Z) : Z :=
  match l with
  | [] => 0
  | (c, v) :: l => (if (c mod 64 =? T_NODE_REF) && (le_ptr v =? p) then 1 else 0) + held l p
  end.

(** Fractions that are equal: both without a value, or with the same one. *)
Definition same_frac (a b : Z * Z) : Prop :=
  (snd a = 0 /\ snd b = 0) \/ (snd a <> 0 /\ snd b <> 0 /\ fst a * snd b = fst b * snd a).
