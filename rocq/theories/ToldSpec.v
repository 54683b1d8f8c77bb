(** What is to be told about properties. *)
From Verif Require Import Base StrSpec Told.

(** The first of a list to tell something. *)
Definition first_to {A B} (tells : A -> B -> Prop) (l : list A) (d : B) : Prop :=
  exists a x b, l = a ++ x :: b /\ tells x d /\ forall y e, In y a -> ~ tells y e.
Definition none_to {A B} (tells : A -> B -> Prop) (l : list A) : Prop := forall y e, In y l -> ~ tells y e.
(** All that the classes describe, each class before what it derives from. *)
Definition all (c : list cls) : list entry := flat_map entries c.

(** An entry tells something about a property: it is written there, or the function written there answers. *)
Definition writes (meta id : Z) (m : entry) (d : Z) : Prop := e_id m = id /\ e_meta m = meta /\ d = e_data m.
Definition answers (ask : Z -> Z -> Z -> option Z) (meta id : Z) (m : entry) (d : Z) : Prop :=
  e_id m = id /\ e_meta m = META /\ meta <> META /\ ask (e_data m) id meta = Some d.
Definition says ask meta id m d : Prop := writes meta id m d \/ answers ask meta id m d.
(** The context has a text for a class. *)
Definition has_text (e : Z -> Z -> Z) (first : Z -> Z) (id : Z) (k : cls) (d : Z) : Prop := d = e (k_id k) id /\ d <> 0 /\ first d <> 0.
(** An entry names a property. *)
Definition names (text_at : Z -> list Z) (s : list Z) (m : entry) (id : Z) : Prop :=
  e_meta m = NAME /\ e_id m = id /\ exists n, text_at (e_data m) = n ++ [0] /\ same_text s n.
