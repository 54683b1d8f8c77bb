(** What mkclean should do in these pieces. *)
From Verif Require Import Base Tree Stream Frame BlockTime Clean.

Definition begins (h f : list Z) : Prop := exists r, f = h ++ r.
(** The longest beginning that all of [l] share. *)
Definition shared (h : list Z) (l : list (list Z)) : Prop :=
  Forall (begins h) l /\ forall h', Forall (begins h') l -> begins h' h.
(** The frames that are looked at. *)
Definition frames_seen (l : list hblock) : list (list Z) := concat (map hb_frames (filter (fun b => hb_read b && negb (hb_comp b)) l)).

(** The first track of type [ty] is [n], [others] are the rest. *)
Definition first_of_type (ty : Z) (l : list (Z * option Z)) (n : Z) (others : list Z) : Prop :=
  exists l1 l2, l = l1 ++ (n, Some ty) :: l2 /\ Forall (fun p => snd p <> Some ty) l1 /\ others = map fst l1 ++ map fst l2.
Definition none_of_type (ty : Z) (l : list (Z * option Z)) : Prop := Forall (fun p => snd p <> Some ty) l.

(** A keyframe of track [n] at [t]. *)
Inductive is_key (n t : Z) : gchild -> Prop :=
| key_simple : is_key n t (GSimple n true t)
| key_group l1 l2 : ~ In GRef (l1 ++ l2) -> Forall (fun g => match g with GBlock _ _ => False | _ => True end) l2 -> is_key n t (GGroup (l1 ++ GBlock n t :: l2)).
(** The first keyframe of track [n] in a cluster is at [t]. *)
Definition first_key_at (n t : Z) (c : list gchild) : Prop :=
  exists c1 k c2, c = c1 ++ k :: c2 /\ is_key n t k /\ Forall (fun k => forall t, ~ is_key n t k) c1.
(** Track numbers and times that fit. *)
Definition gin_ok (g : gin) : Prop := match g with GBlock n t => 0 <= n < 32768 /\ - 2 ^ 60 < t < 2 ^ 60 | _ => True end.
Definition gchild_ok (c : gchild) : Prop :=
  match c with GSimple n _ t => 0 <= n < 32768 /\ - 2 ^ 60 < t < 2 ^ 60 | GGroup l => Forall gin_ok l | GOther => True end.
(** Places grow and times are 800 ms apart. *)
Fixpoint apart (q : list (nat * Z)) : Prop :=
  match q with
  | (i, t) :: (((j, u) :: _) as q') => (i < j)%nat /\ t + 800000000 <= u /\ apart q'
  | _ => True
  end.

Fixpoint rising (l : list Z) : Prop :=
  match l with
  | x :: ((y :: _) as l') => x < y /\ rising l'
  | _ => True
  end.
(** The times given to clusters at [l] after one at [prev]: its own, or just after the one before. *)
Inductive pushed (s : Z) : Z -> list Z -> list Z -> Prop :=
| pushed_nil p : pushed s p [] []
| pushed_keep p t l r : p < t -> pushed s t l r -> pushed s p (t :: l) (t :: r)
| pushed_push p t l r : t <= p -> pushed s (p + s) l r -> pushed s p (t :: l) (p + s :: r).
