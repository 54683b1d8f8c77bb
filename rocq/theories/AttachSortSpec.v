(** Specification of the order of attachments. *)
From Verif Require Import Base StrSpec.

(** The four sorts of cover art that Matroska defines, and what their files are called. *)
Inductive art := Cover | SmallCover | Land | SmallLand.
Definition art_name (k : art) : list Z :=
  match k with
  | Cover => [99; 111; 118; 101; 114]
  | SmallCover => [115; 109; 97; 108; 108; 95; 99; 111; 118; 101; 114]
  | Land => [99; 111; 118; 101; 114; 95; 108; 97; 110; 100]
  | SmallLand => [115; 109; 97; 108; 108; 95; 99; 111; 118; 101; 114; 95; 108; 97; 110; 100]
  end.
Definition dot_jpg : list Z := [46; 106; 112; 103].
Definition dot_png : list Z := [46; 112; 110; 103].
Definition is_art (k : art) (n : list Z) : Prop := same_text n (art_name k ++ dot_jpg) \/ same_text n (art_name k ++ dot_png).

(** What an attachment is: a file without a name, cover art, or any other file. *)
Inductive sort_of : option (list Z) -> option (option art) -> Prop :=
| so_nameless : sort_of None None
| so_art k n : is_art k n -> sort_of (Some n) (Some (Some k))
| so_other n : (forall k, ~ is_art k n) -> sort_of (Some n) (Some None).

(** The names of files byte by byte. *)
Fixpoint name_le (a b : list Z) : Prop :=
  match a, b with
  | [], _ => True
  | _ :: _, [] => False
  | x :: a, y :: b => x < y \/ (x = y /\ name_le a b)
  end.
Fixpoint name_lt (a b : list Z) : Prop :=
  match a, b with
  | _, [] => False
  | [], _ :: _ => True
  | x :: a, y :: b => x < y \/ (x = y /\ name_lt a b)
  end.

(** The order the sort gives when no file is called cover_land: covers, other files by name, small
    covers, nameless ones. *)
Definition place (k : option (option art)) : Z :=
  match k with
  | Some (Some Cover) => 0
  | Some None => 1
  | Some (Some SmallCover) => 2
  | Some (Some SmallLand) => 3
  | Some (Some Land) => 4
  | None => 5
  end.
(** The order it gives when there is nothing but cover art: the order of Matroska. *)
Definition art_place (k : option (option art)) : Z :=
  match k with
  | Some (Some Cover) => 0
  | Some (Some SmallCover) => 1
  | Some (Some Land) => 2
  | Some (Some SmallLand) => 3
  | Some None => 4
  | None => 5
  end.
Definition before (rank : option (option art) -> Z) (a b : option (list Z)) : Prop :=
  forall ka kb, sort_of a ka -> sort_of b kb ->
    rank ka < rank kb \/ (rank ka = rank kb /\ forall m n, a = Some m -> b = Some n -> ka = Some None -> name_le m n).
