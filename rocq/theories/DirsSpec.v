(** What is expected of file streams and listings. *)
From Verif Require Import Base Tree Stream Ebml Path Dirs.

(** The path of a directory with a separator at its end; the empty one is the root. *)
Definition dirpath (path : list Z) : list Z := match path with [] => [47] | _ => if last path 0 =? 47 then path else path ++ [47] end.
(** Hidden: the name begins with a dot. *)
Definition hidden (name : list Z) : Prop := exists r, name = 46 :: r.

(** What one name of a directory adds to the listing: nothing when it is hidden; a directory; a file with its size and the
    letter CheckExts has for it (C43), 0 for other files, which a filter leaves out. *)
Inductive adds (stat : list Z -> option fstat) (dir : list Z) (exts : option (list Z)) (filter : bool) (name : list Z) : list item -> Prop :=
| ad_hidden : hidden name -> adds stat dir exts filter name []
| ad_dir : ~ hidden name -> stat (dir ++ name) = Some SDir -> adds stat dir exts filter name [mkItem name (-1) 68]
| ad_file n t : ~ hidden name -> stat (dir ++ name) = Some (SFile n) -> check_exts 4096 name exts = Ok t -> t <> 0 \/ filter = false -> adds stat dir exts filter name [mkItem name n t]
| ad_other n : ~ hidden name -> stat (dir ++ name) = Some (SFile n) -> check_exts 4096 name exts = Ok 0 -> filter = true -> adds stat dir exts filter name [].
Inductive listing (stat : list Z -> option fstat) (dir : list Z) (exts : option (list Z)) (filter : bool) : list (list Z) -> list item -> Prop :=
| li_none : listing stat dir exts filter [] []
| li_name name names a b : adds stat dir exts filter name a -> listing stat dir exts filter names b -> listing stat dir exts filter (name :: names) (a ++ b).

(** A name as readdir gives it, in a directory whose paths fit; what is not hidden is there. *)
Definition good_name (stat : list Z -> option fstat) (path name : list Z) : Prop :=
  name <> [] /\ zlen path + zlen name + 2 < 4096 /\ (~ hidden name -> stat (dirpath path ++ name) <> None).
Definition good_call (stat : list Z -> option fstat) (c : dcall) : Prop :=
  match c with DOpenDir path (inl names) => zlen path + 2 < 4096 /\ Forall (good_name stat path) names | _ => True end.

(** The handles a stream has open. *)
Definition handles (o : option strm) : list nat :=
  match o with
  | None => []
  | Some s => match s_fd s with Some n => [n] | None => [] end ++ match s_dir s with Some (n, _) => [n] | None => [] end
  end.
