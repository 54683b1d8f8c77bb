(** The files that mkclean opens, writes and erases: mkclean/mkclean.c main 1686-1733 and 3201-3239, with Open and FileErase of
    corec/corec/helpers/file/file_libc.c 53-91 and 262-277.

    Names are files: links are not modelled, nor names with a protocol (GetStream, streams.c 228-258, opens files for all others).  What
    happens between 1734 and 3200 is the parameter [work] : from the settings, the content of the source and whether the output can be
    written to, it gives Result and what was written. *)
From Verif Require Import Base Tree MkArgs.

(** A file: its content, whether it can be opened for reading and for writing. *)
Record file := File { f_data : list Z; f_read : bool; f_write : bool }.
Definition fsys := list Z -> option file.
Definition put (fs : fsys) (n : list Z) (f : option file) : fsys := fun m => if list_eq_dec Z.eq_dec m n then f else fs m.

Section Run.
(** [dir_ok]: files can be made and removed in the directory of a name. *)
Context (full maxpath : Z) (dir_ok : list Z -> bool) (work : settings -> list Z -> bool -> Z * list Z).

(** Open with SFLAG_RDONLY: an empty name opens nothing, and nothing can be read (58). *)
Definition open_in (fs : fsys) (n : list Z) : option (list Z) :=
  match n with [] => Some [] | _ => match fs n with Some f => if f_read f then Some (f_data f) else None | None => None end end.
(** Open with SFLAG_WRONLY|SFLAG_CREATE: O_CREAT and O_TRUNC. *)
Definition open_out (fs : fsys) (n : list Z) : option fsys :=
  match n with
  | [] => Some fs
  | _ => match fs n with
         | Some f => if f_write f then Some (put fs n (Some (File [] (f_read f) true))) else None
         | None => if dir_ok n then Some (put fs n (Some (File [] true true))) else None
         end
  end.
(** FileErase with Force: a file that is write protected is made writable first, so only the directory decides. *)
Definition file_erase (fs : fsys) (n : list Z) : fsys := match fs n with Some _ => if dir_ok n then put fs n None else fs | None => fs end.
(** 3231-3232, [path] is Path. *)
Definition at_exit (fs : fsys) (path : list Z) (r : Z) : fsys := match path with [] => fs | _ => if r <? 0 then file_erase fs path else fs end.
(** What is in the file when it is closed. *)
Definition written (fs : fsys) (n d : list Z) : fsys := match n with [] => fs | _ => match fs n with Some f => put fs n (Some (File d (f_read f) (f_write f))) | None => fs end end.

(** The whole program: what it returns and the files it leaves.  The source is first read (1739) when the output is open and empty. *)
Definition mkclean (fs : fsys) (args : list (list Z)) : res (Z * fsys) :=
  do c <- command full maxpath args;
  match c with
  | Stop r => Ok (r, at_exit fs [] r)
  | Run s i o =>
      match open_in fs i with
      | None => Ok (-2, at_exit fs [] (-2))
      | Some _ =>
          match open_out fs o with
          | None => Ok (-3, at_exit fs o (-3))
          | Some fs1 =>
              let '(r, d) := work s (match open_in fs1 i with Some d => d | None => [] end) (match o with [] => false | _ => true end) in
              Ok (r, at_exit (written fs1 o d) o r)
          end
      end
  end.
End Run.
