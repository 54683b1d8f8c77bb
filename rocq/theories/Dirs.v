(** What a file stream holds open, and the listing of directories: corec/corec/helpers/file/file_libc.c 53-91 (Open),
    156-177 (OpenDir), 181-229 (EnumDir), 231-241 (Delete).

    Simplified: one stream; a directory does not change while it is listed; dates are left out; strings as in Path.v. *)
From Verif Require Import Base Tree Stream Ebml Str Scan Path.

(** portab.h 249-255: MAXPATH on Linux. *)
Definition MAXPATH : Z := 4096.
(** err.h 24, 30. *)
Definition E_NOT_FOUND : Z := -8.
Definition E_NOT_DIRECTORY : Z := -14.
(** streams.h 13: FTYPE_DIR. *)
Definition FTYPE_DIR : Z := 68.

(** What stat tells of a file: its size, or that it is a directory. *)
Inductive fstat := SFile (size : Z) | SDir.
(** What is listed, streams.h 63-71. *)
Record item := mkItem { it_name : list Z; it_size : Z; it_type : Z }.

(** The handles open in the process (files and directories), the number of the next, and the stream: its file, and the directory
    it lists with the names that readdir has not given yet and DirPath.  [None]: the stream is deleted. *)
Record strm := mkStrm { s_fd : option nat; s_dir : option (nat * list (list Z)); s_path : list Z }.
Record proc := mkProc { p_open : list nat; p_next : nat; p_strm : option strm }.

(** close and closedir: of a handle that is not open, [Bad]. *)
Fixpoint remove_one (n : nat) (l : list nat) : option (list nat) :=
  match l with
  | [] => None
  | x :: l => if (x =? n)%nat then Some l else match remove_one n l with Some l => Some (x :: l) | None => None end
  end.
Definition close (o : option nat) (l : list nat) : res (list nat) := match o with None => Ok l | Some n => opt_res (remove_one n l) end.
Definition dir_handle (s : strm) : option nat := match s_dir s with Some (n, _) => Some n | None => None end.

Section Dirs.
(** The file system: stat of a path. *)
Context (stat : list Z -> option fstat).

(** Open, 53-91: [name]: whether URL is given and not empty; [works]: whether open does. *)
Definition open_file (p : proc) (s : strm) (name works : bool) : res (proc * Z) :=
  do l <- close (s_fd s) (p_open p);
  if negb name then Ok (mkProc l (p_next p) (Some (mkStrm None (s_dir s) (s_path s))), ERR_NONE)
  else if negb works then Ok (mkProc l (p_next p) (Some (mkStrm None (s_dir s) (s_path s))), E_NOT_FOUND)
  else Ok (mkProc (p_next p :: l) (S (p_next p)) (Some (mkStrm (Some (p_next p)) (s_dir s) (s_path s))), ERR_NONE).

(** OpenDir, 156-177: what opendir finds: the names, or why it fails ([true]: ENOTDIR). *)
Definition open_dir (p : proc) (s : strm) (path : list Z) (found : list (list Z) + bool) : res (proc * Z) :=
  do l <- close (dir_handle s) (p_open p);
  let path := match path with [] => [47] | _ => path end in
  match found with
  | inr b => Ok (mkProc l (p_next p) (Some (mkStrm (s_fd s) None (s_path s))), if (b : bool) then E_NOT_DIRECTORY else E_NOT_FOUND)
  | inl names => Ok (mkProc (p_next p :: l) (S (p_next p)) (Some (mkStrm (s_fd s) (Some (p_next p, names)) (add_delim MAXPATH (cut MAXPATH path)))), ERR_NONE)
  end.

(** The loop of EnumDir, 191-220.  [Bad]: stat fails and file_stats is used without being set. *)
Fixpoint enum_loop (path : list Z) (exts : option (list Z)) (filter : bool) (l : list (list Z)) : res (option item * list (list Z)) :=
  match l with
  | [] => Ok (None, [])
  | name :: l =>
      if (char_of name 0 =? 46) then enum_loop path exts filter l
      else match stat (cat MAXPATH (cut MAXPATH path) name) with
           | None => Bad
           | Some SDir => if zlen (cut MAXPATH name) =? 0 then enum_loop path exts filter l else Ok (Some (mkItem (cut MAXPATH name) INVALID_FILEPOS FTYPE_DIR), l)
           | Some (SFile n) =>
               do t <- check_exts MAXPATH (cut MAXPATH name) exts;
               if ((t =? 0) && filter) || (zlen (cut MAXPATH name) =? 0) then enum_loop path exts filter l
               else Ok (Some (mkItem (cut MAXPATH name) n t), l)
           end
  end.
(** EnumDir, 181-229. *)
Definition enum_dir (p : proc) (s : strm) (exts : option (list Z)) (filter : bool) : res (proc * Z * option item) :=
  match s_dir s with
  | None => Ok (p, ERR_END_OF_FILE, None)
  | Some (n, l) =>
      do r <- enum_loop (s_path s) exts filter l;
      match r with
      | (Some i, l) => Ok (mkProc (p_open p) (p_next p) (Some (mkStrm (s_fd s) (Some (n, l)) (s_path s))), ERR_NONE, Some i)
      | (None, _) => do o <- close (Some n) (p_open p); Ok (mkProc o (p_next p) (Some (mkStrm (s_fd s) None (s_path s))), ERR_END_OF_FILE, None)
      end
  end.
(** Delete, 231-241. *)
Definition delete (p : proc) (s : strm) : res proc :=
  do l <- close (s_fd s) (p_open p);
  do l <- close (dir_handle s) l;
  Ok (mkProc l (p_next p) None).

(** Calls on the stream, and what is told. *)
Inductive dcall := DOpen (name works : bool) | DOpenDir (path : list Z) (found : list (list Z) + bool) | DEnum (exts : option (list Z)) (filter : bool) | DDelete.
Definition dstep (p : proc) (c : dcall) : res (proc * Z * option item) :=
  match p_strm p with
  | None => Ok (p, ERR_INVALID_PARAM, None)
  | Some s =>
      match c with
      | DOpen name works => do r <- open_file p s name works; Ok (r, None)
      | DOpenDir path found => do r <- open_dir p s path found; Ok (r, None)
      | DEnum exts filter => enum_dir p s exts filter
      | DDelete => do p <- delete p s; Ok (p, ERR_NONE, None)
      end
  end.
(** A new stream in a process with other handles open. *)
Definition dstart (others : list nat) (next : nat) : proc := mkProc others next (Some (mkStrm None None [])).
Fixpoint druns (p : proc) (l : list dcall) : res (proc * list (Z * option item)) :=
  match l with
  | [] => Ok (p, [])
  | c :: l => do r <- dstep p c; do q <- druns (Datatypes.fst (Datatypes.fst r)) l; Ok (Datatypes.fst q, (Datatypes.snd (Datatypes.fst r), Datatypes.snd r) :: Datatypes.snd q)
  end.
End Dirs.
