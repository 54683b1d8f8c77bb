(** Model of the path helpers: corec/corec/helpers/file/tools.c, AddPathDelimiter 11-27, RemovePathDelimiter 29-40,
    GetProtocol 42-75, SplitPath 77-146, RelPath 148-183, UpperPath 185-229, AbsPath 231-280, AbsPathNormalize 282-300,
    ReduceLocalPath 302-349, CheckExts 351-371, for targets other than Windows.

    Simplified: a string is its characters before the terminator, as nonzero unsigned bytes; a copy into a buffer of a length
    keeps what fits (the copies themselves are modelled in Str.v, C40), all buffers given have room for the terminator.
    strchr, strrchr, strstr and strncasecmp are the ones of the C library; the last folds ASCII letters only. *)
From Verif Require Import Base Tree Str Scan.

(** strchr and strrchr: the place of the first and the last occurrence. *)
Fixpoint chr (c : Z) (s : list Z) : option nat :=
  match s with [] => None | x :: s => if x =? c then Some O else option_map S (chr c s) end.
Fixpoint rchr (c : Z) (s : list Z) : option nat :=
  match s with [] => None | x :: s => match rchr c s with Some n => Some (S n) | None => if x =? c then Some O else None end end.
(** tcsnicmp(a,b,n)==0 and tcsicmp(a,b)==0, str_linux.c 22-30. *)
Definition lower (c : Z) : Z := if (65 <=? c) && (c <=? 90) then c + 32 else c.
Fixpoint list_same (a b : list Z) : bool :=
  match a, b with [], [] => true | x :: a, y :: b => (lower x =? lower y) && list_same a b | _, _ => false end.
Definition nicmp_same (n : nat) (a b : list Z) : bool := list_same (firstn n a) (firstn n b).
(** What fits a buffer, and tcscat_s. *)
Definition cut (len : Z) (s : list Z) : list Z := firstn (Z.to_nat (len - 1)) s.
Definition cat (len : Z) (s t : list Z) : list Z := if zlen s <? len then cut len (s ++ t) else s.
Definition char_of (s : list Z) (n : nat) : Z := nth n s 0.
Definition ends_in_slash (s : list Z) : bool := last s 0 =? 47.

(** GetProtocol, 42-75: where the rest starts (0 if it returns URL), the protocol, HasHost. *)
Record protocol := mkProto { p_at : nat; p_name : list Z; p_host : bool }.
Fixpoint skip_spaces (s : list Z) : list Z := match s with x :: r => if is_space x then skip_spaces r else s | [] => [] end.
Definition FILE : list Z := [102; 105; 108; 101].
Definition LOCALS : list (nat * list Z) :=
  [(4%nat, FILE); (3%nat, [99; 111; 110; 102]); (3%nat, [114; 101; 115]); (4%nat, [114; 111; 111; 116]); (3%nat, [109; 101; 109]); (4%nat, [112; 111; 115; 101]); (3%nat, [118; 111; 108]);
   (4%nat, [115; 108; 111; 116]); (4%nat, [115; 105; 109; 117]); (5%nat, [108; 111; 99; 97; 108]); (6%nat, [115; 100; 99; 97; 114; 100])].
Definition get_protocol (url : list Z) : protocol :=
  match chr 58 url with
  | Some i =>
      if (char_of url (i + 1) =? 47) && (char_of url (i + 2) =? 47) then
        let name := skip_spaces (firstn i url) in
        let from := skipn (i - length name) url in
        mkProto (i + 3) name (negb (existsb (fun p => nicmp_same (fst p) from (snd p)) LOCALS))
      else mkProto 0 FILE false
  | None => mkProto 0 FILE false
  end.

(** AddPathDelimiter, 11-27. *)
Definition add_delim (len : Z) (p : list Z) : list Z := if (zlen p =? 0) || negb (ends_in_slash p) then cat len p [47] else p.
(** RemovePathDelimiter, 29-40. *)
Definition remove_delim (p : list Z) : list Z :=
  if negb (zlen (skipn (p_at (get_protocol p)) p) =? 0) && (0 <? zlen p) && ends_in_slash p && (1 <? zlen p) then removelast p else p.

(** The last of '\' and '/', 88-91 and 197-200; the first, 159-162 and 251-254. *)
Definition last_sep (s : list Z) : option nat :=
  match rchr 92 s, rchr 47 s with
  | None, b => b
  | Some a, Some b => if (a <? b)%nat then Some b else Some a
  | Some a, None => Some a
  end.
Definition first_sep (s : list Z) : option nat :=
  match chr 92 s, chr 47 s with
  | None, b => b
  | Some a, Some b => if (b <? a)%nat then Some b else Some a
  | Some a, None => Some a
  end.
Definition same_text_ci (a b : list Z) : bool := list_same a b.
Definition HTTP : list Z := [104; 116; 116; 112].

Section Path.
(** MAXPATH, portab.h 249-255. *)
Context (maxpath : Z).
(** SplitPath, 77-146: the texts of Dir, Name and Ext before they are cut to their buffers; [alias] for Name == Ext. *)
Definition split_path (alias : bool) (url : list Z) : res (list Z * list Z * list Z) :=
  let pr := get_protocol url in
  let p := skipn (p_at pr) url in
  let '(dir, file) :=
    match last_sep p with
    | Some k => (firstn (p_at pr + k) url, skipn (p_at pr + k + 1) url)
    | None => if p_host pr then (url, []) else (firstn (p_at pr) url, p)
    end in
  do file <-
    (if same_text_ci (cut maxpath (p_name pr)) HTTP && match rchr 35 file with Some _ => true | None => false end then
       match rchr 35 (cut maxpath file) with Some k => Ok (firstn k (cut maxpath file)) | None => Null end
     else Ok file);
  if alias then Ok (dir, file, file)
  else match rchr 46 file with
       | Some k => Ok (dir, firstn k file, if (k + 1 <? length file)%nat then skipn (k + 1) file else skipn k file)
       | None => Ok (dir, file, [])
       end.

(** RelPath, 148-183. *)
Definition is_sep (c : Z) : bool := (c =? 92) || (c =? 47).
Definition under (n : nat) (path base : list Z) : bool :=
  (0 <? n)%nat && (n <? length path)%nat && is_sep (char_of path n) && nicmp_same n path base.
Definition rel_path (len : Z) (path base : list Z) : list Z :=
  let pr := get_protocol base in
  let '(path, base) :=
    match p_at pr with
    | O => (path, base)
    | _ =>
        let n := if p_host pr then match first_sep (skipn (p_at pr) base) with Some a => (p_at pr + a)%nat | None => length base end else p_at pr in
        if under n path base then (skipn n path, skipn n base) else (path, base)
    end in
  let n := length base in
  cut len (if under n path base then skipn (n + 1) path else path).

(** AbsPathNormalize, 282-300. *)
Definition normalize (s : list Z) : list Z := if (p_at (get_protocol s) =? 0)%nat then s else map (fun c => if c =? 92 then 47 else c) s.
(** AbsPath, 231-280; [None] for a NULL Base. *)
Definition abs_path (len : Z) (path : list Z) (base : option (list Z)) : list Z :=
  let '(abs, path) :=
    match base with
    | None => ([], path)
    | Some base =>
        if negb (p_at (get_protocol base) =? 0)%nat && is_sep (char_of path 0) && negb (is_sep (char_of path 1)) then
          let abs := cut len base in
          let pr := get_protocol abs in
          if negb (p_host pr) then (firstn (p_at pr) abs, skipn 1 path)
          else (match first_sep (skipn (p_at pr) abs) with Some a => firstn (p_at pr + a) abs | None => abs end, path)
        else if (p_at (get_protocol path) =? 0)%nat && negb (is_sep (char_of path 0)) &&
                negb (negb (zlen path =? 0) && (char_of path 1 =? 58) && ((char_of path 2 =? 92) || (char_of path 2 =? 0))) then
          let abs := cut len base in
          (if zlen (skipn (p_at (get_protocol base)) base) =? 0 then abs else add_delim len abs, path)
        else ([], path)
    end in
  normalize (cat len abs path).

(** UpperPath, 185-229: the result, the path and the text of Last before it is cut to its buffer ([None]: not written).  In the loop
    226-227 the pointer goes one before the path when all of it is removed, which the model does not show. *)
Fixpoint strip_seps (s : list Z) : list Z :=
  match s with [] => [] | x :: s => match strip_seps s with [] => if is_sep x then [] else [x] | r => x :: r end end.
Definition SMB : list Z := [115; 109; 98].
Definition UPNP : list Z := [117; 112; 110; 112].
Definition upper_path (path : list Z) : bool * list Z * option (list Z) :=
  match path with
  | [] => (false, [], None)
  | _ =>
      let p := remove_delim path in
      let pr := get_protocol p in
      let mime := cut 32 (p_name pr) in
      let c := p_at pr in
      match last_sep (skipn c p) with
      | None =>
          if same_text_ci mime SMB then (true, firstn c p, Some (firstn c p))
          else if p_host pr && negb (same_text_ci mime UPNP) then (false, p, None)
          else let a := match skipn c p with [] => O | _ => c end in (true, firstn a p, Some (skipn a p))
      | Some k => (true, firstn c p ++ strip_seps (firstn (k + 1) (skipn c p)), Some (skipn (c + k + 1) p))
      end
  end.

(** strstr. *)
Fixpoint prefix_of (p s : list Z) : bool :=
  match p, s with [], _ => true | x :: p, y :: s => (x =? y) && prefix_of p s | _, [] => false end.
Fixpoint find_sub (p s : list Z) : option nat :=
  if prefix_of p s then Some O else match s with [] => None | _ :: s => option_map S (find_sub p s) end.
(** ReduceLocalPath, 302-349: the loop over "//", 313-321, and the one over "/..", 328-348. *)
Fixpoint squeeze (fuel : nat) (s : list Z) : res (list Z) :=
  match find_sub [47; 47] s with
  | None => Ok s
  | Some b => match fuel with O => Fuel | S fuel => squeeze fuel (firstn b s ++ skipn (b + 1) s) end
  end.
Fixpoint fold_up (fuel : nat) (s : list Z) : res (list Z) :=
  match find_sub [47; 46; 46] s with
  | None => Ok s
  | Some b =>
      match fuel with
      | O => Fuel
      | S fuel => fold_up fuel (match rchr 47 (firstn b s) with Some f => firstn f s ++ skipn (b + 3) s | None => s end)
      end
  end.
Definition reduce_local_path (fuel : nat) (s : list Z) : res (list Z) :=
  let at_ := match find_sub [58; 47; 47] s with Some i => (i + 3)%nat | None => O end in
  do q <- squeeze fuel (skipn at_ s);
  do r <- fold_up fuel q;
  Ok (firstn at_ s ++ r).

(** CheckExts, 351-371; [None] for NULL. *)
Fixpoint exts_loop (fuel : nat) (ext : list Z) (exts : list Z) : res Z :=
  match fuel with
  | O => Fuel
  | S fuel =>
      match chr 58 exts with
      | Some p => if (length ext =? p)%nat && nicmp_same p ext exts then Ok (s8 (char_of exts (p + 1)))
                  else match chr 59 exts with Some q => exts_loop fuel ext (skipn (q + 1) exts) | None => Ok 0 end
      | None => match chr 59 exts with Some q => exts_loop fuel ext (skipn (q + 1) exts) | None => Ok 0 end
      end
  end.
Definition check_exts (url : list Z) (exts : option (list Z)) : res Z :=
  do t <- split_path false url;
  let ext := cut maxpath (snd t) in
  let ext := match chr 63 ext with Some k => firstn k ext | None => ext end in
  match exts with Some x => exts_loop (S (length x)) ext x | None => Ok 0 end.
End Path.
