(** Model of what mkclean makes of the EBML head: CheckMatroskaHead, mkclean/mkclean.c 557-655, the choice of the profiles
    1748-1766 and the head it writes 1955-2006; and of the names of the program and its libraries 2033-2083.

    The elements that EBML_FindNextElement finds, one after the other, are the input; what follows the head comes after the
    elements in it.  An integer is EBML_IntegerValue, an int64_t.  Texts are bytes before a terminator. *)
From Verif Require Import Base Tree Str Path MkArgs.

(** The kinds of elements told apart, 571-650. *)
Inductive hkind := KReadVersion | KMaxIdLength | KMaxSizeLength | KDocType | KDocTypeRead | KSegment | KOther.
(** [h_ok]: EBML_ElementReadData gives ERR_NONE; [h_bytes] are the data of a string; [h_id] tells the elements apart. *)
Record helt := Helt { h_kind : hkind; h_ok : bool; h_int : Z; h_bytes : list Z; h_id : Z }.

(** ebml.h 22-24; matroska.h 32. *)
Definition EBML_MAX_VERSION := 1. Definition EBML_MAX_ID := 4. Definition EBML_MAX_SIZE := 8. Definition MATROSKA_VERSION := 2.
Definition MATROSKA : list Z := [109; 97; 116; 114; 111; 115; 107; 97].
Definition WEBM : list Z := [119; 101; 98; 109].
(** EBML_StringGet into String[MAXLINE]. *)
Fixpoint upto0 (l : list Z) : list Z := match l with [] => [] | c :: l => if c =? 0 then [] else c :: upto0 l end.
Definition eqtext (a b : list Z) : bool := if list_eq_dec Z.eq_dec a b then true else false.
(** (int) of an int64_t. *)
Definition to_int (v : Z) : Z := s32 v.

(** CheckMatroskaHead, 557-655: SrcProfile, DocVersion, and the segment found. *)
Fixpoint check_head (src doc : Z) (l : list helt) : Z * Z * option helt :=
  match l with
  | [] => (src, doc, None)
  | e :: l =>
      match h_kind e with
      | KReadVersion => if negb (h_ok e) then (src, doc, None) else if EBML_MAX_VERSION <? h_int e then (src, doc, None) else check_head src doc l
      | KMaxIdLength => if negb (h_ok e) then (src, doc, None) else if EBML_MAX_ID <? h_int e then (src, doc, None) else check_head src doc l
      | KMaxSizeLength => if negb (h_ok e) then (src, doc, None) else if EBML_MAX_SIZE <? h_int e then (src, doc, None) else check_head src doc l
      | KDocType =>
          if negb (h_ok e) then (src, doc, None)
          else
            let s := cut 1024 (upto0 (h_bytes e)) in
            if eqtext s MATROSKA then check_head P_V1 doc l
            else if eqtext s WEBM then check_head P_WEBM doc l
            else (src, doc, None)
      | KDocTypeRead =>
          if negb (h_ok e) then (src, doc, None) else if MATROSKA_VERSION <? h_int e then (src, doc, None) else check_head src (to_int (h_int e)) l
      | KSegment => (src, doc, Some e)
      | KOther => check_head src doc l
      end
  end.
(** 1748-1755. *)
Definition source_profile (src doc : Z) : Z :=
  if (src =? P_V1) && (doc =? 2) then P_V2
  else if (src =? P_V1) && (doc =? 3) then P_V3
  else if (src =? P_V1) && (doc =? 4) then P_V4
  else if (src =? P_V1) && (doc =? 5) then P_V5
  else src.
(** 1757-1764: DstProfile; UnOptimize and Optimize. *)
Definition dest_profile (dst src : Z) : Z := if dst =? 0 then src else dst.
Definition dest_optimize (dst : Z) (s : settings) : bool * bool := if dst =? P_WEBM then (true, false) else (o_noopt s, o_opt s).
(** What main does with the head: the source and destination profiles, DocVersion and the segment, or Result = -5. *)
Definition opened (dst : Z) (l : list helt) : option (Z * Z * Z * helt) :=
  let '(src, doc, seg) := check_head 0 1 l in
  let src := source_profile src doc in
  match seg with Some e => Some (src, dest_profile dst src, doc, e) | None => None end.
(** 1962-2004 (without --alt-3d): the DocType, DocTypeVersion and DocTypeReadVersion written. *)
Definition written_head (dst doc : Z) : list Z * Z * Z :=
  let doc := if (dst =? P_V2) || (dst =? P_WEBM) then 2 else doc in
  let doc := if dst =? P_V3 then 3 else doc in
  let doc := if dst =? P_V4 then 4 else doc in
  let doc := if dst =? P_V5 then 5 else doc in
  (if dst =? P_WEBM then WEBM else MATROSKA, doc, doc).

(** ** The names, 2033-2083.  [lib] is "libebml2 v.. + libmatroska2 v..", put together by a stprintf_s into String. *)
Definition PLUS : list Z := [32; 43; 32].
Definition FROM : list Z := [32; 102; 114; 111; 109; 32].
Definition NAME : list Z := [109; 107; 99; 108; 101; 97; 110].
(** "mkclean " and PROJECT_VERSION, mkclean/CMakeLists.txt 1: 0.10.0. *)
Definition NAME_VERSION : list Z := NAME ++ [32; 48; 46; 49; 48; 46; 48].
Definition REGRESSION : list Z := NAME ++ [32; 114; 101; 103; 114; 101; 115; 115; 105; 111; 110].
(** "libebml2 + libmatroska2", 2038. *)
Definition LIBS : list Z := [108; 105; 98; 101; 98; 109; 108; 50; 32; 43; 32; 108; 105; 98; 109; 97; 116; 114; 111; 115; 107; 97; 50].
Definition MAXL : Z := 1024.
(** tcsnicmp_ascii(Original,T("mkclean "),8)==0. *)
Definition starts_mkclean (o : list Z) : bool := match tcsnicmp_ascii 8 (o ++ [0]) (NAME ++ [32; 0]) with Ok c => c =? 0 | _ => false end.
(** MuxingApp and WritingApp, from those that were there; [regr] is Regression, the other flags are Remux, Optimize, Live, UnOptimize
    and Alternate3DTracks.  Behind the terminator of Original nothing is known: a text shorter than 14 characters that begins with
    "mkclean " makes the program read there. *)
Definition names (lib : list Z) (regr remux opt live noopt alt : bool) (muxing app : list Z) : res (list Z * list Z) :=
  let string := cut MAXL app in
  let original := cut MAXL muxing in
  let original := if same string original then original else cat MAXL (match original with [] => [] | _ => cat MAXL original PLUS end) string in
  do s <- (if starts_mkclean original then if zlen original <? 14 then Bad else Ok (skipn 14 original) else Ok original);
  let new :=
    if regr then match s with [] => cut MAXL REGRESSION | _ => cut MAXL (REGRESSION ++ FROM ++ s) end
    else
      let t := cut MAXL NAME_VERSION in
      let t := if remux || opt || live || noopt || alt then cat MAXL t [32] else t in
      let t := if remux then cat MAXL t [114] else t in
      let t := if opt then cat MAXL t [111] else t in
      let t := if live then cat MAXL t [108] else t in
      let t := if noopt then cat MAXL t [117] else t in
      let t := if alt then cat MAXL t [51] else t in
      match s with [] => t | _ => cat MAXL t (FROM ++ s) end in
  Ok (if regr then LIBS else cut MAXL lib, new).
