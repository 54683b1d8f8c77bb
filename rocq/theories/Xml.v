(** Model of the XML-like text writer, corec/corec/helpers/parser/parser2.c 246-256, 271-292 and 316-575.

    A stream is the list of the bytes written; Stream_Write is assumed to succeed.  A string is a list of bytes that
    ends in zero, and its conversion to UTF-8 leaves it as it is (charconvert is modelled in Text.v).  The line ends of
    TARGET_WIN are not modelled.  Of the kinds of attributes those of [aval] are modelled. *)
From Verif Require Import Base Tree Arr Str Printf.

(** MAXLINE, parser.h 21; MAXDATA+64, nodebase.h 14. *)
Definition MAXLINE : Z := 1024.
Definition MAXVALUE : Z := 4096 + 64.

(** textwriter, parser.h 59-71, without the stream and the converter. *)
Record tw := Tw { w_elem : list Z; w_deep : Z; w_child : bool; w_inside : bool; w_safe : bool }.

(** TextWrite, 271-292: the converted text is cut to the buffer. *)
Definition text_write (o msg : list Z) : res (list Z) :=
  do n <- tcslen msg; Ok (o ++ firstn (Z.to_nat (Z.min n (MAXLINE - 1))) msg).
(** TextPrintf, 246-254. *)
Definition text_printf (o fmt : list Z) (args : list arg) : res (list Z) :=
  do s <- vstprintf false MAXLINE fmt args; text_write o s.

(** The values of attributes: TYPE_STRING, TYPE_INT32, TYPE_BOOLEAN, TYPE_BINARY, TYPE_POINT and TYPE_RECT. *)
Inductive aval := VStr (s : list Z) | VInt (v : Z) | VBool (v : Z) | VBin (bs : list Z) | VPoint (x y : Z) | VRect (x y w h : Z).
(** Whether TFLAG_DEFAULT leaves the value out, 324-339: an empty string, or only zero bytes. *)
Definition is_default (v : aval) : res bool :=
  match v with
  | VStr s => do c <- cur s; Ok (c =? 0)
  | VInt v | VBool v => Ok (v =? 0)
  | VBin bs => Ok (forallb (fun b => b =? 0) bs)
  | VPoint x y => Ok ((x =? 0) && (y =? 0))
  | VRect x y w h => Ok ((x =? 0) && (y =? 0) && (w =? 0) && (h =? 0))
  end.
(** stcatprintf_s(Value,ValueLen,T("%02X"),..), 345-348 and str.c 150-160; [acc] is Value without its end. *)
Fixpoint bin_loop (acc bs : list Z) : res (list Z) :=
  match bs with
  | [] => Ok (acc ++ [0])
  | b :: bs =>
      let n := zlen acc in
      if n <? MAXVALUE then
        do s <- vstprintf false (MAXVALUE - n) [37; 48; 50; 88; 0] [AInt b];
        do k <- tcslen s;
        bin_loop (acc ++ firstn (Z.to_nat k) s) bs
      else bin_loop acc bs
  end.
(** DataToString, 316-441, after the default check; a string is copied, and replaced later. *)
Definition data_to_string (v : aval) : res (list Z) :=
  match v with
  | VStr s => Ok s
  | VInt v | VBool v => int_to_string MAXVALUE v false
  | VBin bs => bin_loop [] bs
  | VPoint x y => vstprintf false MAXVALUE [37; 100; 44; 37; 100; 0] [AInt x; AInt y]
  | VRect x y w h => vstprintf false MAXVALUE [37; 100; 44; 37; 100; 44; 37; 100; 44; 37; 100; 0] [AInt x; AInt y; AInt w; AInt h]
  end.
(** What a character is replaced by, 466-475. *)
Definition entity (c : Z) : option (list Z) :=
  if c =? 38 then Some [38; 97; 109; 112; 59]
  else if c =? 34 then Some [38; 113; 117; 111; 116; 59]
  else if c =? 60 then Some [38; 108; 116; 59]
  else if c =? 62 then Some [38; 103; 116; 59]
  else None.
(** The loop, 463-488: [acc] are the [i] characters of Value; tcscpy_s cuts a replacement to what is left. *)
Fixpoint escape (acc s : list Z) : res (list Z) :=
  match s with
  | [] => Bad
  | c :: s =>
      let i := zlen acc in
      if (c =? 0) || (MAXVALUE - 1 <=? i) then Ok (acc ++ [0])
      else match entity c with
           | Some e => escape (acc ++ firstn (Z.to_nat (MAXVALUE - i - 1)) e) s
           | None => escape (acc ++ [c]) s
           end
  end.
(** TextAttribEx, 443-496: [dflt] is TFLAG_DEFAULT. *)
Definition text_attrib (o name : list Z) (dflt : bool) (v : aval) : res (list Z) :=
  do z <- (if dflt then is_default v else Ok false);
  if z then Ok o
  else
    do t <- data_to_string v;
    do t <- match v with VStr s => escape [] s | _ => Ok t end;
    text_printf o [32; 37; 115; 61; 34; 37; 115; 34; 0] [AStr (Some name); AStr (Some t)].

(** TextElementBegin, 503-521: the new writer, the old one and the stream. *)
Definition element_begin (o : list Z) (i : tw) (name : list Z) : res (tw * tw * list Z) :=
  do o <- (if w_child i then Ok o else text_write o (if w_inside i then [62; 0] else [62; 10; 0]));
  let i := Tw (w_elem i) (w_deep i) true (w_inside i) (w_safe i) in
  let n := Tw name (if w_inside i then 0 else s32 (w_deep i + 2)) false (w_deep i =? 0) (w_safe i) in
  do o <- text_printf o [37; 42; 99; 37; 115; 0] [AInt (if w_deep i =? 0 then 0 else w_deep n); AInt 60; AStr (Some name)];
  Ok (n, i, o).
(** TextElementEnd, 523-541. *)
Definition element_end (o : list Z) (t : tw) : res (list Z) :=
  if w_child t then
    if w_inside t then text_printf o [60; 47; 37; 115; 62; 32; 0] [AStr (Some (w_elem t))]
    else text_printf o [37; 42; 99; 47; 37; 115; 62; 10; 0] [AInt (w_deep t); AInt 60; AStr (Some (w_elem t))]
  else
    do o <- (if w_safe t then text_printf o [62; 60; 47; 37; 115; 62; 0] [AStr (Some (w_elem t))] else text_write o [47; 62; 0]);
    if w_inside t then Ok o else text_write o [10; 0].
(** TextElementEndData, 543-549. *)
Definition element_end_data (o : list Z) (t : tw) (v : list Z) : res (list Z) :=
  if w_child t then text_printf o [37; 115; 37; 42; 99; 47; 37; 115; 62; 10; 0] [AStr (Some v); AInt (w_deep t); AInt 60; AStr (Some (w_elem t))]
  else text_printf o [62; 37; 115; 60; 47; 37; 115; 62; 10; 0] [AStr (Some v); AStr (Some (w_elem t))].
(** TextElementAppendData, 551-562. *)
Definition element_append_data (o : list Z) (t : tw) (v : list Z) : res (tw * list Z) :=
  do same <- (if w_deep t =? 1 then tcsisame_ascii v [32; 0] else Ok false);
  if same then Ok (t, o)
  else if w_child t then do o <- text_write o v; Ok (t, o)
  else
    do o <- text_printf o [62; 37; 115; 0] [AStr (Some v)];
    Ok (Tw (w_elem t) 0 true (w_inside t) (w_safe t), o).
(** T("<?xml version=\"1.0\" encoding=\"utf-8\"?>\n<%s"), 573. *)
Definition xml_fmt : list Z :=
  [60; 63; 120; 109; 108; 32; 118; 101; 114; 115; 105; 111; 110; 61; 34; 49; 46; 48; 34; 32; 101; 110; 99; 111; 100; 105; 110; 103; 61; 34; 117; 116; 102; 45; 56; 34; 63; 62; 10; 60; 37; 115; 0].
(** TextElementXML, 564-574. *)
Definition element_xml (o root : list Z) : res (tw * list Z) :=
  do o <- text_printf o xml_fmt [AStr (Some root)];
  Ok (Tw root 1 false false false, o).
