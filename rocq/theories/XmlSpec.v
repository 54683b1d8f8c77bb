(** Specification of the text writer: documents, what they mean, a program that writes one, and a reader of XML. *)
From Verif Require Import Base Tree Printf PrintfSpec Xml.

(** ** Documents *)
(** An element has a name, attributes (with whether a default value may be left out), parts, and perhaps a last text
    given when the element is ended.  Strings have no end mark here. *)
Inductive node :=
| Elem (name : list Z) (attrs : list (list Z * bool * aval)) (kids : list node) (fin : option (list Z))
| Data (v : list Z).

(** What a reader is to see. *)
Inductive ev := Start (name : list Z) (attrs : list (list Z * list Z)) | Stop (name : list Z) | Text (t : list Z).
Definition attr_text (v : aval) : list Z :=
  match v with
  | VStr s => s
  | VInt v | VBool v => decimal v
  | VBin bs => concat (map (hex_digits true 2) bs)
  | VPoint x y => decimal x ++ [44] ++ decimal y
  | VRect x y w h => decimal x ++ [44] ++ decimal y ++ [44] ++ decimal w ++ [44] ++ decimal h
  end.
Definition nothing (v : aval) : bool :=
  match v with
  | VStr s => match s with [] => true | _ => false end
  | VInt v | VBool v => v =? 0
  | VBin bs => forallb (Z.eqb 0) bs
  | VPoint x y => forallb (Z.eqb 0) [x; y]
  | VRect x y w h => forallb (Z.eqb 0) [x; y; w; h]
  end.
Definition shown_attrs (l : list (list Z * bool * aval)) : list (list Z * list Z) :=
  concat (map (fun a => match a with (n, dflt, v) => if dflt && nothing v then [] else [(n, attr_text v)] end) l).
Definition text_evs (t : option (list Z)) : list ev := match t with Some v => [Text v] | None => [] end.
Fixpoint events (x : node) : list ev :=
  match x with
  | Data v => [Text v]
  | Elem n a ks fin => Start n (shown_attrs a) :: concat (map events ks) ++ text_evs fin ++ [Stop n]
  end.

(** Texts that touch are one text; blanks around a text do not count. *)
Definition blank_char (c : Z) : bool := (c =? 32) || (c =? 9) || (c =? 10) || (c =? 13).
Fixpoint skip_blanks (l : list Z) : list Z := match l with c :: r => if blank_char c then skip_blanks r else l | [] => [] end.
Definition trim (l : list Z) : list Z := rev (skip_blanks (rev (skip_blanks l))).
Definition flush (p : list Z) : list ev := match trim p with [] => [] | t => [Text t] end.
(** Events so far and the text not ended yet. *)
Definition take (s : list ev * list Z) (e : ev) : list ev * list Z :=
  match e with Text v => (fst s, snd s ++ v) | _ => (fst s ++ flush (snd s) ++ [e], []) end.
Definition meaning (l : list ev) : list ev := let s := fold_left take l ([], []) in fst s ++ flush (snd s).

(** ** A reader of XML, one character at a time *)
Inductive mode :=
| InText (buf : list Z)
| InTextRef (buf ref : list Z)
| Lt
| InClose (n : list Z)
| InPi (q : bool)
| InName (n : list Z)
| InTag (n : list Z) (A : list (list Z * list Z))
| InAttr (n : list Z) (A : list (list Z * list Z)) (a : list Z)
| AfterEq (n : list Z) (A : list (list Z * list Z)) (a : list Z)
| InVal (n : list Z) (A : list (list Z * list Z)) (a v : list Z)
| InRef (n : list Z) (A : list (list Z * list Z)) (a v ref : list Z)
| AfterVal (n : list Z) (A : list (list Z * list Z))
| InEmpty (n : list Z) (A : list (list Z * list Z)).
Definition name_char (c : Z) : bool :=
  (33 <? c) && (c <? 256) && negb (existsb (Z.eqb c) [34; 38; 39; 47; 60; 61; 62; 63]).
Definition legal (c : Z) : bool := (32 <=? c) && (c <? 256) || (c =? 9) || (c =? 10) || (c =? 13).
Definition refs : list (list Z * Z) :=
  [([97; 109; 112], 38); ([113; 117; 111; 116], 34); ([108; 116], 60); ([103; 116], 62); ([97; 112; 111; 115], 39)].
Definition ref_char (r : list Z) : option Z :=
  match find (fun p => if list_eq_dec Z.eq_dec (fst p) r then true else false) refs with Some p => Some (snd p) | None => None end.
(** An open tag, at one of the places where it may go on or end. *)
Definition in_open (n : list Z) (A : list (list Z * list Z)) (E : list ev) (c : Z) : option (mode * list ev) :=
  if c =? 62 then Some (InText [], E ++ [Start n A])
  else if c =? 47 then Some (InEmpty n A, E)
  else if blank_char c then Some (InTag n A, E)
  else None.
Definition step (s : mode * list ev) (c : Z) : option (mode * list ev) :=
  let E := snd s in
  match fst s with
  | InText b =>
      if c =? 60 then Some (Lt, E ++ flush b)
      else if c =? 38 then Some (InTextRef b [], E)
      else if legal c then Some (InText (b ++ [if c =? 13 then 10 else c]), E)
      else None
  | InTextRef b r =>
      if c =? 59 then match ref_char r with Some x => Some (InText (b ++ [x]), E) | None => None end
      else if name_char c then Some (InTextRef b (r ++ [c]), E) else None
  | Lt => if c =? 47 then Some (InClose [], E) else if c =? 63 then Some (InPi false, E) else if name_char c then Some (InName [c], E) else None
  | InClose n =>
      if name_char c then Some (InClose (n ++ [c]), E)
      else if (c =? 62) && negb (zlen n =? 0) then Some (InText [], E ++ [Stop n]) else None
  | InPi q => if c =? 63 then Some (InPi true, E) else if (c =? 62) && q then Some (InText [], E) else if legal c then Some (InPi false, E) else None
  | InName n => if name_char c then Some (InName (n ++ [c]), E) else in_open n [] E c
  | InTag n A => if name_char c then Some (InAttr n A [c], E) else in_open n A E c
  | InAttr n A a => if name_char c then Some (InAttr n A (a ++ [c]), E) else if c =? 61 then Some (AfterEq n A a, E) else None
  | AfterEq n A a => if c =? 34 then Some (InVal n A a [], E) else None
  | InVal n A a v =>
      if c =? 34 then Some (AfterVal n (A ++ [(a, v)]), E)
      else if c =? 60 then None
      else if c =? 38 then Some (InRef n A a v [], E)
      else if legal c then Some (InVal n A a (v ++ [if blank_char c then 32 else c]), E)
      else None
  | InRef n A a v r =>
      if c =? 59 then match ref_char r with Some x => Some (InVal n A a (v ++ [x]), E) | None => None end
      else if name_char c then Some (InRef n A a v (r ++ [c]), E) else None
  | AfterVal n A => in_open n A E c
  | InEmpty n A => if c =? 62 then Some (InText [], E ++ [Start n A; Stop n]) else None
  end.
Fixpoint run (s : mode * list ev) (l : list Z) : option (mode * list ev) :=
  match l with [] => Some s | c :: l => match step s c with Some s => run s l | None => None end end.
(** The events of a text; a tag that is not ended or text after the last one is an error. *)
Definition read_xml (l : list Z) : option (list ev) :=
  match run (InText [], []) l with
  | Some (InText b, E) => match flush b with [] => Some E | _ => None end
  | _ => None
  end.

(** ** The program that writes a document: one call after another *)
Definition zend (v : aval) : aval := match v with VStr s => VStr (s ++ [0]) | _ => v end.
Fixpoint put_attrs (o : list Z) (l : list (list Z * bool * aval)) : res (list Z) :=
  match l with [] => Ok o | (n, dflt, v) :: l => do o <- text_attrib o (n ++ [0]) dflt (zend v); put_attrs o l end.
Definition each (f : list Z -> tw -> node -> res (tw * list Z)) : list Z -> tw -> list node -> res (tw * list Z) :=
  fix go o t ks := match ks with [] => Ok (t, o) | k :: ks => do r <- f o t k; go (snd r) (fst r) ks end.
Definition put_end (o : list Z) (t : tw) (fin : option (list Z)) : res (list Z) :=
  match fin with None => element_end o t | Some v => element_end_data o t (v ++ [0]) end.
Fixpoint put (o : list Z) (i : tw) (x : node) : res (tw * list Z) :=
  match x with
  | Data v => element_append_data o i (v ++ [0])
  | Elem n a ks fin =>
      do r <- element_begin o i (n ++ [0]);
      do o <- put_attrs (snd r) a;
      do k <- each put o (fst (fst r)) ks;
      do o <- put_end (snd k) (fst k) fin;
      Ok (snd (fst r), o)
  end.
(** [safe] is SafeFormat, which the program may set once the root is begun. *)
Definition put_document (safe : bool) (n : list Z) (a : list (list Z * bool * aval)) (ks : list node) (fin : option (list Z)) : res (list Z) :=
  do r <- element_xml [] (n ++ [0]);
  let t := fst r in
  do o <- put_attrs (snd r) a;
  do k <- each put o (Tw (w_elem t) (w_deep t) (w_child t) (w_inside t) safe) ks;
  put_end (snd k) (fst k) fin.

(** ** Documents that can be written *)
Definition name_ok (n : list Z) : Prop := n <> [] /\ Forall (fun c => name_char c = true) n.
Definition text_ok (v : list Z) : Prop := Forall (fun c => legal c = true /\ c <> 13 /\ c <> 60 /\ c <> 38) v.
Definition int_ok (v : Z) : Prop := - 2 ^ 31 <= v < 2 ^ 31.
Definition val_ok (v : aval) : Prop :=
  match v with
  | VStr s => Forall (fun c => 32 <= c < 256) s
  | VInt v | VBool v => int_ok v
  | VBin bs => Forall (fun b => 0 <= b < 256) bs
  | VPoint x y => int_ok x /\ int_ok y
  | VRect x y w h => int_ok x /\ int_ok y /\ int_ok w /\ int_ok h
  end.
(** The room a character takes in an attribute, and the room the value takes. *)
Definition char_room (c : Z) : Z := if c =? 38 then 5 else if c =? 34 then 6 else if (c =? 60) || (c =? 62) then 4 else 1.
Definition val_room (v : aval) : Z := fold_right (fun c n => char_room c + n) 0 (attr_text v).
Definition attr_ok (a : list Z * bool * aval) : Prop :=
  match a with (n, _, v) => name_ok n /\ val_ok v /\ zlen n + val_room v + 4 <= 1023 end.
Definition fin_room (fin : option (list Z)) : Z := match fin with Some v => zlen v | None => 0 end.
Definition fin_ok (fin : option (list Z)) : Prop := match fin with Some v => text_ok v | None => True end.
(** [d] is the room for indentation: two blanks for each level. *)
Fixpoint fits (d : Z) (x : node) : Prop :=
  match x with
  | Data v => text_ok v /\ zlen v <= 1022
  | Elem n a ks fin => name_ok n /\ Forall attr_ok a /\ fin_ok fin /\ d + zlen n + fin_room fin + 4 <= 1023 /\ fold_right (fun k P => fits (d + 2) k /\ P) True ks
  end.
(** The root is written after a line of 40 characters; a single blank is not kept there. *)
Definition document_ok (n : list Z) (a : list (list Z * bool * aval)) (ks : list node) (fin : option (list Z)) : Prop :=
  fits 1 (Elem n a ks fin) /\ zlen n <= 983 /\ ~ In (Data [32]) ks.
