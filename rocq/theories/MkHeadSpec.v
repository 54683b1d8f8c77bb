(** Specification of the heads mkclean reads and of the names it leaves. *)
From Coq Require Import String.
From Verif Require Import Base StrSpec MkArgsSpec MkHead.

(** A text in an element ends at the first zero, or at the end of the element. *)
Definition says (bytes t : list Z) : Prop := ~ In 0 t /\ (bytes = t \/ exists r, bytes = t ++ 0 :: r).
(** What can be read: EBML version 1, IDs of 4 bytes, sizes of 8, documents "matroska" and "webm" that ask for version 2 at most. *)
Definition supported (e : helt) : Prop :=
  match h_kind e with
  | KReadVersion => h_ok e = true /\ h_int e <= 1
  | KMaxIdLength => h_ok e = true /\ h_int e <= 4
  | KMaxSizeLength => h_ok e = true /\ h_int e <= 8
  | KDocType => h_ok e = true /\ (says (h_bytes e) (txt "matroska") \/ says (h_bytes e) (txt "webm"))
  | KDocTypeRead => h_ok e = true /\ h_int e <= 2
  | KSegment => False
  | KOther => True
  end.
(** The last element of a kind. *)
Definition last_of (k : hkind) (l : list helt) (e : helt) : Prop := exists a b, l = a ++ e :: b /\ h_kind e = k /\ forall x, In x b -> h_kind x <> k.
Definition none_of (k : hkind) (l : list helt) : Prop := forall x, In x l -> h_kind x <> k.

(** The letters for the options. *)
Definition letters (remux opt live noopt alt : bool) : list Z :=
  let l := (if remux then txt "r" else []) ++ (if opt then txt "o" else []) ++ (if live then txt "l" else []) ++ (if noopt then txt "u" else []) ++ (if alt then txt "3" else []) in
  match l with [] => [] | _ => txt " " ++ l end.
(** The names a file had: both, or one of them if they are the same or there is one only. *)
Inductive had (muxing app : list Z) : list Z -> Prop :=
| had_same : same_text app muxing -> had muxing app muxing
| had_app : ~ same_text app muxing -> muxing = [] -> had muxing app app
| had_both : ~ same_text app muxing -> muxing <> [] -> had muxing app (muxing ++ txt " + " ++ app).
Definition from (l : list Z) : list Z := match l with [] => [] | _ => txt " from " ++ l end.
Definition begins (p l : list Z) : Prop := exists a b, l = a ++ b /\ same_text a p.
