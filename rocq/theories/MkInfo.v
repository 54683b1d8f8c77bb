(** Model of how mkclean collects the level 1 elements of a segment, mkclean/mkclean.c 1789-1859 and 1909-1914, and prepares the Segment Info, 1861-1907
    and 2084-2093.

    The elements that EBML_FindNextElement or EBML_ElementSkipData give, one after the other, are the input.  A duration is a rational number: the
    rounding of double is left out. *)
From Coq Require Import QArith.
From Verif Require Import Base Tree.
Open Scope Z_scope.

(** The kinds told apart, 1795-1848; the children of a cluster as far as they matter, 1838-1844. *)
Inductive lkind := LInfo | LTracks | LChapters | LTags | LCues | LAttachments | LCluster | LOther.
Inductive ckind := CPosition | CPrevSize | COther.
(** [l_ok]: EBML_ElementReadData gives ERR_NONE; [l_id] tells elements apart. *)
Record lelt := Lelt { l_kind : lkind; l_ok : bool; l_id : Z; l_children : list (ckind * Z) }.
(** RSegmentInfo .. RClusters. *)
Record found := Found { f_info : option lelt; f_tracks : option lelt; f_chapters : option lelt; f_tags : option lelt; f_cues : option lelt; f_attachments : option lelt; f_clusters : list lelt }.
Definition found0 : found := Found None None None None None None [].
(** EBML_MasterFindChild and NodeDelete. *)
Fixpoint del_position (l : list (ckind * Z)) : list (ckind * Z) := match l with [] => [] | (CPosition, _) :: l => l | c :: l => c :: del_position l end.
Fixpoint del_prevsize (l : list (ckind * Z)) : list (ckind * Z) := match l with [] => [] | (CPrevSize, _) :: l => l | c :: l => c :: del_prevsize l end.
Definition strip (e : lelt) : lelt := Lelt (l_kind e) (l_ok e) (l_id e) (del_prevsize (del_position (l_children e))).

(** The body of the loop, 1793-1849. *)
Definition take (live keep : bool) (f : found) (e : lelt) : found :=
  match l_kind e with
  | LInfo => if l_ok e then Found (Some e) (f_tracks f) (f_chapters f) (f_tags f) (f_cues f) (f_attachments f) (f_clusters f) else f
  | LTracks => if l_ok e then Found (f_info f) (Some e) (f_chapters f) (f_tags f) (f_cues f) (f_attachments f) (f_clusters f) else f
  | LChapters => if negb live && l_ok e then Found (f_info f) (f_tracks f) (Some e) (f_tags f) (f_cues f) (f_attachments f) (f_clusters f) else f
  | LTags => if negb live && l_ok e then Found (f_info f) (f_tracks f) (f_chapters f) (Some e) (f_cues f) (f_attachments f) (f_clusters f) else f
  | LCues => if negb live && keep && l_ok e then Found (f_info f) (f_tracks f) (f_chapters f) (f_tags f) (Some e) (f_attachments f) (f_clusters f) else f
  | LAttachments => if negb live && l_ok e then Found (f_info f) (f_tracks f) (f_chapters f) (f_tags f) (f_cues f) (Some e) (f_clusters f) else f
  | LCluster => if l_ok e then Found (f_info f) (f_tracks f) (f_chapters f) (f_tags f) (f_cues f) (f_attachments f) (f_clusters f ++ [strip e]) else f
  | LOther => f
  end.
Definition collect (live keep : bool) (l : list lelt) : found := fold_left (take live keep) l found0.
(** 1853-1858 and 1909-1914: Result. *)
Definition collected (live keep : bool) (l : list lelt) : Z + found :=
  let f := collect live keep l in
  match f_info f with
  | None => inl (-6)
  | Some _ => match f_tracks f, f_clusters f with None, _ :: _ => inl (-7) | _, _ => inr f end
  end.

(** ** The Segment Info.  [c_key] is the address of a child. *)
Inductive ikind := IScale | IDuration | IDate | IOther.
Record ichild := Ichild { c_key : Z; c_kind : ikind; c_int : Z; c_num : Q }.
Definition ikind_eqb (a b : ikind) : bool := match a, b with IScale, IScale | IDuration, IDuration | IDate, IDate | IOther, IOther => true | _, _ => false end.
(** EBML_MasterFindChild: the first one. *)
Fixpoint find_child (k : ikind) (l : list ichild) : option ichild := match l with [] => None | c :: l => if ikind_eqb (c_kind c) k then Some c else find_child k l end.
(** NodeDelete, RemoveChild, nodetree.c 57-72. *)
Fixpoint remove_child (key : Z) (l : list ichild) : list ichild := match l with [] => [] | c :: l => if c_key c =? key then l else c :: remove_child key l end.
(** AddChild, nodetree.c 42-55. *)
Fixpoint add_child (x : ichild) (before : Z) (l : list ichild) : list ichild := match l with [] => [x] | c :: l => if c_key c =? before then x :: c :: l else c :: add_child x before l end.
(** p->Next != Before. *)
Fixpoint next_is (key before : Z) (l : list ichild) : bool :=
  match l with [] => false | c :: l => if c_key c =? key then match l with d :: _ => c_key d =? before | [] => false end else next_is key before l end.
(** SetParent, nodetree.c 11-27, within one parent. *)
Definition move_before (x b : ichild) (l : list ichild) : list ichild :=
  if (c_key x =? c_key b) || next_is (c_key x) (c_key b) l then l else add_child x (c_key b) (remove_child (c_key x) l).
(** EBML_IntegerSetValue, EBML_FloatSetValue, EBML_DateSetDateTime. *)
Definition set_child (key : Z) (f : ichild -> ichild) (l : list ichild) : list ichild := map (fun c => if c_key c =? key then f c else c) l.
Definition with_int (v : Z) (c : ichild) : ichild := Ichild (c_key c) (c_kind c) v (c_num c).
Definition with_num (v : Q) (c : ichild) : ichild := Ichild (c_key c) (c_kind c) (c_int c) v.

(** 1874-1876: while (TimestampScale < 100000) TimestampScale <<= 1; shifting a negative number is undefined. *)
Fixpoint grow (fuel : nat) (v : Z) : res Z :=
  match fuel with
  | O => Fuel
  | S fuel => if v <? 100000 then if v <? 0 then Bad else grow fuel (v * 2) else Ok v
  end.

(** [new] is the address of the TimestampScale that EBML_MasterGetChild adds, with its default of 1000000, when there is none. *)
Definition get_scale (new : Z) (l : list ichild) : list ichild * ichild :=
  match find_child IScale l with Some c => (l, c) | None => let c := Ichild new IScale 1000000 0%Q in (l ++ [c], c) end.
(** 1880-1896. *)
Definition set_duration (live : bool) (old scale : Z) (l : list ichild) : list ichild :=
  match find_child IDuration l with
  | None => l
  | Some d =>
      if live then remove_child (c_key d) l
      else if negb (scale =? 0) && negb (scale =? old) then set_child (c_key d) (with_num (c_num d * inject_Z old / inject_Z scale)%Q) l
      else l
  end.
(** 1898-1907. *)
Definition reorder (l : list ichild) : list ichild :=
  let '(l, second) :=
    match find_child IScale l with
    | Some c => (match l with f :: _ => move_before c f l | [] => l end, Some c)
    | None => (l, hd_error l)
    end in
  match find_child IDuration l, second with Some d, Some s => move_before d s l | _, _ => l end.
(** 1861-1907; [forced] is --timecodescale, 0 without.  The new scale and the children. *)
Definition prepare (fuel : nat) (live : bool) (forced new : Z) (l : list ichild) : res (Z * list ichild) :=
  let '(l, c) := get_scale new l in
  let old := c_int c in
  do scale <- (if forced =? 0 then grow fuel old else Ok forced);
  let l := set_child (c_key c) (with_int scale) l in
  Ok (scale, reorder (set_duration live old scale l)).
(** 2084-2093; [new] is the address of a new DateUTC. *)
Definition set_date (regr remux : bool) (now new : Z) (l : list ichild) : list ichild :=
  let v := if regr then 1 else now in
  match find_child IDate l with
  | Some d => if regr || remux then set_child (c_key d) (with_int v) l else l
  | None => l ++ [Ichild new IDate v 0%Q]
  end.
