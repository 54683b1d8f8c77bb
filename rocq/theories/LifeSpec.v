(** The rules for a program that uses nodes, and what it may rely on. *)
From Verif Require Import Base Life.

(** How many times the program has to release each node: its handles. *)
Definition handles := Z -> Z.
Definition plus (H : handles) (a k : Z) : handles := fun b => if b =? a then H b + k else H b.
Definition par_of (h : heap) (a : Z) : Z := match h a with Some x => o_par x | None => 0 end.
Definition live (h : heap) (a : Z) : Prop := h a <> None.
(** A node that stays: there is a handle of it or of a node above it. *)
Inductive anchored (H : handles) (h : heap) : Z -> Prop :=
| an_handle a : 0 < H a -> anchored H h a
| an_up a : par_of h a <> 0 -> anchored H h (par_of h a) -> anchored H h a.

(** What an operation asks for, and the handles after it.  A new node is one handle; making it a child hands it over, taking a
    child out gives it back. *)
Definition pre (H : handles) (s : st) (o : op) : Prop :=
  let h := s_heap s in
  match o with
  | New _ => True
  | AddRef a => live h a
  | Release a => 0 < H a
  | SetRef a k v => (exists x, h a = Some x /\ (k < length (o_refs x))%nat) /\ (v = 0 \/ live h v)
  | SetParent c p b => live h c /\ (par_of h c = 0 -> 0 < H c) /\ (p = 0 \/ (live h p /\ p <> c)) /\ c <> b /\ (b = 0 \/ par_of h b = p)
  | Detach c => par_of h c <> 0
  | DeleteChild c => par_of h c <> 0 /\ anchored H h (par_of h c) /\ exists x, h c = Some x /\ o_rc x = 1
  end.
Definition after (H : handles) (s : st) (o : op) : handles :=
  let h := s_heap s in
  match o with
  | New _ => plus H (fresh s) 1
  | AddRef a => plus H a 1
  | Release a => plus H a (-1)
  | SetParent c p _ => plus H c ((if par_of h c =? 0 then 0 else 1) - (if p =? 0 then 0 else 1))
  | _ => H
  end.

(** A run of a program by the rules. *)
Inductive run : st -> handles -> Prop :=
| run0 : run s0 (fun _ => 0)
| run_step s H o s' : run s H -> pre H s o -> exec s o = Tree.Ok s' -> run s' (after H s o).

(** The holders of a node: handles, a parent, references. *)
Fixpoint occ (a : Z) (l : list Z) : Z := match l with [] => 0 | x :: l => (if x =? a then 1 else 0) + occ a l end.
Definition refs_of (h : heap) (b : Z) : list Z := match h b with Some x => o_refs x | None => [] end.
Definition kids_of (h : heap) (b : Z) : list Z := match h b with Some x => o_kids x | None => [] end.
Definition rc_of (h : heap) (b : Z) : Z := match h b with Some x => o_rc x | None => 0 end.
Fixpoint referred (h : heap) (dom : list Z) (a : Z) : Z := match dom with [] => 0 | b :: dom => occ a (refs_of h b) + referred h dom a end.
Definition holders (s : st) (H : handles) (a : Z) : Z := H a + (if par_of (s_heap s) a =? 0 then 0 else 1) + referred (s_heap s) (s_dom s) a.

(** Everything there is to follow leads to a node that is there. *)
Record no_dangling (s : st) (H : handles) : Prop := {
  nd_null : s_heap s 0 = None;
  nd_handle a : 0 < H a -> live (s_heap s) a;
  nd_ref a v : In v (refs_of (s_heap s) a) -> v <> 0 -> live (s_heap s) v;
  nd_par a : par_of (s_heap s) a <> 0 -> In a (kids_of (s_heap s) (par_of (s_heap s) a));
  nd_kid a c : In c (kids_of (s_heap s) a) -> live (s_heap s) c /\ par_of (s_heap s) c = a;
  nd_once a : NoDup (kids_of (s_heap s) a) }.

(** Links that never come back to where they began: a rank that falls from a node to its children and references. *)
Definition acyclic (h : heap) : Prop :=
  exists rank : Z -> nat, forall a b, In b (kids_of h a) \/ (In b (refs_of h a) /\ b <> 0) -> (rank b < rank a)%nat.
(** What an operation that may free nodes leaves alone: a node that is still there keeps its references and its children (without
    the one taken out), and its parent as long as that is there. *)
Definition kept_by (o : op) (h h' : heap) : Prop :=
  match o with
  | Release _ => forall a x y, h a = Some x -> h' a = Some y ->
      o_refs y = o_refs x /\ o_kids y = o_kids x /\ (o_par y = o_par x \/ (o_par y = 0 /\ h' (o_par x) = None))
  | Detach c => forall a x y, a <> c -> h a = Some x -> h' a = Some y ->
      o_refs y = o_refs x /\ o_kids y = remove_one c (o_kids x) /\ (o_par y = o_par x \/ (o_par y = 0 /\ h' (o_par x) = None))
  | DeleteChild c => h' c = None /\ forall a x y, h a = Some x -> h' a = Some y ->
      o_refs y = o_refs x /\ o_kids y = remove_one c (o_kids x) /\ (o_par y = o_par x \/ (o_par y = 0 /\ h' (o_par x) = None))
  | SetRef o k v => forall a x y, h a = Some x -> h' a = Some y ->
      o_refs y = (if a =? o then set_nth k v (o_refs x) else o_refs x) /\ o_kids y = o_kids x /\
      (o_par y = o_par x \/ (o_par y = 0 /\ h' (o_par x) = None))
  | _ => True
  end.

(** A run written down. *)
Fixpoint by_rules (H : handles) (s : st) (l : list op) : Prop :=
  match l with
  | [] => True
  | o :: l => pre H s o /\ match exec s o with Tree.Ok s' => by_rules (after H s o) s' l | _ => False end
  end.
Fixpoint exec_all (s : st) (l : list op) : Tree.res st :=
  match l with [] => Tree.Ok s | o :: l => Tree.bind (exec s o) (fun s => exec_all s l) end.
Fixpoint after_all (H : handles) (s : st) (l : list op) : handles :=
  match l with [] => H | o :: l => match exec s o with Tree.Ok s' => after_all (after H s o) s' l | _ => H end end.
