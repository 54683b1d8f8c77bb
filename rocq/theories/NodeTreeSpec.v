(** Ordered forests: what the links of node trees mean. *)
From Coq Require Import Relations.
From Verif Require Import Base NodeTree.

(** A forest gives every node its ordered list of children. *)
Definition forest := Z -> list Z.

(** The nodes met from [x] through Next, up to NULL. *)
Fixpoint chain (h : heap) (x : Z) (l : list Z) : Prop :=
  match l with
  | [] => x = 0
  | y :: l => x = y /\ y <> 0 /\ chain h (n_next (h y)) l
  end.

(** The heap holds exactly the forest: each list is threaded through Children/Next, without
    repetition, Parent points back, a node without parent has no next sibling. *)
Record rep (h : heap) (F : forest) : Prop := mkRep {
  rep_chain : forall p, p <> 0 -> chain h (n_kids (h p)) (F p);
  rep_nodup : forall p, p <> 0 -> NoDup (F p);
  rep_par : forall p c, p <> 0 -> (In c (F p) <-> c <> 0 /\ n_par (h c) = p);
  rep_free : forall c, c <> 0 -> n_par (h c) = 0 -> n_next (h c) = 0 }.

(** [x] inserted before [b], or at the end when [b] is not there. *)
Fixpoint insert_before (b x : Z) (l : list Z) : list Z :=
  match l with
  | [] => [x]
  | y :: l' => if y =? b then x :: l else y :: insert_before b x l'
  end.
Definition detached (F : forest) (x : Z) : forest := fun p => remove Z.eq_dec x (F p).
Definition attached (F : forest) (x parent b : Z) : forest :=
  fun p => if p =? parent then insert_before b x (F p) else F p.
(** Moving [x] under [parent] (0: nowhere), before [b]. *)
Definition moved (F : forest) (x parent b : Z) : forest :=
  if x =? b then F else attached (detached F x) x parent b.

(** One call, and a history of calls; a call names the node, its new parent and the sibling it goes
    before (0: none).  The sibling must be a child of the new parent. *)
Definition call := (Z * Z * Z)%type.
Definition call_ok (F : forest) (c : call) : Prop :=
  let '(x, parent, b) := c in x <> 0 /\ (b = 0 \/ (parent <> 0 /\ In b (F parent))).
Definition call_moves (F : forest) (c : call) : forest := let '(x, parent, b) := c in moved F x parent b.
Fixpoint calls_ok (F : forest) (cs : list call) : Prop :=
  match cs with
  | [] => True
  | c :: cs => call_ok F c /\ calls_ok (call_moves F c) cs
  end.
Fixpoint run_calls (fuel : nat) (h : heap) (cs : list call) : option heap :=
  match cs with
  | [] => Some h
  | (x, parent, b) :: cs => match set_parent fuel h x parent b with Some h => run_calls fuel h cs | None => None end
  end.

(** No node is its own ancestor. *)
Definition parent_of (F : forest) (p c : Z) : Prop := p <> 0 /\ In c (F p).
Definition acyclic (F : forest) : Prop := forall x, ~ clos_trans Z (parent_of F) x x.
(** The call does not put a node under itself or under one of its descendants. *)
Definition call_sane (F : forest) (c : call) : Prop := let '(x, parent, b) := c in ~ clos_refl_trans Z (parent_of F) x parent.
Fixpoint calls_sane (F : forest) (cs : list call) : Prop :=
  match cs with
  | [] => True
  | c :: cs => call_sane F c /\ calls_sane (call_moves F c) cs
  end.

(** Nodes all detached. *)
Definition empty_heap : heap := fun _ => mkNd 0 0 0.
Definition empty_forest : forest := fun _ => [].

(** The first element of a list with a given ID, 0 if none. *)
Definition first_with (eid : Z -> Z) (id : Z) (l : list Z) : Z :=
  match find (fun x => eid x =? id) l with Some x => x | None => 0 end.
