(** Node trees, corec/corec/node/nodetree.c, and the child list operations of masters built on them,
    libebml2/ebmlmaster.c. *)
From Verif Require Import Base Arr.

(** The three links of a nodetree (nodetree.h); nodes are non-zero addresses, 0 is NULL. *)
Record nd := mkNd { n_par : Z; n_next : Z; n_kids : Z }.
Definition heap := Z -> nd.
Definition hset (h : heap) (x : Z) (n : nd) : heap := fun y => if y =? x then n else h y.
Definition set_par (h : heap) (x v : Z) : heap := hset h x (mkNd v (n_next (h x)) (n_kids (h x))).
Definition set_next (h : heap) (x v : Z) : heap := hset h x (mkNd (n_par (h x)) v (n_kids (h x))).
Definition set_kids (h : heap) (x v : Z) : heap := hset h x (mkNd (n_par (h x)) (n_next (h x)) v).

(** A [nodetree**]: the address of a Children or of a Next field. *)
Inductive link := LKids (p : Z) | LNext (c : Z).
Definition deref (h : heap) (i : link) : Z := match i with LKids p => n_kids (h p) | LNext c => n_next (h c) end.
Definition store (h : heap) (i : link) (v : Z) : heap := match i with LKids p => set_kids h p v | LNext c => set_next h c v end.

(** The loops of AddChild (nodetree.c 48-50) and RemoveChild (65-70): the link that is NULL or
    points to [target].  [None] is fuel exhausted. *)
Fixpoint find_link (fuel : nat) (h : heap) (i : link) (target : Z) : option link :=
  let c := deref h i in
  if (c =? 0) || (c =? target) then Some i
  else match fuel with
  | O => None
  | S f => find_link f h (LNext c) target
  end.

(** AddChild, nodetree.c 44-57. *)
Definition add_child (fuel : nat) (h : heap) (p child before : Z) : option heap :=
  match find_link fuel h (LKids p) before with
  | None => None
  | Some i => let h := set_par h child p in let h := set_next h child before in Some (store h i child)
  end.

(** RemoveChild, nodetree.c 59-74. *)
Definition remove_child (fuel : nat) (h : heap) (p child : Z) : option heap :=
  match find_link fuel h (LKids p) child with
  | None => None
  | Some i =>
      let h := if deref h i =? child then store h i (n_next (h child)) else h in
      let h := set_next h child 0 in
      Some (set_par h child 0)
  end.

(** SetParent, nodetree.c 11-28, built with NDEBUG (the assertion on Before is a precondition of the
    theorems). *)
Definition set_parent (fuel : nat) (h : heap) (p parent before : Z) : option heap :=
  if negb (p =? before) && (negb (n_par (h p) =? parent) || negb (n_next (h p) =? before)) then
    match (if negb (n_par (h p) =? 0) then remove_child fuel h (n_par (h p)) p else Some h) with
    | None => None
    | Some h => if negb (parent =? 0) then add_child fuel h parent p before else Some h
    end
  else Some h.

(** NodeTree_MoveBefore, nodetree.c 76-85. *)
Definition move_before (fuel : nat) (h : heap) (p before : Z) : option heap :=
  if negb (p =? before) then
    let parent := n_par (h p) in
    match remove_child fuel h parent p with
    | None => None
    | Some h => add_child fuel h parent p before
    end
  else Some h.

(** NodeTree_Clear, nodetree.c 38-44, EBML_MasterClear, ebmlmaster.c 138-146, and EBML_MasterErase,
    148-152: detach the first child until there is none.  The release of detached nodes (reference
    counts, nodes freed) is not modelled. *)
Fixpoint detach_all (fuel : nat) (h : heap) (p : Z) : option heap :=
  let c := n_kids (h p) in
  if c =? 0 then Some h
  else match fuel with
  | O => None
  | S f => match set_parent fuel h c 0 0 with Some h => detach_all f h p | None => None end
  end.
Definition tree_clear (fuel : nat) (h : heap) (p : Z) : option heap :=
  match detach_all fuel h p with Some h => set_parent fuel h p 0 0 | None => None end.

(** EBML_MasterAppend, ebmlmaster.c 84-95 (links part). *)
Definition master_append (fuel : nat) (h : heap) (m e : Z) : option heap := set_parent fuel h e m 0.

(** The loops of EBML_MasterFindFirstElt (ebmlmaster.c 54-58) and FindNextElt (72-76), without
    creation: the first element from [x] on with ID [id].  [eid] gives Context->Id. *)
Fixpoint find_elt (fuel : nat) (h : heap) (eid : Z -> Z) (x id : Z) : option Z :=
  if x =? 0 then Some 0
  else if eid x =? id then Some x
  else match fuel with
  | O => None
  | S f => find_elt f h eid (n_next (h x)) id
  end.
Definition find_first (fuel : nat) (h : heap) (eid : Z -> Z) (m id : Z) : option Z := find_elt fuel h eid (n_kids (h m)) id.
Definition find_next_elt (fuel : nat) (h : heap) (eid : Z -> Z) (cur : Z) : option Z :=
  if cur =? 0 then Some 0 else find_elt fuel h eid (n_next (h cur)) (eid cur).

(** EBML_MasterCount, ebmlmaster.c 97-104; also the walk of EBML_MasterSort, 120-121. *)
Fixpoint collect (fuel : nat) (h : heap) (x : Z) : option (list Z) :=
  if x =? 0 then Some []
  else match fuel with
  | O => None
  | S f => match collect f h (n_next (h x)) with Some l => Some (x :: l) | None => None end
  end.
Definition master_count (fuel : nat) (h : heap) (m : Z) : option Z :=
  match collect fuel h (n_kids (h m)) with Some l => Some (zlen l) | None => None end.

(** EBML_MasterSort, ebmlmaster.c 115-136, with the caller's comparison; pointers are word sized, so
    ArraySort takes its fast path. *)
Fixpoint refill (fuel : nat) (h : heap) (m : Z) (l : list Z) : option heap :=
  match l with
  | [] => Some h
  | x :: l => match set_parent fuel h x m 0 with Some h => refill fuel h m l | None => None end
  end.
Definition master_sort (fuel : nat) (h : heap) (cmp : Z -> Z -> Z) (m : Z) : option heap :=
  match collect fuel h (n_kids (h m)) with
  | None => None
  | Some l =>
      match array_sort cmp true false l with
      | None => None
      | Some l => match detach_all fuel h m with Some h => refill fuel h m l | None => None end
      end
  end.
