(** The life of nodes: references counted, trees and references between nodes: corec/corec/node/node.c 632-722 (CallDelete),
    1397-1440 (Node_AddRef, Node_Release, NodeDelete), 2248-2262 (a property of TYPE_NODE_REF set), corec/corec/node/nodetree.c
    11-85 and 110-120, with the references between elements declared in libmatroska2/matroskamain.c 2466-2507.

    Nodes are addresses that are not 0 and are not given twice; a node has been freed when the heap has nothing at its address, and
    reading there is [Bad].  Children are a list (NodeTree.v has the links and shows that they are one).  Of the meta data of a
    class only the references and the deletion of nodetree count: those of the derived classes come first, nodetree.c 161 after
    them.  No listeners, no modules, no arrays; RefCount does not overflow. *)
From Verif Require Import Base Tree.

Record obj := Obj { o_rc : Z; o_par : Z; o_kids : list Z; o_refs : list Z }.
Definition heap := Z -> option obj.
Definition upd (h : heap) (a : Z) (x : option obj) : heap := fun b => if b =? a then x else h b.
Definition at_ (h : heap) (a : Z) : res obj := match h a with Some x => Ok x | None => Bad end.
Definition set_rc (x : obj) (v : Z) : obj := Obj v (o_par x) (o_kids x) (o_refs x).
Definition set_par (x : obj) (v : Z) : obj := Obj (o_rc x) v (o_kids x) (o_refs x).
Definition set_kids (x : obj) (v : list Z) : obj := Obj (o_rc x) (o_par x) v (o_refs x).
Definition set_refs (x : obj) (v : list Z) : obj := Obj (o_rc x) (o_par x) (o_kids x) v.
Fixpoint set_nth (k : nat) (v : Z) (l : list Z) : list Z :=
  match l, k with [], _ => [] | _ :: l, O => v :: l | x :: l, S k => x :: set_nth k v l end.
Fixpoint remove_one (c : Z) (l : list Z) : list Z := match l with [] => [] | x :: l => if x =? c then l else x :: remove_one c l end.
Fixpoint insert_before (c b : Z) (l : list Z) : list Z :=
  match l with [] => [c] | x :: l' => if x =? b then c :: l else x :: insert_before c b l' end.

(** RemoveChild, nodetree.c 59-74. *)
Definition remove_child (h : heap) (p c : Z) : res heap :=
  do x <- at_ h p; let h := upd h p (Some (set_kids x (remove_one c (o_kids x)))) in
  do y <- at_ h c; Ok (upd h c (Some (set_par y 0))).
(** AddChild, nodetree.c 44-57. *)
Definition add_child (h : heap) (p c before : Z) : res heap :=
  do y <- at_ h c; let h := upd h c (Some (set_par y p)) in
  do x <- at_ h p; Ok (upd h p (Some (set_kids x (insert_before c before (o_kids x))))).
(** SetParent, nodetree.c 11-28.  [before] is a child of the parent or 0; when nothing would change the code does nothing, with the same list. *)
Definition set_parent (h : heap) (c p before : Z) : res heap :=
  if c =? before then Ok h
  else
    do y <- at_ h c;
    do h <- (if o_par y =? 0 then Ok h else remove_child h (o_par y) c);
    if p =? 0 then Ok h else add_child h p c before.

(** The references, node.c 675-704: each is set to NULL, then released. *)
Fixpoint drop_refs (rel : heap -> Z -> res heap) (o : Z) (n k : nat) (h : heap) : res heap :=
  match n with
  | O => Ok h
  | S n =>
      do x <- at_ h o;
      let v := nth k (o_refs x) 0 in
      do h <- (if v =? 0 then Ok h else rel (upd h o (Some (set_refs x (set_nth k 0 (o_refs x))))) v);
      drop_refs rel o n (S k) h
  end.
(** NodeTree_Clear, nodetree.c 38-42, with NodeTree_DetachAndRelease, 30-36. *)
Fixpoint clear_kids (rel : heap -> Z -> res heap) (o : Z) (fuel : nat) (h : heap) : res heap :=
  do x <- at_ h o;
  match o_kids x with
  | [] => Ok h
  | c :: _ =>
      match fuel with
      | O => Fuel
      | S fuel => do h <- set_parent h c 0 0; do h <- rel h c; clear_kids rel o fuel h
      end
  end.
(** CallDelete and EraseNode, node.c 632-722 and 1397-1409. *)
Definition destroy (rel : heap -> Z -> res heap) (h : heap) (o : Z) : res heap :=
  do x <- at_ h o;
  do h <- drop_refs rel o (length (o_refs x)) 0 h;
  do h <- clear_kids rel o (length (o_kids x)) h;
  do h <- set_parent h o 0 0;
  Ok (upd h o None).
(** Node_Release, 1418-1434. *)
Fixpoint release (fuel : nat) (h : heap) (o : Z) : res heap :=
  match fuel with
  | O => Fuel
  | S fuel =>
      do x <- at_ h o;
      let h := upd h o (Some (set_rc x (o_rc x - 1))) in
      if o_rc x - 1 =? 0 then destroy (release fuel) h o else Ok h
  end.
(** Node_AddRef, 1411-1416. *)
Definition add_ref (h : heap) (o : Z) : res heap := do x <- at_ h o; Ok (upd h o (Some (set_rc x (o_rc x + 1)))).
(** Node_Set of a TYPE_NODE_REF, 2248-2262. *)
Definition set_ref (fuel : nat) (h : heap) (o : Z) (k : nat) (v : Z) : res heap :=
  do x <- at_ h o;
  let v0 := nth k (o_refs x) 0 in
  if v0 =? v then Ok h
  else
    do h <- (if v =? 0 then Ok h else add_ref h v);
    do x <- at_ h o;
    let h := upd h o (Some (set_refs x (set_nth k v (o_refs x)))) in
    if v0 =? 0 then Ok h else release fuel h v0.
(** NodeTree_DetachAndRelease. *)
Definition detach_release (fuel : nat) (h : heap) (c : Z) : res heap := do h <- set_parent h c 0 0; release fuel h c.
(** A new node, 1262-1264: RefCount is 1; [n] references. *)
Definition create (h : heap) (a : Z) (n : nat) : heap := upd h a (Some (Obj 1 0 [] (repeat 0 n))).

(** What a program does with nodes. *)
Inductive op :=
| New (n : nat)
| AddRef (o : Z)
| Release (o : Z)
| SetRef (o : Z) (k : nat) (v : Z)
| SetParent (c p before : Z)
| Detach (c : Z)
| DeleteChild (c : Z).
(** The heap and the addresses given, latest first; the fuel is enough for them. *)
Record st := Mk { s_heap : heap; s_dom : list Z }.
Definition fresh (s : st) : Z := 1 + fold_right Z.max 0 (s_dom s).
Definition exec (s : st) (o : op) : res st :=
  let f := S (length (s_dom s)) in
  match o with
  | New n => Ok (Mk (create (s_heap s) (fresh s) n) (fresh s :: s_dom s))
  | AddRef a => do h <- add_ref (s_heap s) a; Ok (Mk h (s_dom s))
  | Release a | DeleteChild a => do h <- release f (s_heap s) a; Ok (Mk h (s_dom s))
  | SetRef a k v => do h <- set_ref f (s_heap s) a k v; Ok (Mk h (s_dom s))
  | SetParent c p b => do h <- set_parent (s_heap s) c p b; Ok (Mk h (s_dom s))
  | Detach c => do h <- detach_release f (s_heap s) c; Ok (Mk h (s_dom s))
  end.
Definition s0 : st := Mk (fun _ => None) [].
