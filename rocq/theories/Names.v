(** Finding nodes of a tree by name, by class and by dotted expressions; corec/corec/node/nodetree.c
    86-145, corec/corec/helpers/parser/parser2.c 107-211.

    A node is known by its place: the numbers of the children on the way from the root.  Texts are the
    bytes before the terminator. *)
From Verif Require Import Base Tree Str.

(** What the functions ask of a node: NODE_ID, Node_IsPartOf, NodeFindDef (parser2.c 1051-1063) and
    NodeDataDef of NODE_DEFAULT_DATA.  NodeFindDef is kept abstract.  All nodes are nodetrees. *)
Record attrs := Attrs { a_name : option (list Z); a_is : Z -> bool; a_def : list Z -> bool; a_default : bool }.
Inductive ntree := NT (a : attrs) (kids : list ntree).
Definition attrs_of (t : ntree) : attrs := let (a, _) := t in a.
Definition kids_of (t : ntree) : list ntree := let (_, k) := t in k.
Definition place := list nat.

(** tcsisame_ascii of two texts (Str.v). *)
Definition same (a b : list Z) : bool := match tcsisame_ascii (a ++ [0]) (b ++ [0]) with Ok b => b | _ => false end.

(** A loop over children, NodeTree_Children and NodeTree_Next: the first for which [f] finds a place. *)
Definition first_kid (f : nat -> ntree -> option place) : nat -> list ntree -> option place :=
  fix go (n : nat) (l : list ntree) : option place :=
    match l with [] => None | t :: l => match f n t with Some p => Some p | None => go (S n) l end end.

(** NodeTree_ChildByName, nodetree.c 86-108. *)
Definition named (class : Z) (name : list Z) (t : ntree) : bool :=
  a_is (attrs_of t) class && match a_name (attrs_of t) with Some s => same s name | None => false end.
Fixpoint child_by_name (rec : bool) (class : Z) (name : list Z) (t : ntree) : option place :=
  match name with
  | [] => None
  | _ =>
      let (_, kids) := t in
      match first_kid (fun n k => if named class name k then Some [n] else None) 0 kids with
      | Some p => Some p
      | None =>
          if rec then
            (fix go (n : nat) (l : list ntree) : option place :=
               match l with
               | [] => None
               | k :: l => match child_by_name true class name k with Some p => Some (n :: p) | None => go (S n) l end
               end) 0%nat kids
          else None
      end
  end.
(** NodeTree_ChildByClass, nodetree.c 122-133. *)
Fixpoint child_by_class (class : Z) (t : ntree) : option place :=
  if a_is (attrs_of t) class then Some []
  else
    let (_, kids) := t in
    (fix go (n : nat) (l : list ntree) : option place :=
       match l with
       | [] => None
       | k :: l => match child_by_class class k with Some p => Some (n :: p) | None => go (S n) l end
       end) 0%nat kids.
(** FindChild, nodetree.c 135-151: a child without a name is looked into. *)
Fixpoint find_child (name : list Z) (t : ntree) : option place :=
  let (_, kids) := t in
  (fix go (n : nat) (l : list ntree) : option place :=
     match l with
     | [] => None
     | k :: l =>
         match a_name (attrs_of k) with
         | Some s => if same name s then Some [n] else go (S n) l
         | None => match find_child name k with Some p => Some (n :: p) | None => go (S n) l end
         end
     end) 0%nat kids.

(** The node at a place. *)
Fixpoint node_at (t : ntree) (p : place) : option ntree :=
  match p with [] => Some t | i :: p => match nth_error (kids_of t) i with Some k => node_at k p | None => None end end.

(** IsName, parser2.c 107-110; IsAlpha, IsDigit, str.c 816-817. *)
Definition is_name (c : Z) : bool :=
  (c =? 95) || ((97 <=? c) && (c <=? 122)) || ((65 <=? c) && (c <=? 90)) || ((48 <=? c) && (c <=? 57)).
Fixpoint name_run (e : list Z) : list Z * list Z :=
  match e with [] => ([], []) | c :: r => if is_name c then let (a, b) := name_run r in (c :: a, b) else ([], e) end.
(** ReadName, parser2.c 131-149: the token, cut to the 31 characters of Token[32] less the terminator,
    what follows, and whether there was a dot. *)
Definition read_name (e : list Z) : list Z * list Z * bool :=
  let (a, r) := name_run e in
  let tok := firstn 31 a in
  match r with 46 :: r => (tok, r, true) | _ => (tok, r, false) end.

Definition text_parent : list Z := [112; 97; 114; 101; 110; 116].
Section Find.
Context (root : ntree).
(** NodeSingleton of a name, kept abstract: a place. *)
Context (single : list Z -> option place).
(** Find->ClassId, and whether Find->DataDef is there. *)
Context (class : Z) (want_def : bool).

(** FindParam, parser2.c 151-208: the node and what is left of the expression, or nothing (the
    expression is then where it was). *)
Fixpoint find_param (fuel : nat) (base : option place) (e : list Z) : res (option (place * list Z)) :=
  match fuel with
  | O => Fuel
  | S fuel =>
      match read_name e with
      | (tok, r, dot) =>
          let b := match base with None => None | Some p => match node_at root p with Some t => Some (p, t) | None => None end end in
          let here :=
            match b with
            | Some (p, t) =>
                if dot then None
                else match tok with
                     | [] => if want_def && a_default (attrs_of t) then Some p else if a_is (attrs_of t) class then Some p else None
                     | _ => if want_def && a_def (attrs_of t) tok then Some p else None
                     end
            | None => None
            end in
          match here with
          | Some p => Ok (Some (p, r))
          | None =>
              if negb dot && match tok with [] => true | _ => false end then Ok None
              else
                match b with
                | None => match single tok with Some p => find_param fuel (Some p) r | None => Ok None end
                | Some (p, t) =>
                    if same tok text_parent then
                      match p with [] => Ok None | _ => find_param fuel (Some (removelast p)) r end
                    else match find_child tok t with
                         | Some q => find_param fuel (Some (p ++ q)) r
                         | None => Ok None
                         end
                end
          end
      end
  end.
End Find.
