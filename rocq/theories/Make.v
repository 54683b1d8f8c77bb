(** Nodes made and let go: the creation functions of a class and its parents, what is undone when one of
    them refuses, and the count of the users of modules; corec/corec/node/node.c 425-433 (UnlockModules),
    632-722 (CallDelete), 724-766 (LockModules), 780-833 (CallCreate, NodeSize), 1236-1291
    (NodeCreateFromClass), 1397-1434 (EraseNode, Node_Release).  Built with NDEBUG.

    Modules are loaded beforehand: whether a class is there for use after CheckLoadModule is a field of the
    class.  The parameters of tables are in Props.v, references between nodes in Life.v, notifications in
    Notify.v: here no notification is under way when a node goes.  A class that is its own memory
    (CFLAG_OWN_MEMORY) and the size of the class of modules are left out. *)
From Verif Require Import Base.

(** Entries of a class table: META_CLASS_CREATE, META_CLASS_DELETE. *)
Inductive cmeta := CCreate (f : Z) | CDelete (f : Z).
(** A nodeclass: its module, State>=CLASS_INITED, CFLAG_ABSTRACT, META_CLASS_SIZE (0 without), table. *)
Record cls := Cls { c_mod : Z; c_ready : bool; c_abstract : bool; c_size : Z; c_metas : list cmeta }.
(** What the functions of classes are called for. *)
Inductive event := EMade (f : Z) | EFailed (f : Z) | EDeleted (f : Z).

(** RefCount of modules. *)
Definition counts := Z -> Z.
Definition plus (m : counts) (k d : Z) : counts := fun j => if j =? k then m j + d else m j.

(** A class and its parents, nearest first; [rooted] tells that the last has no ParentId. *)
(** UnlockModules, 425-433. *)
Fixpoint unlock (c : list cls) (m : counts) : counts :=
  match c with [] => m | c :: r => unlock r (plus m (c_mod c) (-1)) end.
(** LockModules, 724-761; [false] is NULL. *)
Fixpoint lock (rooted : bool) (c : list cls) (m : counts) : bool * counts :=
  match c with
  | [] => (false, m)
  | c :: r =>
      let (ok, m) := match r with [] => (rooted, m) | _ => lock rooted r m end in
      if negb ok then (false, m)
      else
        let m := plus m (c_mod c) 1 in
        if c_ready c then (true, m) else (false, unlock (c :: r) m)
  end.

(** The calls of CallDelete, 632-722. *)
Fixpoint deletes (l : list cmeta) : list event :=
  match l with [] => [] | CDelete f :: l => EDeleted f :: deletes l | _ :: l => deletes l end.
Fixpoint call_delete (c : list cls) (log : list event) : list event :=
  match c with [] => log | c :: r => call_delete r (log ++ deletes (c_metas c)) end.
(** CallCreate, 780-813.  [works] is what a creation function answers, after the calls made so far. *)
Section Create.
Context (works : list event -> Z -> bool).
Fixpoint create_table (parents : list cls) (l : list cmeta) (log : list event) : bool * list event :=
  match l with
  | [] => (true, log)
  | CCreate f :: l =>
      if works log f then create_table parents l (log ++ [EMade f])
      else (false, call_delete parents (log ++ [EFailed f]))
  | _ :: l => create_table parents l log
  end.
Fixpoint call_create (rooted : bool) (c : list cls) (log : list event) : bool * list event :=
  match c with
  | [] => (true, log)
  | c :: r =>
      match r, rooted with
      | [], false => (false, log)
      | _, _ =>
          let (ok, log) := call_create rooted r log in
          if negb ok then (false, log) else create_table r (c_metas c) log
      end
  end.
End Create.
(** NodeSize, 815-833. *)
Fixpoint node_size (c : list cls) : Z :=
  match c with [] => 0 | c :: r => if c_size c =? 0 then node_size r else c_size c end.

(** The program: modules in use, nodes that live with their classes, blocks of the heap in use, calls of
    class functions, the oldest first. *)
Record world := World { w_mods : counts; w_nodes : nat -> option (list cls); w_made : nat; w_blocks : Z; w_log : list event }.
Definition w_start : world := World (fun _ => 1) (fun _ => None) 0 0 [].
(** What the circumstances of a creation are: is there memory, is the node to be noted as a singleton and
    does this succeed, what the creation functions answer. *)
Record fate := Fate { f_memory : bool; f_single : bool; f_noted : bool; f_works : list event -> Z -> bool }.

(** NodeCreateFromClass, 1236-1291, of a class that is no singleton already there: the node. *)
Definition make (w : world) (rooted : bool) (c : list cls) (x : fate) : world * option nat :=
  match c with
  | [] => (w, None)
  | k :: _ =>
      if c_abstract k then (w, None)
      else
        let (ok, m) := lock rooted c (w_mods w) in
        if negb ok then (World m (w_nodes w) (w_made w) (w_blocks w) (w_log w), None)
        else if node_size c =? 0 then (World (unlock c m) (w_nodes w) (w_made w) (w_blocks w) (w_log w), None)
        else if negb (f_memory x) then (World m (w_nodes w) (w_made w) (w_blocks w) (w_log w), None)
        else if f_single x && negb (f_noted x) then
          (World (unlock c m) (w_nodes w) (w_made w) (w_blocks w + 1) (w_log w), None)
        else
          let (ok, log) := call_create (f_works x) rooted c (w_log w) in
          if ok then (World m (fun j => if Nat.eqb j (w_made w) then Some c else w_nodes w j) (S (w_made w)) (w_blocks w + 1) log, Some (w_made w))
          else (World (unlock c m) (w_nodes w) (w_made w) (w_blocks w) log, None)
  end.
(** The last Node_Release of a node, 1418-1434, with EraseNode, 1397-1409. *)
Definition let_go (w : world) (k : nat) : world :=
  match w_nodes w k with
  | None => w
  | Some c => World (unlock c (w_mods w)) (fun j => if Nat.eqb j k then None else w_nodes w j) (w_made w) (w_blocks w - 1) (call_delete c (w_log w))
  end.
Inductive mcall := KMake (rooted : bool) (c : list cls) (x : fate) | KGo (k : nat).
Definition mstep (w : world) (o : mcall) : world :=
  match o with KMake r c x => fst (make w r c x) | KGo k => let_go w k end.
