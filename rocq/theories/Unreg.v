(** How a module leaves: corec/corec/node/node.c 374-401 (UnRegisterModule), 938-959 (UnInitClass).

    Simplified: classes are numbered as they stand in NodeClass; what a deletion function or the end of a singleton does is not
    looked at (they change neither classes nor singletons); NodeClass_IsPartOf(Class,NODEMODULE_CLASS) is a property of the class. *)
From Verif Require Import Base Tree.

(** What of a class does not change: ParentClass, Module, whether it is a class of modules. *)
Record cls := mkCls { k_parent : option nat; k_module : nat; k_is_module : bool }.
(** State>=CLASS_INITED and Meta!=NULL of each class, and the singletons with the modules of their classes. *)
Record ctx := mkCtx { x_inited : nat -> bool; x_meta : nat -> bool; x_singles : list (nat * nat) }.

Definition off (f : nat -> bool) (k : nat) : nat -> bool := fun i => if (i =? k)%nat then false else f i.

Section Unreg.
Context (table : list cls).
Definition cl (k : nat) : cls := nth k table (mkCls None 0 false).
Definition is_child (k i : nat) : bool := match k_parent (cl i) with Some j => (j =? k)%nat | None => false end.

(** UnInitClass, 938-959: the classes whose META_CLASS_VMT_DELETE functions are called, in order.  [Bad]: the table of a class that
    has none is read (951).  [incl]: IncludingModule. *)
Fixpoint uninit (fuel : nat) (incl : bool) (meta : nat -> bool) (k : nat) (st : nat -> bool) : res ((nat -> bool) * list nat) :=
  match fuel with
  | O => Fuel
  | S fuel =>
      if negb incl && k_is_module (cl k) then Ok (st, [])
      else
        do r <- (fix children (l : list nat) (st : nat -> bool) : res ((nat -> bool) * list nat) :=
                   match l with
                   | [] => Ok (st, [])
                   | i :: l =>
                       if st i && is_child k i then
                         do r <- uninit fuel incl meta i st;
                         do q <- children l (Datatypes.fst r);
                         Ok (Datatypes.fst q, Datatypes.snd r ++ Datatypes.snd q)
                       else children l st
                   end) (seq 0 (length table)) st;
        if negb (meta k) then Bad
        else Ok (off (Datatypes.fst r) k, Datatypes.snd r ++ [k])
  end.

(** The singletons, 380-389: the first of the module is taken out and released, and the search begins again. *)
Fixpoint first_of (m : nat) (l : list (nat * nat)) : option (nat * list (nat * nat)) :=
  match l with
  | [] => None
  | (n, x) :: l => if (x =? m)%nat then Some (n, l) else match first_of m l with Some (k, r) => Some (k, (n, x) :: r) | None => None end
  end.
Fixpoint release (fuel : nat) (m : nat) (l : list (nat * nat)) : res (list (nat * nat) * list nat) :=
  match first_of m l with
  | None => Ok (l, [])
  | Some (n, l) => match fuel with O => Fuel | S fuel => do r <- release fuel m l; Ok (Datatypes.fst r, n :: Datatypes.snd r) end
  end.

(** The classes, 394-400. *)
Fixpoint leave (incl : bool) (m : nat) (l : list nat) (x : ctx) : res (ctx * list nat) :=
  match l with
  | [] => Ok (x, [])
  | i :: l =>
      if x_meta x i && (k_module (cl i) =? m)%nat then
        do r <- (if x_inited x i then uninit (S (length table)) incl (x_meta x) i (x_inited x) else Ok (x_inited x, []));
        do q <- leave incl m l (mkCtx (Datatypes.fst r) (off (x_meta x) i) (x_singles x));
        Ok (Datatypes.fst q, Datatypes.snd r ++ Datatypes.snd q)
      else leave incl m l x
  end.
(** UnRegisterModule, 374-401: the singletons released, and the deletion functions called. *)
Definition unregister (incl : bool) (m : nat) (x : ctx) : res (ctx * (list nat * list nat)) :=
  do s <- release (length (x_singles x)) m (x_singles x);
  do r <- leave incl m (seq 0 (length table)) (mkCtx (x_inited x) (x_meta x) (Datatypes.fst s));
  Ok (Datatypes.fst r, (Datatypes.snd s, Datatypes.snd r)).
End Unreg.
