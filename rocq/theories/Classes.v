(** corec: registration of node classes, their methods and their enumeration: corec/corec/node/node.c
    130-310, 937-956, 1135-1233, 1293-1388, 1456-1506, 1648-1710; node_internal.h 11-50. *)
From Verif Require Import Base Arr Ebml Tree.

Definition CLASS_FAILED : Z := -2.
Definition CLASS_REGISTERED : Z := 0.
Definition CLASS_INITED : Z := 1.
(** sizeof(node_vmt), in pointers: the context, the class ID and seven methods (node.h). *)
Definition DEFAULT_VMT : Z := 9.
Definition CFLAG_SINGLETON : Z := 1.
Definition CFLAG_ABSTRACT : Z := 8.
Definition CFLAG_OWN_MEMORY : Z := 32.

(** What the table of a class tells: its ID, the ID of its parent, the size of its method table
    ([DEFAULT_VMT] when not given), its methods (place and function, in the order of the table), flags,
    priority (less PRI_DEFAULT), and whether its META_CLASS_VMT_CREATE functions succeed.
    Simplifications: the ID is not 0 (1367-1368); META_CLASS_META is not used; places and sizes are counted
    in pointers; VMT_CREATE functions do not change the table. *)
Record cdef := mkDef { d_id : Z; d_parent : Z; d_vsize : Z; d_vmt : list (Z * Z); d_flags : Z; d_pri : Z; d_create : bool }.
(** nodeclass, node_internal.h 31-48.  A pointer to a class is written as its ID: all classes are of the main
    module, so that no two have the same. *)
Record class := mkK { k_def : option cdef; k_pid : Z; k_parent : option Z; k_state : Z; k_flags : Z; k_pri : Z; k_vsize : Z; k_vmt : list Z }.
(** The array of classes, their memory, and NodeCache: false when the class it points to was moved. *)
Record reg := mkReg { r_arr : list Z; r_mem : Z -> option class; r_cache : option (Z * bool) }.
Definition empty_reg : reg := mkReg [] (fun _ => None) None.

Definition set_mem (r : reg) (id : Z) (c : class) : reg := mkReg (r_arr r) (fun x => if x =? id then Some c else r_mem r x) (r_cache r).
Definition set_cache (r : reg) (c : option (Z * bool)) : reg := mkReg (r_arr r) (r_mem r) c.
Definition deref (r : reg) (id : Z) : res class := match r_mem r id with Some c => Ok c | None => Bad end.

(** NodeContext_FindClass, 228-277.  Simplification: the search among classes of the same ID in other
    modules (248-262) finds none. *)
Definition search (r : reg) (id : Z) : res (option Z * reg) :=
  match array_find (fun y => y - id) (r_arr r) with
  | None => Bad
  | Some (pos, true) =>
      do x <- opt_res (aget (r_arr r) pos); do c <- deref r x;
      let p := if k_state c <? CLASS_REGISTERED then None else Some x in
      Ok (p, set_cache r (match p with Some x => Some (x, true) | None => None end))
  | Some (_, false) => Ok (None, r)
  end.
Definition find_class (r : reg) (id : Z) : res (option Z * reg) :=
  if id =? 0 then Ok (None, r)
  else
    match r_cache r with
    | Some (_, false) => Bad
    | Some (c, true) => if c =? id then Ok (Some c, r) else search r id
    | None => search r id
    end.
(** FindModuleClass, 279-286, for the main module. *)
Fixpoint find_module_class (r : reg) (l : list Z) (id : Z) : res (option Z) :=
  match l with
  | [] => Ok None
  | x :: l => if x =? id then do c <- deref r x; if CLASS_REGISTERED <=? k_state c then Ok (Some x) else find_module_class r l id else find_module_class r l id
  end.
(** NodeContext_FindClassEx, 288-300. *)
Definition find_class_ex (r : reg) (id : Z) : res (option Z * reg) :=
  if id =? 0 then Ok (None, r)
  else do c <- find_module_class r (r_arr r) id; match c with Some x => Ok (Some x, r) | None => find_class r id end.

(** NodeClassResize, 937-956: the class moves; the pointers of the array and of its child classes are
    corrected, NodeCache is not. *)
Definition resize (r : reg) (id : Z) (n : Z) : res reg :=
  do c <- deref r id;
  let c := mkK (k_def c) (k_pid c) (k_parent c) (k_state c) (k_flags c) (k_pri c) n (firstn (Z.to_nat n) (k_vmt c) ++ repeat 0 (Z.to_nat (n - zlen (k_vmt c)))) in
  let r := set_mem r id c in
  Ok (match r_cache r with Some (x, _) => if x =? id then set_cache r (Some (x, false)) else r | None => r end).

(** Writing the methods of the table, 1174-1181 with MetaConst: [None] outside of it. *)
Fixpoint write_vmt (v : list Z) (l : list (Z * Z)) : option (list Z) :=
  match l with
  | [] => Some v
  | (s, f) :: l => match aset v s f with Some v => write_vmt v l | None => None end
  end.

Definition is_single (d : cdef) : bool := Z.land (d_flags d) (Z.lor CFLAG_SINGLETON CFLAG_OWN_MEMORY) =? CFLAG_SINGLETON.
Section Init.
(** Whether the singleton of a class can be created, 1208.  Simplification: creating it registers and looks up
    no other class. *)
Context (mk : Z -> bool).

(** The part of InitClass before the child classes, 1141-1213: the registry, and whether the class is ready.
    Simplification: the tables of properties (1165) are modelled in Props.v. *)
Definition init_self (r : reg) (id : Z) (c : class) (d : cdef) (parent : option class) : res (reg * bool) :=
  do r <- (match parent with
           | Some p => if (k_vsize c =? DEFAULT_VMT) && (DEFAULT_VMT <? k_vsize p) then resize r id (k_vsize p) else Ok r
           | None => Ok r
           end);
  do c <- deref r id;
  let v := match parent with
           | Some p => let n := Z.to_nat (Z.min (k_vsize c) (k_vsize p)) in firstn 2 (k_vmt c) ++ skipn 2 (firstn n (k_vmt p)) ++ skipn n (k_vmt c)
           | None => k_vmt c
           end in
  do v <- opt_res (write_vmt v (d_vmt d));
  let ok := d_create d in
  let r := if ok then r else set_cache r None in
  let ok2 := ok && (negb (is_single d) || mk id) in
  let r := if ok && negb ok2 then set_cache r None else r in
  Ok (set_mem r id (mkK (k_def c) (k_pid c) (k_parent c) (if ok2 then CLASS_INITED else CLASS_FAILED) (d_flags d) (d_pri d) (k_vsize c) v), ok2).

(** InitClass, 1135-1224. *)
Fixpoint init_class (fuel : nat) (r : reg) (id : Z) : res reg :=
  match fuel with
  | O => Fuel
  | S fuel =>
      do c <- deref r id;
      match k_def c with
      | None => Ok r
      | Some d =>
          if negb (k_state c =? CLASS_REGISTERED) then Ok r
          else
            do p <- (match k_parent c with None => Ok None | Some p => do p <- deref r p; Ok (Some p) end);
            if (k_pid c =? 0) || (match p with Some p => CLASS_INITED <=? k_state p | None => false end) then
              do ri <- init_self r id c d p;
              if snd ri then
                (fix each (l : list Z) (r : reg) : res reg :=
                   match l with
                   | [] => Ok r
                   | x :: l =>
                       do k <- deref r x;
                       do r <- (match k_parent k with Some p => if p =? id then init_class fuel r x else Ok r | None => Ok r end);
                       each l r
                   end) (r_arr (fst ri)) (fst ri)
              else Ok (fst ri)
            else Ok r
      end
  end.

(** "update child classes", 1326-1329: the test of the state of the old parent does not matter within one
    module. *)
Fixpoint link_children (l : list Z) (id : Z) (r : reg) : res reg :=
  match l with
  | [] => Ok r
  | x :: l =>
      do k <- deref r x;
      link_children l id (if k_pid k =? id then set_mem r x (mkK (k_def k) (k_pid k) (Some id) (k_state k) (k_flags k) (k_pri k) (k_vsize k) (k_vmt k)) else r)
  end.
(** NodeContext_CreateClass, 1293-1355.  Simplification: a class that is there has a Meta, as no module is
    unloaded (1338-1347). *)
Definition create_class (r : reg) (id vsize : Z) : res (bool * reg) :=
  let r := set_cache r None in
  if existsb (Z.eqb id) (r_arr r) then Ok (false, r)
  else
    let c := mkK None 0 None 0 0 0 vsize (repeat 0 (Z.to_nat vsize)) in
    do a <- opt_res (array_add Z.sub true (r_arr r) id);
    let r := set_mem (mkReg (fst a) (r_mem r) None) id c in
    do r <- link_children (r_arr r) id r;
    Ok (true, r).
(** NodeRegisterClassEx, 1357-1388, for one class. *)
Definition register (r : reg) (d : cdef) : res reg :=
  do pr <- find_class_ex r (d_parent d);
  let '(parent, r) := pr in
  do vsize <- (if d_vsize d =? DEFAULT_VMT then match parent with Some p => do p <- deref r p; Ok (k_vsize p) | None => Ok DEFAULT_VMT end else Ok (d_vsize d));
  do cr <- create_class r (d_id d) vsize;
  let '(ok, r) := cr in
  if ok then
    do c <- deref r (d_id d);
    let r := set_mem r (d_id d) (mkK (Some d) (d_parent d) parent (k_state c) (k_flags c) (k_pri c) (k_vsize c) (k_vmt c)) in
    init_class (S (length (r_arr r))) r (d_id d)
  else Ok r.
Fixpoint register_all (r : reg) (l : list cdef) : res reg :=
  match l with [] => Ok r | d :: l => do r <- register r d; register_all r l end.
End Init.

(** NodeClass_IsPartOf, 136-142; the loop ends when [fuel] is enough. *)
Fixpoint is_part_of (fuel : nat) (r : reg) (p : option Z) (x : Z) : res bool :=
  match p with
  | None => Ok false
  | Some id => match fuel with O => Fuel | S fuel => if id =? x then Ok true else do c <- deref r id; is_part_of fuel r (k_parent c) x end
  end.
(** NodeIsClass, 1503-1506. *)
Definition node_is_class (fuel : nat) (r : reg) (id x : Z) : res bool := do c <- find_class r id; is_part_of fuel (snd c) (fst c) x.

(** ** Enumeration, 1648-1710: [rate] is the filter (1 for all without one). *)
Record rated := mkRated { t_id : Z; t_pri : Z; t_rate : Z }.
(** CmpRatedClassPri, 200-207, with CmpClassPri, 184-193: best rating, then highest priority, then lowest ID. *)
Definition cmp_rated (a b : rated) : Z :=
  if t_rate b <? t_rate a then -1 else if t_rate a <? t_rate b then 1
  else if t_pri b <? t_pri a then -1 else if t_pri a <? t_pri b then 1
  else if t_id b <? t_id a then 1 else if t_id a <? t_id b then -1 else 0.
(** 1667-1699: the classes that count, in the order of the array. *)
Fixpoint candidates (fuel : nat) (rate : Z -> Z) (x : Z) (r : reg) (l : list Z) : res (list rated) :=
  match l with
  | [] => Ok []
  | id :: l =>
      do c <- deref r id;
      do rest <- candidates fuel rate x r l;
      if (CLASS_REGISTERED <=? k_state c) && (Z.land (k_flags c) CFLAG_ABSTRACT =? 0) then
        do b <- is_part_of fuel r (Some id) x;
        Ok (if b && (0 <? rate id) then mkRated id (k_pri c) (rate id) :: rest else rest)
      else Ok rest
  end.
(** 1680-1687: the best one, without a list. *)
Definition best_step (best : Z * Z * Z) (t : rated) : Z * Z * Z :=
  let '(id, pri, rt) := best in if (rt <? t_rate t) || ((rt =? t_rate t) && (pri <? t_pri t)) then (t_id t, t_pri t, t_rate t) else best.
Definition enum_best (fuel : nat) (rate : Z -> Z) (x : Z) (r : reg) : res Z :=
  do l <- candidates fuel rate x r (r_arr r); let '(id, _, _) := fold_left best_step l (0, 0, 0) in Ok id.
Definition enum_list (fuel : nat) (rate : Z -> Z) (x : Z) (r : reg) : res (list Z) :=
  do l <- candidates fuel rate x r (r_arr r); do l <- opt_res (array_sort cmp_rated false false l); Ok (map t_id l).
