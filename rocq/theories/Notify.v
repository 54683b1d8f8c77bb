(** Listeners of a node: corec/corec/node/node.c 435-545 (the data list of a node and its notification
    lists), 710-722 (end of CallDelete), 1396-1434 (EraseNode, Node_Release), 1712-1868.

    One node and one event identifier: the list of another identifier is, like any other dynamic data,
    an entry of the data list of the node.  Built with NDEBUG (assertions off).  Items and entries are
    cells of a heap; an address is never given out twice, so that every use of a freed cell is seen
    ([Bad]).  A callback is any list of actions, chosen anew for each call. *)
From Verif Require Import Base Tree.

(** nodenotify of one registration, node_internal.h 67-72 (Func, Referer, Next; 0 is NULL). *)
Record item := mkItem { i_func : Z; i_ref : Z; i_next : Z }.

(** The heap of items: MemHeap_Alloc and MemHeap_Free, node.c 463, 1757, 1806, 1856. *)
Definition heap := list (Z * item).
Fixpoint hget (h : heap) (a : Z) : option item :=
  match h with [] => None | (b, i) :: h => if b =? a then Some i else hget h a end.
Fixpoint hset (h : heap) (a : Z) (i : item) : heap :=
  match h with
  | [] => []
  | (b, j) :: h => if b =? a then (b, i) :: h else (b, j) :: hset h a i
  end.
Fixpoint hfree (h : heap) (a : Z) : heap :=
  match h with [] => [] | (b, j) :: h => if b =? a then hfree h a else (b, j) :: hfree h a end.

(** Top->Referer, node.c 1720: the item being called, NULL, Top or &Top->Referer. *)
Inductive mark := MNull | MItem (a : Z) | MTop | MNode.
Definition mark_eqb (x y : mark) : bool :=
  match x, y with
  | MNull, MNull | MTop, MTop | MNode, MNode => true
  | MItem a, MItem b => a =? b
  | _, _ => false
  end.

(** The node as seen by the listeners of one event: is there a notification list (the TYPE_NODENOTIFY
    data), is it in use (Top->Func), Top->Referer, Top->Next, the items, the next address, the calls
    made so far (Func, Referer; latest first), VMT is NULL (node.c 720), the node has been erased
    (node.c 1396-1409), the entries of the data list in front of the notification list (those behind
    it play no part), and the entries freed although nobody asked for it. *)
Record st := mkSt {
  s_data : bool; s_busy : bool; s_mark : mark; s_top : Z; s_heap : heap; s_new : Z;
  s_log : list (Z * Z); s_dead : bool; s_gone : bool; s_pre : list Z; s_lost : list Z }.

Definition set_mark (s : st) (m : mark) : st :=
  mkSt (s_data s) (s_busy s) m (s_top s) (s_heap s) (s_new s) (s_log s) (s_dead s) (s_gone s) (s_pre s) (s_lost s).
Definition set_list (s : st) (t : Z) (h : heap) : st :=
  mkSt (s_data s) (s_busy s) (s_mark s) t h (s_new s) (s_log s) (s_dead s) (s_gone s) (s_pre s) (s_lost s).
Definition set_busy (s : st) (b : bool) : st :=
  mkSt (s_data s) b (s_mark s) (s_top s) (s_heap s) (s_new s) (s_log s) (s_dead s) (s_gone s) (s_pre s) (s_lost s).
Definition add_log (s : st) (c : Z * Z) : st :=
  mkSt (s_data s) (s_busy s) (s_mark s) (s_top s) (s_heap s) (s_new s) (c :: s_log s) (s_dead s) (s_gone s) (s_pre s) (s_lost s).

(** The loop of DataFree, node.c 458-464. *)
Fixpoint free_chain (n : nat) (h : heap) (a : Z) : res heap :=
  match n with
  | O => Fuel
  | S n =>
      if a =? 0 then Ok h
      else do i <- opt_res (hget h a); free_chain n (hfree h a) (i_next i)
  end.

(** DataFree of a TYPE_NODENOTIFY, node.c 435-484: only marks the list when it is in use. *)
Definition data_free (s : st) (deleting : bool) : res st :=
  if s_busy s then Ok (set_mark s (if deleting then MNode else MTop))
  else
    do h <- free_chain (S (length (s_heap s))) (s_heap s) (s_top s);
    Ok (mkSt false false MNull 0 h (s_new s) (s_log s) (s_dead s) (s_gone s) [] (s_lost s)).

(** Node_RemoveData of the list, node.c 500-512. *)
Definition remove_data (s : st) : res st := if s_data s then data_free s false else Ok s.

(** Node_AddNotify, node.c 1785-1816; [m1] and [m2]: is there memory for Top and for the item. *)
Definition add_notify (s : st) (f r : Z) (m1 m2 : bool) : st :=
  if negb (s_data s) && negb m1 then s
  else
    let s0 := if s_data s then s
              else mkSt true false MNull 0 (s_heap s) (s_new s) (s_log s) (s_dead s) (s_gone s) [] (s_lost s) in
    if negb m2 then s0
    else mkSt true (s_busy s0) (s_mark s0) (s_new s0) ((s_new s0, mkItem f r (s_top s0)) :: s_heap s0)
              (s_new s0 + 1) (s_log s0) (s_dead s0) (s_gone s0) (s_pre s0) (s_lost s0).

(** The loop of Node_RemoveNotify, node.c 1843-1861; [prev] is the item whose Next is *Ptr, [None] for
    the local variable n. *)
Fixpoint rem_walk (n : nat) (s : st) (prev : option Z) (a f r : Z) : res st :=
  match n with
  | O => Fuel
  | S n =>
      if a =? 0 then Ok s
      else
        do i <- opt_res (hget (s_heap s) a);
        if (i_func i =? f) && (i_ref i =? r) then
          do s1 <- (if a =? s_top s then Ok (set_list s (i_next i) (s_heap s))
                    else match prev with
                         | None => Ok s
                         | Some p =>
                             do j <- opt_res (hget (s_heap s) p);
                             Ok (set_list s (s_top s) (hset (s_heap s) p (mkItem (i_func j) (i_ref j) (i_next i))))
                         end);
          Ok (if mark_eqb (s_mark s1) (MItem a) then set_mark s1 MNull
              else set_list s1 (s_top s1) (hfree (s_heap s1) a))
        else rem_walk n s (Some a) (i_next i) f r
  end.

(** Node_RemoveNotify, node.c 1830-1868. *)
Definition remove_notify (s : st) (f r : Z) : res st :=
  if s_data s then
    do s1 <- rem_walk (S (length (s_heap s))) s None (s_top s) f r;
    if (s_top s1 =? 0) && mark_eqb (s_mark s) (s_mark s1) then remove_data s1 else Ok s1
  else Ok s.

(** Node_AddData of another identifier, node.c 514-545: a new entry in front of all. *)
Definition add_other (s : st) : st :=
  mkSt (s_data s) (s_busy s) (s_mark s) (s_top s) (s_heap s) (s_new s + 1) (s_log s) (s_dead s) (s_gone s)
       (if s_data s then s_new s :: s_pre s else []) (s_lost s).

(** Node_RemoveData of another identifier, node.c 500-512, whose entry is [e]. *)
Definition remove_other (s : st) (e : Z) : st :=
  mkSt (s_data s) (s_busy s) (s_mark s) (s_top s) (s_heap s) (s_new s) (s_log s) (s_dead s) (s_gone s)
       (remove Z.eq_dec e (s_pre s)) (s_lost s).

(** The last Node_Release, node.c 1418-1434, 710-722, without the NODE_DELETING event (another
    list): every entry is freed, but a list in use, which is marked; VMT becomes NULL; the node is
    erased unless its list is in use. *)
Definition delete_node (s : st) : res st :=
  do s1 <- (if s_data s then data_free s true else Ok s);
  Ok (mkSt (s_data s1) (s_busy s1) (s_mark s1) (s_top s1) (s_heap s1) (s_new s1) (s_log s1) true
           (negb (s_busy s)) [] (s_lost s1)).

(** What a callback does to the node: register, unregister, notify the same event again, remove the
    list with Node_RemoveData, set or remove other data, release the last reference. *)
Inductive action :=
  AAdd (f r : Z) (m1 m2 : bool) | ARem (f r : Z) | ANotify | AClear | ASet | AUnset (e : Z) | ADelete.

(** One action of a callback.  Each follows the VMT (Node_Context, nodebase.h 571): [Null] once the
    node has been deleted.  A nested Node_Notify finds Top->Func set and returns, node.c 1723-1727. *)
Definition act (s : st) (a : action) : res st :=
  if s_dead s then Null
  else match a with
       | AAdd f r m1 m2 => Ok (add_notify s f r m1 m2)
       | ARem f r => remove_notify s f r
       | ANotify => Ok s
       | AClear => remove_data s
       | ASet => Ok (add_other s)
       | AUnset e => Ok (remove_other s e)
       | ADelete => delete_node s
       end.
Fixpoint acts (s : st) (l : list action) : res st :=
  match l with [] => Ok s | a :: l => do s <- act s a; acts s l end.

(** Node_GetDataStart of the list, node.c 486-498: the address of the Next field of the entry in front
    of it, [None] for the head Node->Data. *)
Definition data_start (s : st) : option Z :=
  match rev (s_pre s) with [] => None | e :: _ => Some e end.

(** DataFree of the entry that *i points to, node.c 1763-1771, at the end of the notification. *)
Definition free_at (s : st) (i : option Z) (deleting : bool) : res st :=
  match i with
  | Some e => if in_dec Z.eq_dec e (s_pre s) then data_free s deleting else Bad
  | None =>
      match s_pre s with
      | [] => data_free s deleting
      | e :: l =>
          Ok (mkSt (s_data s) (s_busy s) (s_mark s) (s_top s) (s_heap s) (s_new s) (s_log s) (s_dead s)
                   (s_gone s) l (e :: s_lost s))
      end
  end.

Section Notify.
(** The callbacks: what the [n]th call does, given its callback and argument. *)
Context (scr : nat -> Z * Z -> list action).

(** The loop of Node_NotifyInternal, node.c 1736-1761; the results are i, PostDeleteNode and
    PosDeleteList. *)
Fixpoint notify_loop (n : nat) (s : st) (a : Z) (i : option Z) (pdn pdl : bool)
  : res (st * option Z * bool * bool) :=
  match n with
  | O => Fuel
  | S n =>
      if a =? 0 then Ok (s, i, pdn, pdl)
      else
        do it <- opt_res (hget (s_heap s) a);
        do s1 <- acts (add_log (set_mark s (MItem a)) (i_func it, i_ref it)) (scr (length (s_log s)) (i_func it, i_ref it));
        do j <- opt_res (hget (s_heap s1) a);
        match s_mark s1 with
        | MNode => notify_loop n s1 (i_next j) i true pdl
        | MTop => notify_loop n s1 (i_next j) i pdn true
        | MNull => notify_loop n (set_list s1 (s_top s1) (hfree (s_heap s1) a)) (i_next j) (data_start s1) pdn pdl
        | MItem _ => notify_loop n s1 (i_next j) i pdn pdl
        end
  end.

(** Node_NotifyInternal on a list not in use, node.c 1712-1772; [del] is Id==NODE_DELETING. *)
Definition notify_internal (del : bool) (s : st) : res st :=
  do (s1, i, pdn, pdl) <-
    notify_loop (S (length (s_heap s))) (set_busy s true) (s_top s) (data_start s) false false;
  let s2 := set_mark s1 MNull in
  do s3 <- (if pdn then
              do s3 <- free_at s2 i true;
              Ok (mkSt (s_data s3) (s_busy s3) (s_mark s3) (s_top s3) (s_heap s3) (s_new s3) (s_log s3)
                       (s_dead s3) true (s_pre s3) (s_lost s3))
            else if del || (s_top s2 =? 0) || pdl then free_at s2 i false
            else Ok s2);
  Ok (set_busy s3 false).

(** Node_Notify, node.c 1774-1783 (from outside the callbacks): its result and the state. *)
Definition notify (del : bool) (s : st) : res (bool * st) :=
  if s_data s then do s1 <- notify_internal del s; Ok (true, s1) else Ok (false, s).

(** A use of the node from outside the callbacks. *)
Inductive op := OAdd (f r : Z) (m1 m2 : bool) | ORem (f r : Z) | ONotify | OClear | OSet | OUnset (e : Z).
Definition step (del : bool) (s : st) (o : op) : res st :=
  if s_dead s then Null
  else match o with
       | OAdd f r m1 m2 => Ok (add_notify s f r m1 m2)
       | ORem f r => remove_notify s f r
       | ONotify => do (_, s1) <- notify del s; Ok s1
       | OClear => remove_data s
       | OSet => Ok (add_other s)
       | OUnset e => Ok (remove_other s e)
       end.
Fixpoint steps (del : bool) (s : st) (l : list op) : res st :=
  match l with [] => Ok s | o :: l => do s <- step del s o; steps del s l end.
End Notify.

(** A new node: memset of NodeCreateFromClass, node.c 1262-1264. *)
Definition st0 : st := mkSt false false MNull 0 [] 1 [] false false [] [].
