(** Blocks that cannot be read: mkclean/mkclean.c 245-279 (ReadClusterData), over the nodes of Life.v.

    [kind] is the type of an element, [readable] whether MATROSKA_BlockReadData gives ERR_NONE for a block (Block.v has what it
    reads); the data read is not in this model. *)
From Verif Require Import Base Tree Life.

Inductive kind := KGroup | KBlock | KSimple | KOther.
Definition is_block (k : kind) : bool := match k with KBlock => true | _ => false end.
(** EBML_MasterNext, a child's next in the list of its parent. *)
Fixpoint next_in (c : Z) (l : list Z) : Z := match l with [] => 0 | x :: l => if x =? c then hd 0 l else next_in c l end.

Section Read.
Context (kd : Z -> kind) (readable : Z -> bool).
(** 254-276: the element is deleted when its block cannot be read; a group has the first of its blocks (258-267). *)
Definition unread (h : heap) (b : Z) : bool :=
  match kd b with
  | KGroup => match h b with
              | Some x => match find (fun c => is_block (kd c)) (o_kids x) with Some g => negb (readable g) | None => false end
              | None => false
              end
  | KSimple => negb (readable b)
  | _ => false
  end.
(** 251-277. *)
Fixpoint read_loop (fuel : nat) (s : st) (cl b : Z) (changed : bool) : res (st * bool) :=
  match fuel with
  | O => Fuel
  | S fuel =>
      if b =? 0 then Ok (s, changed)
      else
        do y <- at_ (s_heap s) b;
        do x <- at_ (s_heap s) (o_par y);
        let nx := next_in b (o_kids x) in
        if unread (s_heap s) b then do s <- exec s (DeleteChild b); read_loop fuel s cl nx true
        else read_loop fuel s cl nx changed
  end.
Definition read_cluster (s : st) (cl : Z) : res (st * bool) :=
  do x <- at_ (s_heap s) cl; read_loop (S (length (o_kids x))) s cl (hd 0 (o_kids x)) false.
End Read.
