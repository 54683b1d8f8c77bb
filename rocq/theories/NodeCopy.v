(** The copying of nodes: corec/corec/node/node.c 2724-2801 (NodeDup_Replace, CopyData, Node_Copy).

    Simplified: the properties of a node do not depend on one another (how one property is read and
    set is in Props.v); what a property holds is plain bytes, a pointer to a node or a pin; the copying of the
    nodes an expression names (ExprDup) is a function [edup] on its bytes; a node is not copied onto itself. *)
From Verif Require Import Base Tree NodeData.

(** nodebase.h 28, 43, 45, 69, 74. *)
Definition T_NODE : Z := 10.
Definition T_PIN : Z := 25.
Definition T_EXPR : Z := 27.
Definition F_RDONLY : Z := 512.
Definition F_NOSAVE : Z := 16384.

(** What a property holds. *)
Inductive pval := VPlain (d : list Z) | VNode (k : Z) | VPin (k pin : Z).

(** A node: its class, its list of data (identifier, type and bytes of each entry; node.c 514-545), what its
    properties read as ([None]: Node_Get fails). *)
Record cnode := mkCn { cn_class : Z; cn_data : list (Z * Z * list Z); cn_vals : Z -> option pval }.

(** An entry of a table of a class, 2746-2752: the type it gives for the source, if any. *)
Record param := mkParam { q_id : Z; q_type : cnode -> option Z }.
(** The tables of a class, the class itself first and its parents after (2736-2737 goes to the parents first). *)
Definition tables := list (list param).

(** NodeDup_Replace, 2724-2735: pairs of an original and its duplicate. *)
Fixpoint dup_replace (dup : list (Z * Z)) (p : Z) : Z :=
  match dup with [] => p | (o, d) :: dup => if o =? p then d else dup_replace dup p end.

(** 2765-2769. *)
Definition retype (dup : list (Z * Z)) (ty : Z) (v : pval) : pval :=
  match v with
  | VPin k i => if ty =? T_PIN then VPin (dup_replace dup k) i else v
  | VNode k => if ty =? T_NODE then VNode (dup_replace dup k) else v
  | VPlain d => v
  end.

(** Node_Set, 2771: a node may refuse a value, and its answer is not looked at. *)
Definition set_val (accepts : Z -> pval -> bool) (p : cnode) (id : Z) (v : pval) : cnode :=
  if accepts id v then mkCn (cn_class p) (cn_data p) (fun i => if i =? id then Some v else cn_vals p i) else p.

Section NodeCopy.
(** META_PARAM_SIZE of an identifier. *)
Context (meta_size : Z -> Z).

(** One entry, 2744-2773.  [Bad]: more is read than the buffer of MAXDATA bytes holds. *)
Definition copy_param (accepts : Z -> pval -> bool) (dup : list (Z * Z)) (src : cnode) (m : param) (p : cnode) : res cnode :=
  match q_type m src with
  | None => Ok p
  | Some t =>
      if (Z.land t (Z.lor F_RDONLY F_NOSAVE) =? 0) && negb (Z.land t 63 =? 0) then
        let ty := Z.land t 63 in
        if ty =? T_EXPR then Ok p
        else do n <- opt_res (max_data_size meta_size (q_id m) ty);
             if n =? 0 then Ok p
             else match cn_vals src (q_id m) with
                  | None => Ok p
                  | Some v => if MAXDATA <? n then Bad else Ok (set_val accepts p (q_id m) (retype dup ty v))
                  end
      else Ok p
  end.

(** The entries of one class, 2741-2775. *)
Fixpoint copy_table (accepts : Z -> pval -> bool) (dup : list (Z * Z)) (src : cnode) (l : list param) (p : cnode) : res cnode :=
  match l with [] => Ok p | m :: l => do p <- copy_param accepts dup src m p; copy_table accepts dup src l p end.

(** CopyData, 2734-2777. *)
Fixpoint copy_data (accepts : Z -> pval -> bool) (dup : list (Z * Z)) (src : cnode) (c : tables) (p : cnode) : res cnode :=
  match c with [] => Ok p | l :: c => do p <- copy_data accepts dup src c p; copy_table accepts dup src l p end.

(** 2793: the kinds of data that are expressions. *)
Definition is_expr (ty : Z) : bool := (ty =? T_EXPRSTRING) || (ty =? T_EXPRPARAM) || (ty =? T_EXPR).

(** 2790-2798: each is put in front of the data of the copy; [mem] says which of them there is memory for. *)
Fixpoint copy_exprs (edup : list Z -> list Z) (mem : nat -> bool) (k : nat) (l : list (Z * Z * list Z)) (d : list (Z * Z * list Z)) : list (Z * Z * list Z) :=
  match l with
  | [] => d
  | (id, t, b) :: l =>
      if is_expr (Z.land t 63)
      then copy_exprs edup mem (S k) l (if mem k then (id, Z.land t 63, if Z.land t 63 =? T_EXPR then edup b else b) :: d else d)
      else copy_exprs edup mem k l d
  end.

(** Node_Copy, 2779-2801. *)
Definition node_copy (c : tables) (accepts : Z -> pval -> bool) (edup : list Z -> list Z) (mem : nat -> bool) (dup : list (Z * Z)) (p src : cnode) : res cnode :=
  if cn_class p =? cn_class src
  then copy_data accepts dup src c (mkCn (cn_class p) (copy_exprs edup mem 0 (cn_data src) (cn_data p)) (cn_vals p))
  else Ok p.
End NodeCopy.
