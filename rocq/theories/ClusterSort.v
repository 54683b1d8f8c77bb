(** Sorting the children of a Cluster: libmatroska2/matroskamain.c 594-631.  Built with NDEBUG (the
    comparison of unsupported children asserts otherwise). *)
From Verif Require Import Base Arr NodeTree.

(** What the comparison sees of a child: its type, and for a block the timestamp (mkv_timestamp_t) and
    the track number (uint16_t); a BlockGroup may lack its Block. *)
Inductive kid := KidTime | KidSimple (t n : Z) | KidGroup (b : option (Z * Z)) | KidOther.

(** MATROSKA_BlockCmp, matroskamain.c 594-601.  Signed overflow wraps. *)
Definition block_cmp (ta na tb nb : Z) : Z := if negb (ta =? tb) then s32 (Z.quot (s64 (ta - tb)) 100000) else nb - na.

(** ClusterEltCmp, matroskamain.c 603-626.  The block of [b] inside a BlockGroup is looked for when
    [a] is a BlockGroup. *)
Definition is_group (k : kid) : bool := match k with KidGroup _ => true | _ => false end.
Definition is_time (k : kid) : bool := match k with KidTime => true | _ => false end.
Definition inner_block (k : kid) : option (Z * Z) := match k with KidGroup b => b | _ => None end.
Definition cluster_cmp (a b : kid) : Z :=
  if is_time a then -1
  else if is_time b then 1
  else
    let ba := match a with KidSimple t n => Some (t, n) | _ => if is_group a then inner_block a else None end in
    let bb := match b with KidSimple t n => Some (t, n) | _ => if is_group a then inner_block b else None end in
    match ba, bb with
    | Some (ta, na), Some (tb, nb) => block_cmp ta na tb nb
    | _, _ => 0
    end.

(** MATROSKA_ClusterSort, matroskamain.c 628-631, on the node [m]; [look] gives the children. *)
Definition cluster_sort (fuel : nat) (h : heap) (look : Z -> kid) (m : Z) : option heap :=
  master_sort fuel h (fun x y => cluster_cmp (look x) (look y)) m.
