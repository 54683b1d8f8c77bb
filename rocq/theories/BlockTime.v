(** Timestamps of blocks and clusters: libmatroska2/matroskamain.c 97-142, 594-735, 812-833, 1361-1395,
    1593-1604, corec/corec/helper.h 47-52.  Built with CONFIG_EBML_WRITING and NDEBUG.

    Modelled for tracks whose TrackTimestampScale is 1.0 (the default): a track is only known to be
    there or not.  A segment info is its TimestampScale, [None] when the segment info is NULL or has
    none.  Signed overflow wraps. *)
From Verif Require Import Base Tree TreeRead Stream Frame.

(** Conversion of an int64_t to double and back to an integer: 53 significant bits, ties to even. *)
Definition dbl (z : Z) : Z :=
  let a := Z.abs z in
  if a <? 2 ^ 53 then z
  else
    let e := Z.log2 a - 52 in
    let m := a / 2 ^ e in
    let r := a mod 2 ^ e in
    let half := 2 ^ (e - 1) in
    let m := if (half <? r) || ((r =? half) && Z.odd m) then m + 1 else m in
    Z.sgn z * (m * 2 ^ e).
(** Conversion of a double to int64_t; out of range it is undefined. *)
Definition to_int64 (z : Z) : res Z := if (- 2 ^ 63 <=? z) && (z <? 2 ^ 63) then Ok z else Bad.

(** Scale64, helper.h 47-52. *)
Definition scale64 (v num den : Z) : res Z :=
  if den =? 0 then Ok 0
  else let x := s64 (v * num) in if (x =? - 2 ^ 63) && (den =? -1) then Bad else Ok (Z.quot x den).

(** MATROSKA_SegmentInfoTimestampScale, matroskamain.c 812-823; the default is in matroska_sem.c 1004. *)
Definition seg_scale (s : option Z) : Z := match s with None => 1000000 | Some x => s64 x end.

(** The fields of matroska_block and matroska_cluster that hold times and links. *)
Record tblock := mkT { t_local : Z; t_used : bool; t_global : Z; t_rseg : option Z; t_wseg : option Z; t_rtrack : bool; t_wtrack : bool }.
Record clus := mkCl { cl_elt : option Z; cl_global : Z; cl_rseg : option Z; cl_wseg : option Z }.
(** CreateBlock and CreateCluster, matroskamain.c 2243-2253. *)
Definition new_block : tblock := mkT 0 false INVALID_TIMESTAMP None None false false.
Definition new_cluster : clus := mkCl None INVALID_TIMESTAMP None None.

(** MATROSKA_BlockSetTimestamp, matroskamain.c 697-714.  Without a write track TrackTimestampScale
    dereferences NULL. *)
Definition block_set (b : tblock) (ts cts : Z) : res (Z * tblock) :=
  if negb (t_wtrack b) then Null
  else
    do d <- to_int64 (dbl (seg_scale (t_wseg b)));
    do k <- scale64 (s64 (ts - cts)) 1 d;
    if (32767 <? k) || (k <? -32768) then Ok (ERR_INVALID_DATA, b)
    else Ok (ERR_NONE, mkT k true (t_global b) (t_rseg b) (t_wseg b) (t_rtrack b) (t_wtrack b)).

(** MATROSKA_ClusterTimestamp, matroskamain.c 676-686: the value and the cluster, which remembers it. *)
Definition cluster_time (c : clus) : Z * clus :=
  if cl_global c =? INVALID_TIMESTAMP then
    match cl_elt c with
    | None => (INVALID_TIMESTAMP, c)
    | Some v => let g := s64 (s64 v * seg_scale (cl_rseg c)) in (g, mkCl (cl_elt c) g (cl_rseg c) (cl_wseg c))
    end
  else (cl_global c, c).

(** MATROSKA_BlockTimestamp, matroskamain.c 716-732: the value, the block and the cluster it is in. *)
Definition block_time (b : tblock) (c : option clus) : res (Z * tblock * option clus) :=
  if negb (t_global b =? INVALID_TIMESTAMP) then Ok (t_global b, b, c)
  else if negb (t_rtrack b) then Ok (INVALID_TIMESTAMP, b, c)
  else match c with
  | None => Ok (INVALID_TIMESTAMP, b, c)
  | Some c =>
      let '(ct, c) := cluster_time c in
      do d <- to_int64 (dbl (s64 (t_local b * seg_scale (t_rseg b))));
      let g := s64 (ct + d) in
      do r <- block_set (mkT (t_local b) (t_used b) g (t_rseg b) (t_wseg b) (t_rtrack b) (t_wtrack b)) g ct;
      Ok (g, snd r, Some c)
  end.

(** The loops of MATROSKA_ClusterSetTimestamp (matroskamain.c 649-671) and ClusterTimeChanged (108-139)
    over the blocks of the cluster (the first Block of each group); errors are ignored. *)
Fixpoint rebase (l : list tblock) (c : clus) (ts : Z) : res (list tblock * clus) :=
  match l with
  | [] => Ok ([], c)
  | b :: l =>
      do r <- block_time b (Some c);
      let '(t, b, c') := r in
      let c := match c' with Some c => c | None => c end in
      do r <- (if t =? INVALID_TIMESTAMP then Ok (ERR_NONE, b) else block_set b t ts);
      do l <- rebase l c ts;
      Ok (snd r :: fst l, snd l)
  end.

(** MATROSKA_ClusterSetTimestamp, matroskamain.c 632-674.  The Timestamp element is created when
    missing. *)
Definition cluster_set (c : clus) (l : list tblock) (ts : Z) : res (clus * list tblock) :=
  do v <- scale64 ts 1 (seg_scale (cl_wseg c));
  do r <- rebase l (mkCl (Some v) ts (cl_rseg c) (cl_wseg c)) ts;
  Ok (snd r, fst r).

(** MATROSKA_LinkClusterReadSegmentInfo with UseForWriteToo and MATROSKA_LinkClusterWriteSegmentInfo,
    matroskamain.c 518-537; a new write segment info calls ClusterTimeChanged (97-142). *)
Definition link_cluster_write (c : clus) (l : list tblock) (seg : option Z) : res (clus * list tblock) :=
  let '(t, c) := cluster_time (mkCl (cl_elt c) (cl_global c) (cl_rseg c) seg) in
  do r <- cluster_set c l t;
  let '(c, l) := r in
  do r <- rebase l c t;
  Ok (snd r, fst r).
Definition link_cluster_both (c : clus) (l : list tblock) (seg : option Z) : res (clus * list tblock) :=
  link_cluster_write (mkCl (cl_elt c) (cl_global c) seg (cl_wseg c)) l seg.

(** What MATROSKA_BlockAppendFrame does to the timestamps (matroskamain.c 1595-1596); [set] is
    bValueIsSet.  The error is ignored. *)
Definition append_time (b : tblock) (set : bool) (ts cts : Z) : res tblock :=
  if negb set && negb (ts =? INVALID_TIMESTAMP) then do r <- block_set b ts cts; Ok (snd r) else Ok b.

(** SetBlockParent (matroskamain.c 1361-1375) and SetBlockGroupParent (1377-1393) when a block in cluster
    [old] is put in cluster [new]: the error, the block, the clusters.  The move itself succeeds. *)
Definition move_block (b : tblock) (old new : clus) : res (Z * tblock * clus * clus) :=
  if t_used b then
    do r <- block_time b (Some old);
    let '(t, b, o) := r in
    let '(ct, new) := cluster_time new in
    do r <- block_set b t ct;
    Ok (fst r, snd r, match o with Some c => c | None => old end, new)
  else Ok (ERR_NONE, b, old, new).

(** The block and cluster another program reads: what is written is LocalTimestamp (matroskamain.c 1752)
    and the Timestamp element, and both are linked to a segment info with scale [seg] and a track for
    reading and writing. *)
Definition reread_block (b : tblock) (seg : option Z) : tblock := mkT (t_local b) true INVALID_TIMESTAMP seg seg true true.
Definition reread_cluster (c : clus) (seg : option Z) : clus := mkCl (cl_elt c) INVALID_TIMESTAMP seg seg.
