(** What a user expects of a remux: nothing lost, nothing twice, nothing out of order, and where clusters begin. *)
From Coq Require Export Sorting.Sorted.
From Verif Require Import Base Tree Stream Frame BlockTime Remux.

(** What the clusters hold of track [t], in the order of the file. *)
Definition of_track (t : Z) (l : list (Z * item)) : list item := map snd (filter (fun p => fst p =? t) l).
Definition written (t : Z) (c : list (Z * list (Z * item))) : list item := of_track t (concat (map snd c)).

(** Pieces of a block that follow each other from frame [n] to the end. *)
Inductive pieces (b : blk) : nat -> list item -> Prop :=
| pieces_end n : n = length (k_frames b) -> pieces b n []
| pieces_next n i l : bi_blk (i_blk i) = b -> i_from i = n -> i_frames i <> [] ->
    i_frames i = firstn (length (i_frames i)) (skipn n (k_frames b)) ->
    pieces b (n + length (i_frames i)) l -> pieces b n (i :: l).
(** Every block once, in order, moved whole or cut in pieces. *)
Inductive tiles : list blk -> list item -> Prop :=
| tiles_nil : tiles [] []
| tiles_whole b l i o : i_whole i = true -> bi_blk (i_blk i) = b -> i_frames i = k_frames b -> tiles l o -> tiles (b :: l) (i :: o)
| tiles_cut b l p o : Forall (fun i => i_whole i = false) p -> pieces b O p -> tiles l o -> tiles (b :: l) (p ++ o).

(** The durations of the frames are not known, or known for all of them and end in the range of timestamps. *)
Definition sum (l : list Z) : Z := fold_right Z.add 0 l.
Definition durations_ok (b : blk) : Prop :=
  k_durs b = [] \/
  length (k_durs b) = length (k_frames b) /\ Forall (fun d => 0 <= d < INVALID_TIMESTAMP) (k_durs b) /\ k_time b + sum (k_durs b) < 2 ^ 59.
(** A block as the parser gives it: at least one frame, some data, a time within 9 years of 0. *)
Definition block_ok (b : blk) : Prop :=
  k_frames b <> [] /\ concat (k_frames b) <> [] /\ - 2 ^ 58 <= k_time b <= 2 ^ 58 /\ durations_ok b.

(** Cluster times after one at [a], chosen among the keyframe times [k] that follow it. *)
Inductive spaced : Z -> list Z -> list Z -> Prop :=
| spaced_end a : spaced a [] []
| spaced_next a dropped b k r :
    Forall (fun x => x < a + 1000000000) dropped ->
    (dropped <> [] -> b < a + 2000000000) ->
    (b < a + 1000000000 -> match k with [] => True | n :: _ => a + 2000000000 <= n end) ->
    spaced b k r -> spaced a (dropped ++ b :: k) (b :: r).
Definition in_order (l : list Z) : Prop := StronglySorted Z.le l.

(** What fits the 16 bits of a block's local time. *)
Definition in16 (k : Z) : bool := (-32768 <=? k) && (k <=? 32767).
(** A piece as it should be in the cluster at [tst] when the next one is at [nxt], with timestamps in units of
    [sc]: a whole block has its own time; a part has the time of its first frame, or none when that does not
    fit, and ends before the next cluster. *)
Definition item_ok (sc nxt tst : Z) (i : item) : Prop :=
  let b := bi_blk (i_blk i) in
  if i_whole i then i_from i = O /\ i_frames i = k_frames b /\ in16 (Z.quot (k_time b - tst) sc) = true /\ i_local i = Some (Z.quot (k_time b - tst) sc)
  else
    let t := k_time b + sum (firstn (i_from i) (k_durs b)) in
    k_durs b <> [] /\ i_local i = (if in16 (Z.quot (t - tst) sc) then Some (Z.quot (t - tst) sc) else None) /\
    k_time b + sum (firstn (i_from i + length (i_frames i)) (k_durs b)) < nxt.
(** The time of the cluster after, or none. *)
Definition next_time (c : list (Z * list (Z * item))) : Z := match c with [] => INVALID_TIMESTAMP | (t, _) :: _ => t end.
