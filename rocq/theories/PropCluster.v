(** Properties of cluster sorting. *)
From Verif Require Import Base Arr ArrSpec NodeTree NodeTreeSpec NodeTreeProofs PropNode ClusterSort ClusterSortSpec ClusterSortProofs.

(** ** C54 *)
(** MATROSKA_ClusterSort on a cluster with at most one Timestamp: nothing is lost or duplicated, and no
    memory outside the list is read, whatever the children and their times. *)
Theorem C54_safe : forall fuel h F m look, rep h F -> m <> 0 -> (length (F m) <= fuel)%nat -> one_time (map look (F m)) ->
  exists r h', cluster_sort fuel h look m = Some h' /\ rep h' (fun q => if q =? m then r else F q) /\ Permutation (F m) r.
Proof. exact cluster_sort_safe. Qed.
Print Assumptions C54_safe.
(** If the other children are all SimpleBlock, or all BlockGroup with a Block, and times that differ do
    so by 100 us or more: the Timestamp first, then the blocks by time, higher tracks first. *)
Theorem C54_sorted : forall fuel h F m look, rep h F -> m <> 0 -> (length (F m) <= fuel)%nat -> one_time (map look (F m)) ->
  (Forall simple_only (map look (F m)) \/ Forall group_only (map look (F m))) -> apart (map look (F m)) ->
  exists r h', cluster_sort fuel h look m = Some h' /\ rep h' (fun q => if q =? m then r else F q) /\
    Permutation (F m) r /\ StronglySorted kid_le (map look r).
Proof. exact cluster_sort_sorted. Qed.
Print Assumptions C54_sorted.
Definition ex_look (x : Z) : kid := if x =? 2 then KidSimple 7000000 1 else if x =? 3 then KidTime else KidSimple 7000000 2.
Example C54_ex : rep ex_heap ex_forest /\ one_time (map ex_look (ex_forest 1)) /\ Forall simple_only (map ex_look (ex_forest 1)) /\ apart (map ex_look (ex_forest 1)) /\
  option_map (fun h' => collect 10 h' (n_kids (h' 1))) (cluster_sort 10 ex_heap ex_look 1) = Some (Some [3; 4; 2]).
Proof.
  split; [exact ex_rep|]. split; [vm_compute; repeat constructor|]. split; [|split; [|vm_compute; reflexivity]].
  - change (map ex_look (ex_forest 1)) with [KidSimple 7000000 1; KidTime; KidSimple 7000000 2]. repeat (apply Forall_cons; [unfold simple_only; eauto|]); apply Forall_nil.
  - intros a b ta na tb nb Ia Ib Sa Sb. left. change (map ex_look (ex_forest 1)) with [KidSimple 7000000 1; KidTime; KidSimple 7000000 2] in Ia, Ib.
    assert (H : forall k t n, In k [KidSimple 7000000 1; KidTime; KidSimple 7000000 2] -> stamp k t n -> t = 7000000).
    { intros k t n [<-|[<-|[<-|[]]]] [E|E]; inversion E; reflexivity. }
    rewrite (H a ta na), (H b tb nb); auto.
Qed.

(** Findings.  Two Timestamp elements in a cluster of 18 children make the sort read before the list. *)
Definition two_times : list kid := KidTime :: map (fun i => KidSimple (i * 1000000) 1) [1; 2; 3; 4; 5; 6; 7; 8; 9; 10; 11; 12; 13; 14; 15; 16] ++ [KidTime].
Theorem C54_two_timestamps_refuted : array_sort cluster_cmp true false two_times = None.
Proof. vm_compute. reflexivity. Qed.
Print Assumptions C54_two_timestamps_refuted.
(** A SimpleBlock that follows a BlockGroup of a later time stays there: the two forms are not sorted
    together. *)
Theorem C54_mixed_refuted : array_sort cluster_cmp true false [KidGroup (Some (5000000, 1)); KidOther; KidSimple 2000000 1] = Some [KidGroup (Some (5000000, 1)); KidOther; KidSimple 2000000 1] /\
  array_sort cluster_cmp true false [KidGroup (Some (5000000, 1)); KidSimple 2000000 1] = Some [KidGroup (Some (5000000, 1)); KidSimple 2000000 1].
Proof. split; vm_compute; reflexivity. Qed.
Print Assumptions C54_mixed_refuted.
(** Blocks less than 100 us apart are not sorted. *)
Theorem C54_close_refuted : array_sort cluster_cmp true false [KidSimple 90000 1; KidSimple 0 1] = Some [KidSimple 90000 1; KidSimple 0 1].
Proof. vm_compute. reflexivity. Qed.
Print Assumptions C54_close_refuted.
(** Blocks far apart, or with an unknown time, are put in the wrong order. *)
Theorem C54_far_refuted : array_sort cluster_cmp true false [KidSimple 0 1; KidSimple (3000000000 * 100000) 1] = Some [KidSimple (3000000000 * 100000) 1; KidSimple 0 1].
Proof. vm_compute. reflexivity. Qed.
Print Assumptions C54_far_refuted.
