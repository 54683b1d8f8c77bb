(** Timestamps of blocks and clusters. *)
From Verif Require Import Base BaseProofs IntEltProofs Tree TreeRead Stream Frame BlockTime BlockTimeProofs.

(** Linked for reading and writing to a segment info of scale [s]. *)
Definition linked (b : tblock) (s : Z) : Prop := t_rtrack b = true /\ t_wtrack b = true /\ seg_scale (t_rseg b) = s /\ seg_scale (t_wseg b) = s.

(** A timestamp whose distance to the cluster fits 16 bits is kept, rounded towards the cluster to the
    scale; it is exact when the distance is a multiple of the scale. *)
Theorem C32_set_get : forall b c s ts cts, linked b s -> scale_ok s -> t_global b = INVALID_TIMESTAMP -> cl_global c = cts -> big ts -> big cts -> fits s (ts - cts) ->
  exists b' r b'', block_set b ts cts = Ok (ERR_NONE, b') /\ block_time b' (Some c) = Ok (r, b'', Some c) /\ rounds s cts ts r /\ ((exists k, ts = cts + k * s) -> r = ts).
Proof.
  intros b c s ts cts (L1 & L2 & L3 & L4) Hs Hg Hc Hb1 Hb2 Hf. assert (0 < s) by apply Hs.
  eexists _, (cts + Z.quot (ts - cts) s * s), _. split; [apply (block_set_fits b ts cts s); assumption|].
  pose proof (rounds_quot s cts ts ltac:(lia)) as Hr. apply fits_quot in Hf; [|lia]. unfold big in *. assert (cts <> INVALID_TIMESTAMP) by (unfold INVALID_TIMESTAMP; lia).
  split; [rewrite (block_time_ok _ c s cts c); try assumption; try reflexivity; [apply cluster_time_known; assumption|unfold big; cbn [t_local]; destruct Hr as (_ & _ & [Hr|Hr]); lia]|].
  split; [exact Hr|]. intros He. eapply rounds_exact; eassumption.
Qed.
Print Assumptions C32_set_get.
Example C32_set_get_ex : exists b' b'', block_set (mkT 0 false INVALID_TIMESTAMP None None true true) 1_500_999_999 2_000_000_000 = Ok (ERR_NONE, b') /\
  block_time b' (Some (mkCl (Some 2000) 2_000_000_000 None None)) = Ok (1_501_000_000, b'', Some (mkCl (Some 2000) 2_000_000_000 None None)).
Proof. eexists _, _. split; [vm_compute; reflexivity|vm_compute; reflexivity]. Qed.

(** Any other is refused and the block is left alone. *)
Theorem C32_refused : forall b s ts cts, t_wtrack b = true -> seg_scale (t_wseg b) = s -> scale_ok s -> big ts -> big cts -> ~ fits s (ts - cts) -> block_set b ts cts = Ok (ERR_INVALID_DATA, b).
Proof. intros. eapply block_set_far; eassumption. Qed.
Print Assumptions C32_refused.
Example C32_refused_ex : ~ fits 1000000 (32768 * 1000000) /\ fits 1000000 (32768 * 1000000 - 1) /\ fits 1000000 (-32769 * 1000000 + 1).
Proof. unfold fits. lia. Qed.

(** Frames appended one after the other: the first one gives the block its timestamp, the others none. *)
Fixpoint append_all (b : tblock) (set : bool) (l : list Z) (cts : Z) : res tblock :=
  match l with [] => Ok b | ts :: l => do b <- append_time b set ts cts; append_all b true l cts end.
Theorem C32_append : forall b c s ts l cts, linked b s -> scale_ok s -> t_global b = INVALID_TIMESTAMP -> cl_global c = cts -> big ts -> big cts -> fits s (ts - cts) ->
  exists b' r b'', append_all b false (ts :: l) cts = Ok b' /\ block_time b' (Some c) = Ok (r, b'', Some c) /\ rounds s cts ts r /\ ((exists k, ts = cts + k * s) -> r = ts).
Proof.
  intros b c s ts l cts L Hs Hg Hc Hb1 Hb2 Hf. destruct (C32_set_get b c s ts cts L Hs Hg Hc Hb1 Hb2 Hf) as (b' & r & b'' & H1 & H2). exists b', r, b''. split; [|exact H2].
  cbn [append_all]. unfold append_time at 1. cbn [negb andb]. rewrite (proj2 (Z.eqb_neq ts INVALID_TIMESTAMP)) by (unfold big, INVALID_TIMESTAMP in *; lia). cbn [negb]. rewrite H1. cbn [bind snd].
  clear. induction l as [|x l IH]; [reflexivity|]. cbn [append_all]. unfold append_time at 1. cbn [negb andb bind]. exact IH.
Qed.
Print Assumptions C32_append.
(** A first frame without a timestamp leaves the block as it is, and no later frame changes that. *)
Theorem C32_append_untimed : forall b l cts, append_all b false (INVALID_TIMESTAMP :: l) cts = Ok b.
Proof.
  intros b l cts. cbn [append_all]. unfold append_time at 1. rewrite Z.eqb_refl. cbn [negb andb bind]. induction l as [|x l IH]; [reflexivity|]. cbn [append_all]. unfold append_time at 1. cbn [negb andb bind]. exact IH.
Qed.
Print Assumptions C32_append_untimed.
Example C32_append_ex : append_all (mkT 0 false INVALID_TIMESTAMP None None true true) false [7000000; 9000000] 5000000 = Ok (mkT 2 true INVALID_TIMESTAMP None None true true).
Proof. vm_compute. reflexivity. Qed.

(** Written and read again with the same scale, a block is less than two units away; it is exact when
    both timestamps are multiples of the scale. *)
Theorem C32_written : forall b s seg ts cts, seg_scale seg = s -> scale_ok s -> t_wtrack b = true -> t_wseg b = seg -> 0 <= cts < 2 ^ 59 -> Z.abs ts < 2 ^ 59 -> fits s (ts - cts) ->
  exists c b' r b'' c'', cluster_set (mkCl None INVALID_TIMESTAMP seg seg) [] cts = Ok (c, []) /\ block_set b ts cts = Ok (ERR_NONE, b') /\
    block_time (reread_block b' seg) (Some (reread_cluster c seg)) = Ok (r, b'', c'') /\ Z.abs (r - ts) < 2 * s /\ ((exists j k, cts = j * s /\ ts = k * s) -> r = ts).
Proof.
  intros b s seg ts cts Hseg Hs Hw Hsg H0 Hb1 Hf. assert (0 < s < 2 ^ 38) by apply Hs.
  set (b1 := mkT (Z.quot (ts - cts) s) true (t_global b) (t_rseg b) (t_wseg b) (t_rtrack b) (t_wtrack b)).
  exists (mkCl (Some (Z.quot cts s)) cts seg seg), b1, (Z.quot cts s * s + Z.quot (ts - cts) s * s). eexists _, _.
  split; [unfold cluster_set; cbn [cl_wseg]; rewrite Hseg, scale64_ok by lia; reflexivity|]. split; [apply (block_set_fits b ts cts s); try assumption; unfold big; subst; lia || reflexivity|].
  pose proof (rounds_quot s cts ts ltac:(lia)) as Hr. apply fits_quot in Hf; [|lia]. assert (Hq : 0 <= Z.quot cts s) by (apply Z.quot_pos; lia).
  assert (Hq2 : 0 <= cts - Z.quot cts s * s < s) by (pose proof (Z.quot_rem' cts s); pose proof (Z.rem_bound_pos cts s ltac:(lia) ltac:(lia)); lia).
  destruct Hr as ((k & Hk) & Hr1 & Hr2).
  split; [rewrite (block_time_ok (reread_block b1 seg) _ s (Z.quot cts s * s) (mkCl (Some (Z.quot cts s)) (Z.quot cts s * s) seg seg)); try assumption; try reflexivity|].
  - unfold reread_cluster. cbn [cl_elt]. rewrite (cluster_time_elt _ (Z.quot cts s) s); try reflexivity; try assumption; lia.
  - unfold big. lia.
  - unfold big. cbn [t_local reread_block b1]. lia.
  - split; [lia|]. intros (j & i & -> & ->). rewrite Z.quot_mul by lia. replace (i * s - j * s) with ((i - j) * s) by ring. rewrite Z.quot_mul by lia. ring.
Qed.
Print Assumptions C32_written.
Example C32_written_ex : seg_scale None = 1000000 /\ scale_ok 1000000 /\ fits 1000000 (1_500_999_999 - 2_000_500_000).
Proof. unfold scale_ok, fits. repeat split; lia. Qed.
(** It can be more than one unit away, although a timestamp that close can be written: the cluster keeps
    its exact timestamp and the file has the rounded one. *)
Theorem C32_written_close_refuted : exists b c b' r b'' c'', cluster_set (mkCl None INVALID_TIMESTAMP None None) [] 999_999 = Ok (c, []) /\ block_set b 1_999_998 999_999 = Ok (ERR_NONE, b') /\
  block_time (reread_block b' None) (Some (reread_cluster c None)) = Ok (r, b'', c'') /\ r = 0.
Proof. exists (mkT 0 false INVALID_TIMESTAMP None None true true). eexists _, _, _, _, _. split; [vm_compute; reflexivity|]. split; [vm_compute; reflexivity|]. split; [vm_compute; reflexivity|]. reflexivity. Qed.
Print Assumptions C32_written_close_refuted.

(** Once it was asked for, the timestamp of a block does not follow MATROSKA_BlockSetTimestamp. *)
Theorem C32_set_again_refuted : exists b c b1 t1 b2 c2 b3 b4 c4 t4, block_set b 5_000_000 0 = Ok (ERR_NONE, b1) /\ block_time b1 (Some c) = Ok (t1, b2, Some c2) /\
  block_set b2 9_000_000 0 = Ok (ERR_NONE, b3) /\ block_time b3 (Some c2) = Ok (t4, b4, c4) /\ t4 = 5_000_000.
Proof.
  exists (mkT 0 false INVALID_TIMESTAMP None None true true), (mkCl (Some 0) 0 None None). eexists _, _, _, _, _, _, _, _. split; [vm_compute; reflexivity|]. split; [vm_compute; reflexivity|].
  split; [vm_compute; reflexivity|]. split; [vm_compute; reflexivity|]. reflexivity.
Qed.
Print Assumptions C32_set_again_refuted.

(** A block linked to its track for reading only: asking for its timestamp dereferences NULL. *)
Theorem C32_read_only_refuted : forall b c, t_global b = INVALID_TIMESTAMP -> t_rtrack b = true -> t_wtrack b = false -> seg_scale (t_rseg b) = 1000000 -> -32768 <= t_local b <= 32767 -> block_time b (Some c) = Null.
Proof.
  intros b c H1 H2 H3 H4 H5. unfold block_time. rewrite H1, H2, H4. cbn [negb]. rewrite Z.eqb_refl. cbn [negb]. destruct (cluster_time c) as [ct c']. rewrite s64_small, dbl_small, to_int64_ok by lia. cbn [bind].
  unfold block_set. cbn [t_wtrack]. rewrite H3. reflexivity.
Qed.
Print Assumptions C32_read_only_refuted.
Example C32_read_only_ex : block_time (mkT 5 true INVALID_TIMESTAMP None None true false) (Some (mkCl (Some 0) 0 None None)) = Null.
Proof. vm_compute. reflexivity. Qed.

(** Moving a block to another cluster keeps its timestamp; what is then written is that timestamp
    rounded towards the new cluster.  A cluster too far away refuses it. *)
Theorem C32_move : forall b old new s ct, linked b s -> scale_ok s -> t_used b = true -> t_global b <> INVALID_TIMESTAMP -> big (t_global b) -> big ct -> cl_global new = ct ->
  (fits s (t_global b - ct) -> exists b', move_block b old new = Ok (ERR_NONE, b', old, new) /\ block_time b' (Some new) = Ok (t_global b, b', Some new) /\ rounds s ct (t_global b) (ct + t_local b' * s)) /\
  (~ fits s (t_global b - ct) -> move_block b old new = Ok (ERR_INVALID_DATA, b, old, new)).
Proof.
  intros b old new s ct (L1 & L2 & L3 & L4) Hs Hu Hg Hb1 Hb2 Hc. assert (0 < s) by apply Hs. unfold move_block. rewrite Hu, (block_time_cached b (Some old) (t_global b)) by auto. cbn [bind].
  rewrite (cluster_time_known new ct) by (try assumption; unfold big, INVALID_TIMESTAMP in *; lia). split; intros Hf.
  - rewrite (block_set_fits b _ ct s) by assumption. eexists. split; [reflexivity|]. split; [apply block_time_cached; [reflexivity|assumption]|]. cbn [t_local]. apply rounds_quot. lia.
  - rewrite (block_set_far b _ ct s) by assumption. reflexivity.
Qed.
Print Assumptions C32_move.
Example C32_move_ex : exists b', move_block (mkT 5 true 5_000_000 None None true true) (mkCl (Some 0) 0 None None) (mkCl (Some 3) 3_000_000 None None) =
  Ok (ERR_NONE, b', mkCl (Some 0) 0 None None, mkCl (Some 3) 3_000_000 None None) /\ t_local b' = 2.
Proof. eexists. split; [vm_compute; reflexivity|]. reflexivity. Qed.

(** MATROSKA_ClusterSetTimestamp rebases the blocks of the cluster whose timestamp is known and fits. *)
Theorem C32_cluster_set : forall c l s ts, seg_scale (cl_wseg c) = s -> scale_ok s -> 0 <= ts -> big ts ->
  Forall (fun b => linked b s /\ big (t_global b) /\ fits s (t_global b - ts)) l ->
  exists l', cluster_set c l ts = Ok (mkCl (Some (ts / s)) ts (cl_rseg c) (cl_wseg c), l') /\
    Forall2 (fun b b' => t_global b' = t_global b /\ linked b' s /\ rounds s ts (t_global b) (ts + t_local b' * s)) l l'.
Proof.
  intros c l s ts Hsc Hs H0 Hb Hl. assert (0 < s) by apply Hs. unfold cluster_set. rewrite Hsc, scale64_ok by (unfold big in *; lia). cbn [bind]. rewrite Z.quot_div_nonneg by lia.
  set (c1 := mkCl _ _ _ _). assert (Hre : exists l', rebase l c1 ts = Ok (l', c1) /\ Forall2 (fun b b' => t_global b' = t_global b /\ linked b' s /\ rounds s ts (t_global b) (ts + t_local b' * s)) l l').
  { clearbody c1. induction Hl as [|b l (HL & Hg & Hf) Hl IH]; [exists []; split; [reflexivity|constructor]|]. destruct IH as (l' & IH & IHf). cbn [rebase].
    assert (Hi : t_global b <> INVALID_TIMESTAMP) by (unfold big, INVALID_TIMESTAMP in *; lia). rewrite (block_time_cached b (Some c1) (t_global b)) by auto. cbn [bind].
    replace (t_global b =? INVALID_TIMESTAMP) with false by lia. destruct HL as (L1 & L2 & L3 & L4). rewrite (block_set_fits b _ ts s) by assumption. cbn [bind]. rewrite IH. cbn [bind fst snd].
    eexists. split; [reflexivity|]. constructor; [|exact IHf]. cbn [t_global t_local]. split; [reflexivity|]. split; [repeat split; assumption|]. apply rounds_quot. lia. }
  destruct Hre as (l' & -> & Hf). cbn [bind fst snd]. exists l'. split; [reflexivity|exact Hf].
Qed.
Print Assumptions C32_cluster_set.
Example C32_cluster_set_ex : exists l', cluster_set (mkCl None INVALID_TIMESTAMP None None) [mkT 7 true 7_000_000 None None true true; mkT 9 true 9_500_000 None None true true] 3_000_000 =
  Ok (mkCl (Some 3) 3_000_000 None None, l') /\ map t_local l' = [4; 6].
Proof. eexists. split; [vm_compute; reflexivity|]. reflexivity. Qed.
(** Blocks too far from the new timestamp keep their old 16 bits without an error: they are written at
    another time. *)
Theorem C32_cluster_set_far_refuted : exists c l ts c' b', cluster_set c l ts = Ok (c', [b']) /\ map t_global l = [1_000_000] /\ ts = 100_000_000_000 /\
  exists r b'' c'', block_time (reread_block b' None) (Some (reread_cluster c' None)) = Ok (r, b'', c'') /\ r = 100_001_000_000.
Proof.
  exists (mkCl (Some 0) 0 None None), [mkT 1 true 1_000_000 None None true true], 100_000_000_000. eexists _, _. split; [vm_compute; reflexivity|]. split; [reflexivity|]. split; [reflexivity|].
  eexists _, _, _. split; [vm_compute; reflexivity|]. reflexivity.
Qed.
Print Assumptions C32_cluster_set_far_refuted.
(** Linking an empty cluster to the segment info it is written with gives it a Timestamp element. *)
Theorem C32_link_empty_refuted : exists c, link_cluster_both new_cluster [] None = Ok (c, []) /\ cl_elt c = Some 9_223_372_036_854.
Proof. eexists. split; [vm_compute; reflexivity|]. reflexivity. Qed.
Print Assumptions C32_link_empty_refuted.

(** Linking a cluster just read, with its blocks, to its segment info changes nothing that is written. *)
Theorem C32_link_read : forall c l s seg v, seg_scale seg = s -> scale_ok s -> cl_elt c = Some v -> cl_global c = INVALID_TIMESTAMP -> 0 <= v -> v * s < 2 ^ 59 ->
  Forall (fun b => linked b s /\ t_global b = INVALID_TIMESTAMP /\ -32768 <= t_local b <= 32767) l ->
  exists c' l', link_cluster_both c l seg = Ok (c', l') /\ cl_elt c' = Some v /\ map t_local l' = map t_local l /\ map t_global l' = map (fun b => v * s + t_local b * s) l.
Proof.
  intros c l s seg v Hsg Hs He Hg Hv Hb Hl. unfold link_cluster_both, link_cluster_write. cbn [cl_elt cl_global cl_rseg cl_wseg]. assert (0 < s < 2 ^ 38) by apply Hs.
  assert (Hct : big (v * s)) by (unfold big; lia). assert (Hvi : v * s <> INVALID_TIMESTAMP) by (unfold INVALID_TIMESTAMP; lia).
  rewrite (cluster_time_elt _ v s) by (try assumption; lia). unfold cluster_set. cbn [cl_elt cl_global cl_rseg cl_wseg]. rewrite Hsg, scale64_ok by (unfold big in *; lia). cbn [bind]. rewrite Z.quot_mul by lia.
  set (c1 := mkCl (Some v) (v * s) seg seg).
  assert (H1 : exists l', rebase l c1 (v * s) = Ok (l', c1) /\ Forall2 (fun b b' => b' = mkT (t_local b) true (v * s + t_local b * s) (t_rseg b) (t_wseg b) true true /\ linked b s /\ -32768 <= t_local b <= 32767) l l').
  { induction Hl as [|b l (HL & Hgb & Hlo) Hl IH]; [exists []; split; [reflexivity|constructor]|]. destruct IH as (l' & IH & IHf). cbn [rebase]. destruct HL as (L1 & L2 & L3 & L4).
    assert (Hbg : big (v * s + t_local b * s)) by (unfold big; nia).
    rewrite (block_time_ok b c1 s (v * s) c1) by (assumption || (apply cluster_time_known; [reflexivity|assumption])). cbn [bind].
    assert (Hni : v * s + t_local b * s <> INVALID_TIMESTAMP) by (clear -Hbg; unfold big, INVALID_TIMESTAMP in *; lia). rewrite (proj2 (Z.eqb_neq _ _) Hni).
    rewrite (block_set_fits _ _ (v * s) s) by (try reflexivity; try assumption; unfold fits; nia). cbn [bind]. rewrite IH. cbn [bind fst snd]. eexists. split; [reflexivity|]. constructor; [|exact IHf]. cbn [t_local t_global].
    replace (v * s + t_local b * s - v * s) with (t_local b * s) by lia. rewrite Z.quot_mul by lia. split; [reflexivity|]. split; [repeat split; assumption|exact Hlo]. }
  destruct H1 as (l1 & -> & Hf1). cbn [bind fst snd].
  assert (H2 : rebase l1 c1 (v * s) = Ok (l1, c1)).
  { clear -Hf1 Hs Hct Hv Hb H. induction Hf1 as [|b b' l l' (-> & (L1 & L2 & L3 & L4) & Hr) Hf IH]; [reflexivity|]. cbn [rebase]. set (b' := mkT _ _ _ _ _ _ _).
    assert (Hbg : big (t_global b')) by (unfold big in *; cbn [t_global b']; nia). assert (Hni : t_global b' <> INVALID_TIMESTAMP) by (clear -Hbg; unfold big, INVALID_TIMESTAMP in *; lia).
    rewrite (block_time_cached b' (Some c1) _ eq_refl Hni). cbn [bind]. rewrite (proj2 (Z.eqb_neq _ _) Hni).
    rewrite (block_set_fits _ _ (v * s) s) by (try reflexivity; try assumption; unfold fits; cbn [t_global b']; nia). cbn [bind]. rewrite IH. cbn [bind fst snd t_global b'].
    replace (v * s + t_local b * s - v * s) with (t_local b * s) by lia. rewrite Z.quot_mul by lia. reflexivity. }
  rewrite H2. cbn [bind fst snd]. exists c1, l1. split; [reflexivity|]. split; [reflexivity|]. clear -Hf1. induction Hf1 as [|b b' l l' (-> & _ & _) Hf [IH1 IH2]]; [split; reflexivity|].
  cbn [map t_local t_global]. rewrite IH1, IH2. split; reflexivity.
Qed.
Print Assumptions C32_link_read.
Example C32_link_read_ex : exists c' l', link_cluster_both (mkCl (Some 12) INVALID_TIMESTAMP None None) [mkT (-3) true INVALID_TIMESTAMP None None true true] None = Ok (c', l') /\ map t_global l' = [9_000_000].
Proof. eexists _, _. split; [vm_compute; reflexivity|]. reflexivity. Qed.
