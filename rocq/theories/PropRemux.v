(** C80-C83: mkclean --remux. *)
From Verif Require Import Base BaseProofs Tree Stream Frame BlockTime Arr ArrSpec ArrProofs ArrProofs2 BlockTimeProofs Remux RemuxSpec RemuxProofs RemuxProofs2 RemuxProofs3 RemuxProofs4 RemuxProofs5 RemuxProofs6.

(** A video track 1 with a keyframe each 1.5 s and an audio track 2 whose laced block straddles the second
    cluster; milliseconds. *)
Definition rx_v (t : Z) (k : bool) (d : Z) : blk := mkBlk (t * 1000000) k false true false [] [[d; d]].
Definition rx_a (t : Z) (n : nat) (d : Z) : blk :=
  mkBlk (t * 1000000) true true true true (repeat 100000000 n) (map (fun i => [d; Z.of_nat i]) (seq 0 n)).
Definition rx_src (t : Z) : list blk :=
  if t =? 1 then [rx_v 0 true 1; rx_v 700 false 2; rx_v 1500 true 3; rx_v 2200 false 4; rx_v 3000 true 5]
  else if t =? 2 then [rx_a 0 4 10; rx_a 1300 4 20; rx_a 1700 2 30] else [].
Definition rx_w : option Z := Some 1000000.
Definition rx_show (r : res outcome) : list (Z * list (Z * Z * list (list Z) * option Z)) :=
  match r with
  | Ok (Clusters c) => map (fun p => (fst p / 1000000, map (fun q => (fst q, k_time (bi_blk (i_blk (snd q))) / 1000000, i_frames (snd q), i_local (snd q))) (snd p))) c
  | _ => []
  end.
Example rx_out : rx_show (remux rx_w rx_src [2] 1) =
  [(0, [(2, 0, [[10; 0]; [10; 1]; [10; 2]; [10; 3]], Some 0); (1, 0, [[1; 1]], Some 0); (2, 1300, [[20; 0]], Some 1300); (1, 700, [[2; 2]], Some 700)]);
   (1500, [(2, 1300, [[20; 1]; [20; 2]; [20; 3]], Some (-100)); (1, 1500, [[3; 3]], Some 0); (1, 2200, [[4; 4]], Some 700)]);
   (3000, [(2, 1700, [[30; 0]; [30; 1]], Some (-1300)); (1, 3000, [[5; 5]], Some 0)])].
Proof. vm_compute. reflexivity. Qed.
Definition rx_blk_okb (b : blk) : bool :=
  match k_frames b with [] => false | _ => true end && match concat (k_frames b) with [] => false | _ => true end &&
  (- 2 ^ 58 <=? k_time b) && (k_time b <=? 2 ^ 58) &&
  (match k_durs b with [] => true | _ => false end ||
   Nat.eqb (length (k_durs b)) (length (k_frames b)) && forallb (fun d => (0 <=? d) && (d <? INVALID_TIMESTAMP)) (k_durs b) && (k_time b + sum (k_durs b) <? 2 ^ 59)).
Lemma rx_blk_ok l : forallb rx_blk_okb l = true -> Forall block_ok l.
Proof.
  intros H. apply Forall_forall. intros b Hb. rewrite forallb_forall in H. specialize (H b Hb). unfold rx_blk_okb in H.
  rewrite !andb_true_iff, orb_true_iff in H. destruct H as [[[[H1 H2] H3] H4] H5].
  split; [intros E; rewrite E in H1; discriminate|]. split; [intros E; rewrite E in H2; discriminate|]. split; [lia|].
  destruct H5 as [H5|H5]; [left; destruct (k_durs b); [reflexivity|discriminate]|right].
  rewrite !andb_true_iff in H5. destruct H5 as [[H5 H6] H7]. split; [apply Nat.eqb_eq, H5|]. split; [|lia].
  apply Forall_forall. intros d Hd. rewrite forallb_forall in H6. specialize (H6 d Hd). lia.
Qed.
Example rx_src_ok : forall t, Forall block_ok (rx_src t).
Proof. intros t. apply rx_blk_ok. unfold rx_src. destruct (t =? 1); [vm_compute; reflexivity|]. destruct (t =? 2); vm_compute; reflexivity. Qed.

(** C80.  Whatever the source, when the remux gives clusters they hold every block of every track once, in the
    order of the source, whole or cut in pieces that follow each other: the frames of the track come out the
    same.  Nothing appears for a track that is not listed. *)
Theorem C80_remux_keeps_every_frame : forall w src order main c,
  ~ In main order -> (forall t, Forall block_ok (src t)) -> remux w src order main = Ok (Clusters c) ->
  (forall t, In t (main :: order) ->
     tiles (src t) (written t c) /\ concat (map i_frames (written t c)) = concat (map k_frames (src t))) /\
  (forall t, ~ In t (main :: order) -> written t c = []).
Proof.
  intros w src order main c Hm Hok H. split; [intros t Ht; split|intros t Ht].
  - exact (remux_conserve w src order main Hm Hok c H t Ht).
  - apply tiles_frames. exact (remux_conserve w src order main Hm Hok c H t Ht).
  - exact (remux_nothing_else w src order main Hm Hok c H t Ht).
Qed.
Print Assumptions C80_remux_keeps_every_frame.
Example C80_case : ~ In 1 [2] /\ exists c, remux rx_w rx_src [2] 1 = Ok (Clusters c) /\ length c = 3%nat /\
  concat (map i_frames (written 2 c)) = concat (map k_frames (rx_src 2)) /\ length (written 2 c) = 4%nat.
Proof.
  split; [intros [H|[]]; discriminate|]. destruct (remux rx_w rx_src [2] 1) as [| | |[| |c]] eqn:E; try (vm_compute in E; discriminate).
  exists c. split; [reflexivity|]. vm_compute in E. injection E as <-. vm_compute. auto.
Qed.

(** C81.  Clusters begin at keyframe times of the main track, the first at the first of them; when those times
    are in order, a keyframe less than a second after the beginning of a cluster does not begin one if the
    next keyframe comes within two seconds, every other keyframe does, and where keyframes
    were dropped the next cluster begins within two seconds.  The decode times used are the blocks' own when these are in order. *)
Theorem C81_clusters_begin_at_keyframes : forall w src order main c,
  ~ In main order -> (forall t, Forall block_ok (src t)) -> remux w src order main = Ok (Clusters c) ->
  let dec := decode_times INVALID_TIMESTAMP (src main) in
  Forall (fun T => exists b, In b dec /\ k_key (bi_blk b) = true /\ bi_dec b = T) (map fst c) /\
  (in_order (key_times dec) -> exists t keys times, key_times dec = t :: keys /\ map fst c = t :: times /\ spaced t keys times) /\
  map bi_blk dec = src main /\
  (in_order (map k_time (src main)) -> map bi_dec dec = map k_time (src main)).
Proof.
  intros w src order main c Hm Hok H dec. split; [|split; [|split]].
  - destruct (remux_times w src order main Hm Hok c H) as [_ F]. revert F. apply Forall_impl. intros T HT. apply key_in, HT.
  - intros Ho. exact (remux_spaced w src order main Hm Hok c H Ho).
  - apply decode_blk.
  - apply decode_same.
Qed.
Print Assumptions C81_clusters_begin_at_keyframes.
Definition rx_many (t : Z) : list blk := if t =? 1 then map (fun k => rx_v (k * 400) true k) [0; 1; 2; 3; 4; 5; 6; 7; 8; 14; 15] else [].
Example C81_case : map fst (rx_show (remux rx_w rx_many [] 1)) = [0; 1200; 2400; 3200; 5600; 6000] /\
  in_order (map k_time (rx_many 1)) /\ (forall t, Forall block_ok (rx_many t)).
Proof.
  split; [vm_compute; reflexivity|]. split.
  - unfold in_order, rx_many. cbn. repeat (constructor; [|repeat (constructor; [lia|]); constructor]). constructor.
  - intros t. apply rx_blk_ok. unfold rx_many. destruct (t =? 1); vm_compute; reflexivity.
Qed.

(** C82.  The remux comes to an end with one of its three outcomes when the keyframe times of the main track are
    in order and that track does not have exactly one block; it refuses only when some block is really too far
    from a cluster time, or there is no keyframe. *)
Theorem C82_remux_ends : forall w sc src order main,
  ~ In main order -> (forall t, Forall block_ok (src t)) -> seg_scale w = sc -> scale_ok sc ->
  length (src main) <> 1%nat -> in_order (key_times (decode_times INVALID_TIMESTAMP (src main))) ->
  exists out, remux w src order main = Ok out /\
    match out with
    | NoKey => forall b, In b (src main) -> k_key b = false
    | TooFar => exists T t b, In T (key_times (decode_times INVALID_TIMESTAMP (src main))) /\ In t (main :: order) /\ In b (src t) /\
        in16 (Z.quot (k_time b - T) sc) = false
    | Clusters _ => True
    end.
Proof.
  intros w sc src order main Hm Hok Hw Hsc H1 Ho.
  destruct (remux_total w src order main Hm Hok sc Hw Hsc H1 Ho) as (out & E & H). exists out. split; [exact E|].
  destruct out as [| |c]; [|exact H|exact I]. intros b Hb. unfold dec_of in H.
  rewrite <- (decode_blk (src main) INVALID_TIMESTAMP) in Hb. apply in_map_iff in Hb. destruct Hb as (bi & <- & Hb).
  destruct (k_key (bi_blk bi)) eqn:E2; [|reflexivity]. exfalso.
  assert (In (bi_dec bi) []) as []. rewrite <- H. unfold key_times. apply in_map, filter_In. auto.
Qed.
Print Assumptions C82_remux_ends.
Example C82_case : seg_scale rx_w = 1000000 /\ scale_ok 1000000 /\ length (rx_src 1) <> 1%nat /\ in_order (key_times (decode_times INVALID_TIMESTAMP (rx_src 1))) /\
  remux (Some 1000) rx_src [2] 1 = Ok TooFar.
Proof.
  split; [reflexivity|]. split; [unfold scale_ok; lia|]. split; [discriminate|]. split; [|vm_compute; reflexivity].
  vm_compute. repeat (constructor; [|repeat (constructor; [discriminate|]); constructor]). constructor.
Qed.
(** It does not always end: one keyframe out of order among those of the main track is enough. *)
Theorem C82_unordered_keyframes_refuted :
  ~ (forall (src : Z -> list blk) (main : Z), (forall t, Forall block_ok (src t)) -> src main <> [] ->
       exists fuel r, thin fuel (key_times (decode_times INVALID_TIMESTAMP (src main))) 0 INVALID_TIMESTAMP = Ok r).
Proof.
  intros H. destruct (H (fun t => map (fun k => rx_v k true 1) [0; 900; 100; 120; 130]) 1) as (fuel & r & E).
  - intros t. apply rx_blk_ok. vm_compute. reflexivity.
  - discriminate.
  - assert (K : key_times (decode_times INVALID_TIMESTAMP (map (fun k => rx_v k true 1) [0; 900; 100; 120; 130])) = [0; 200000000; 100000000; 120000000; 130000000]) by (vm_compute; reflexivity).
    rewrite K in E. destruct fuel as [|f]; [discriminate|]. cbn [thin nth_error] in E. rewrite Z.eqb_refl in E. cbn [negb andb] in E.
    rewrite (thin_stuck _ 1 0 200000000) in E; [discriminate|reflexivity|reflexivity|vm_compute; reflexivity].
Qed.
Print Assumptions C82_unordered_keyframes_refuted.
(** Nor does it for a main track with a single block: a pointer past the end of the array is followed. *)
Theorem C82_single_block_refuted :
  ~ (forall w src order main, ~ In main order -> (forall t, Forall block_ok (src t)) -> seg_scale w = 1000000 ->
       in_order (key_times (decode_times INVALID_TIMESTAMP (src main))) -> exists out, remux w src order main = Ok out).
Proof.
  intros H. destruct (H rx_w (fun t => [rx_v 0 true 1]) [] 1) as (out & E).
  - intros [].
  - intros t. apply rx_blk_ok. vm_compute. reflexivity.
  - reflexivity.
  - vm_compute. constructor; constructor.
  - vm_compute in E. discriminate.
Qed.
Print Assumptions C82_single_block_refuted.

(** C83.  What a cluster at [T] holds, when the next one is at [next_time c2]: its first block of the main track is
    the first of all (first cluster) or one decoded at [T] (the others) — a keyframe, when decode times increase;
    nothing decoded after the next cluster's time; each whole block has its distance to [T] as local time, each part
    the distance of its first frame, and all the frames of a part end before the next cluster. *)
Theorem C83_where_blocks_go : forall w sc src order main c c1 T o c2,
  ~ In main order -> (forall t, Forall block_ok (src t)) -> seg_scale w = sc -> scale_ok sc ->
  let dec := decode_times INVALID_TIMESTAMP (src main) in
  in_order (map bi_dec dec) ->
  remux w src order main = Ok (Clusters c) -> c = c1 ++ (T, o) :: c2 ->
  (exists b p r, of_track main o = mkItem b true O (k_frames (bi_blk b)) (Some p) :: r /\
     (if match c1 with [] => true | _ => false end then exists l, dec = b :: l else bi_dec b = T) /\
     (c1 <> [] -> StronglySorted Z.lt (map bi_dec dec) -> k_key (bi_blk b) = true)) /\
  Forall (fun p => bi_dec (i_blk (snd p)) <= next_time c2) o /\
  Forall (fun p => item_ok sc (next_time c2) T (snd p)) o.
Proof.
  intros w sc src order main c c1 T o c2 Hm Hok Hw Hsc dec Ho H Ec.
  pose proof (remux_place w src order main Hm Hok c H true (fun _ => Ho)) as P. rewrite Ec in P. apply cls_split in P.
  destruct P as ((b & p & r & P1 & P2) & _ & P3). split; [|split].
  - exists b, p, r. split; [exact P1|]. destruct c1 as [|q c1]; split.
    + exact P2.
    + intros E. contradiction.
    + apply P2.
    + intros _ Hs. destruct P2 as [P2 P4]. destruct (remux_times w src order main Hm Hok c H) as [_ F].
      rewrite Forall_forall in F. specialize (F T). rewrite Ec, map_app in F. cbn [map fst] in F.
      assert (F' : In T (key_times dec)) by (apply F, in_or_app; right; left; reflexivity). destruct (key_in _ _ F') as (b' & K1 & K2 & K3).
      rewrite <- (strict_same _ Hs b' b); [exact K2|exact K1|exact P2|congruence].
  - apply P3. reflexivity.
  - assert (H1 : length (src main) <> 1%nat).
    { intros E. unfold remux in H. rewrite E in H. destruct (key_times _); [discriminate|]. destruct (thin _ _ _ _); discriminate. }
    destruct (remux_total w src order main Hm Hok sc Hw Hsc H1) as (out & E & R).
    { apply sub_sorted with (2 := Ho). apply key_sub. }
    rewrite H in E. injection E as <-. rewrite Ec in R. apply each_split in R. exact R.
Qed.
Print Assumptions C83_where_blocks_go.
Example C83_case : in_order (map bi_dec (decode_times INVALID_TIMESTAMP (rx_src 1))) /\ StronglySorted Z.lt (map bi_dec (decode_times INVALID_TIMESTAMP (rx_src 1))).
Proof. split; [apply lt_le|]; vm_compute; repeat (constructor; [|repeat (constructor; [reflexivity|]); constructor]); constructor. Qed.

(** A part can come out with no local time, where a whole block would have been refused: the audio block at 35 s is
    cut at 40 s and its first frames lie over 32.767 s after their cluster. *)
Definition rx_far (t : Z) : list blk :=
  if t =? 1 then [rx_v 0 true 1; rx_v 30000 false 2; rx_v 40000 true 3; rx_v 40100 false 4] else [rx_a 35000 100 10; rx_a 45000 10 20].
Theorem C83_part_without_time_refuted :
  ~ (forall w sc src order main c t i, ~ In main order -> (forall t, Forall block_ok (src t)) -> seg_scale w = sc -> scale_ok sc ->
       remux w src order main = Ok (Clusters c) -> In i (written t c) -> i_local i <> None).
Proof.
  intros H. destruct (remux rx_w rx_far [2] 1) as [| | |[| |c]] eqn:E; try (vm_compute in E; discriminate).
  assert (X : existsb (fun i => match i_local i with None => true | _ => false end) (written 2 c) = true) by (vm_compute in E; injection E as <-; vm_compute; reflexivity).
  apply existsb_exists in X. destruct X as (i & X1 & X2).
  refine (H rx_w 1000000 rx_far [2] 1 c 2 i _ _ _ _ E X1 _).
  - intros [e|[]]; discriminate.
  - intros t. apply rx_blk_ok. unfold rx_far. destruct (t =? 1); vm_compute; reflexivity.
  - reflexivity.
  - unfold scale_ok. lia.
  - destruct (i_local i); [discriminate|reflexivity].
Qed.
Print Assumptions C83_part_without_time_refuted.
(** A laced block whose frames all end before the next cluster is held back for that next cluster when the block
    after it comes later. *)
Definition rx_gap (t : Z) : list blk :=
  if t =? 1 then [rx_v 0 true 1; rx_v 700 false 2; rx_v 1500 true 3; rx_v 2200 false 4] else [rx_a 100 3 10; rx_a 1900 1 20].
Theorem C83_held_back_refuted :
  ~ (forall w sc src order main T o N o' c2 i, ~ In main order -> (forall t, Forall block_ok (src t)) -> seg_scale w = sc -> scale_ok sc ->
       remux w src order main = Ok (Clusters ((T, o) :: (N, o') :: c2)) ->
       In i (map snd o') -> k_durs (bi_blk (i_blk i)) <> [] -> N <= k_time (bi_blk (i_blk i)) + sum (k_durs (bi_blk (i_blk i)))).
Proof.
  intros H. destruct (remux rx_w rx_gap [2] 1) as [| | |[| |c]] eqn:E; try (vm_compute in E; discriminate).
  pose proof E as E0. vm_compute in E0. injection E0 as <-. 
  match type of E with _ = Ok (Clusters ((?T, ?o) :: (?N, ?o') :: ?c2)) =>
    assert (X : N <= k_time (rx_a 100 3 10) + sum (k_durs (rx_a 100 3 10))) by
     (refine (H rx_w 1000000 rx_gap [2] 1 T o N o' c2 (mkItem (mkBi (rx_a 100 3 10) 100000000) true 0 (k_frames (rx_a 100 3 10)) (Some (-1400))) _ _ _ _ E _ _);
      [intros [e|[]]; discriminate
      |intros t; apply rx_blk_ok; unfold rx_gap; destruct (t =? 1); vm_compute; reflexivity
      |reflexivity
      |unfold scale_ok; lia
      |vm_compute; auto 6
      |discriminate])
  end.
  vm_compute in X. apply X. reflexivity.
Qed.
Print Assumptions C83_held_back_refuted.
