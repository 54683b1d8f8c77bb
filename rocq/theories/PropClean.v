(** C84-C89: pieces of mkclean. *)
From Coq Require Import Permutation.
From Verif Require Import Base BaseProofs Tree Stream Frame BlockTime IntEltProofs BlockTimeProofs Clean CleanSpec CleanProofs CleanProofs2.

(** C84.  The header found for a track is the longest beginning shared by all the frames that were read, so taking
    it off and putting it back gives each frame again; without a frame it is empty. *)
Theorem C84_common_header : forall l,
  (frames_seen l = [] -> header_of l = []) /\
  (frames_seen l <> [] -> shared (header_of l) (frames_seen l)) /\
  (forall f, In f (frames_seen l) -> header_of l ++ skipn (length (header_of l)) f = f).
Proof.
  intros l. pose proof (header_spec l) as H. split; [intros E; rewrite E in H; exact H|]. split.
  - intros E. destruct (frames_seen l); [contradiction|exact H].
  - intros f Hf. apply begins_back. destruct (frames_seen l) as [|g s]; [contradiction|].
    destruct H as [H _]. rewrite Forall_forall in H. exact (H f Hf).
Qed.
Example C84_witness :
  let l := [mkHB true false [[0; 0; 1; 5]; [0; 0; 1; 6; 7]]; mkHB true true [[9]]; mkHB false false [[8]]; mkHB true false [[0; 0; 1]; [0; 0; 2]]] in
  header_of l = [0; 0] /\ frames_seen l = [[0; 0; 1; 5]; [0; 0; 1; 6; 7]; [0; 0; 1]; [0; 0; 2]].
Proof. vm_compute. split; reflexivity. Qed.
Print Assumptions C84_common_header.
(** The header stays right only for the frames that were looked at: a block already compressed is passed over, and
    its frames need not begin with the header. *)
Theorem C84_compressed_refuted : ~ (forall l, Forall (fun b => hb_read b = true) l -> Forall (begins (header_of l)) (concat (map hb_frames l))).
Proof.
  intros H. specialize (H [mkHB true false [[1; 2]]; mkHB true true [[3]]]).
  assert (F : Forall (begins [1; 2]) [[1; 2]; [3]]) by (apply H; repeat constructor).
  apply Forall_cons_iff in F. destruct F as [_ F]. apply Forall_cons_iff in F. destruct F as [[r F] _]. discriminate.
Qed.
Print Assumptions C84_compressed_refuted.

(** C85.  With a type for each track, the main track is the first video track, or else the first audio track, and
    the order of the tracks is all the others as they come and then the main track; without either there is no
    main track and the order is that of the tracks. *)
Theorem C85_main_track : forall l, Forall (fun p => snd p <> None) l ->
  exists main order, get_main_track l = Ok (main, order) /\
  ((exists n others, main = Some n /\ first_of_type TYPE_VIDEO l n others /\ order = others ++ [n]) \/
   (none_of_type TYPE_VIDEO l /\ exists n others, main = Some n /\ first_of_type TYPE_AUDIO l n others /\ order = others ++ [n]) \/
   (none_of_type TYPE_VIDEO l /\ none_of_type TYPE_AUDIO l /\ main = None /\ order = map fst l)).
Proof.
  intros l H. unfold get_main_track. destruct (first_type_spec TYPE_VIDEO l H) as (v & E & S). rewrite E. cbn [bind].
  destruct v as [n|]; [eexists _, _; split; [reflexivity|]; left; eexists _, _; split; [reflexivity|]; split; [exact S|reflexivity]|].
  destruct (first_type_spec TYPE_AUDIO l H) as (a & E' & S'). rewrite E'. cbn [bind].
  destruct a as [n|]; (eexists _, _; split; [reflexivity|]); right.
  - left. split; [exact S|]. eexists _, _. split; [reflexivity|]. split; [exact S'|reflexivity].
  - right. auto.
Qed.
Example C85_witness : let l := [(1, Some 2); (4, Some 17); (2, Some 1); (3, Some 1)] in
  Forall (fun p => snd p <> None) l /\ get_main_track l = Ok (Some 2, [1; 4; 3; 2]) /\ get_main_track [(4, Some 17); (1, Some 2)] = Ok (Some 1, [4; 1]).
Proof. split; [repeat constructor; discriminate|]. vm_compute. split; reflexivity. Qed.
Print Assumptions C85_main_track.
(** The order loses no track and names none twice. *)
Theorem C85_order_complete : forall l main order, Forall (fun p => snd p <> None) l -> get_main_track l = Ok (main, order) ->
  Permutation order (map fst l).
Proof.
  intros l main order H E. destruct (C85_main_track l H) as (m & o & E' & D). rewrite E in E'. injection E' as <- <-.
  assert (P : forall ty n others, first_of_type ty l n others -> Permutation (others ++ [n]) (map fst l)).
  { intros ty n others (l1 & l2 & -> & _ & ->). rewrite map_app. cbn [map fst]. rewrite <- app_assoc. apply Permutation_app_head.
    apply Permutation_sym, Permutation_cons_append. }
  destruct D as [(n & others & _ & S & ->)|[(_ & n & others & _ & S & ->)|(_ & _ & _ & ->)]]; [eapply P, S|eapply P, S|apply Permutation_refl].
Qed.
Print Assumptions C85_order_complete.
Example C85_order_witness : get_main_track [(7, Some 17); (5, Some 2); (6, Some 2)] = Ok (Some 5, [7; 6; 5]).
Proof. vm_compute. reflexivity. Qed.
(** A track before them without a TrackType stops the search by a null pointer. *)
Theorem C85_no_type_refuted : ~ (forall l, exists r, get_main_track l = Ok r).
Proof. intros H. destruct (H [(1, None); (2, Some 1)]) as [r E]. discriminate. Qed.
Print Assumptions C85_no_type_refuted.

(** C86.  New cue points: one for the first keyframe of the main track of a cluster, in the order of the clusters,
    each at least 800 ms after the one before; none is left out but for that rule; the answer tells whether there
    is one. *)
Theorem C86_cues : forall main cl, 0 <= main < 32768 -> Forall (Forall gchild_ok) cl ->
  let '(ok, q) := generate_cues main cl in
  apart q /\
  (forall j t, In (j, t) q -> exists c, nth_error cl j = Some c /\ first_key_at main t c) /\
  (forall k c t, nth_error cl k = Some c -> first_key_at main t c ->
     In (k, t) q \/ exists j u, In (j, u) q /\ (j < k)%nat /\ t < u + 800000000) /\
  (ok = true <-> exists k c t, nth_error cl k = Some c /\ first_key_at main t c).
Proof.
  intros main cl Hm HF. unfold generate_cues. destruct (gen_spec main cl Hm HF O INVALID_TIMESTAMP (or_introl eq_refl)) as (A & _ & B & C).
  set (q := gen_cues main O INVALID_TIMESTAMP cl) in *.
  assert (B' : forall j t, In (j, t) q -> exists c, nth_error cl j = Some c /\ first_key_at main t c).
  { intros j t H. destruct (B j t H) as (_ & c & H1 & H2). rewrite Nat.sub_0_r in H1. exists c. auto. }
  assert (C' : forall k c t, nth_error cl k = Some c -> first_key_at main t c -> In (k, t) q \/ exists j u, In (j, u) q /\ (j < k)%nat /\ t < u + 800000000).
  { intros k c t H1 H2. destruct (C k c t H1 H2) as [H|[[H _]|H]]; [left; exact H|contradiction|right; exact H]. }
  split; [exact A|]. split; [exact B'|]. split; [exact C'|]. split.
  - intros E. destruct q as [|[j t] q']; [discriminate|]. destruct (B' j t (or_introl eq_refl)) as (c & H1 & H2). exists j, c, t. auto.
  - intros (k & c & t & H1 & H2). destruct (C' k c t H1 H2) as [H|(j & u & H & _)]; destruct q; [destruct H|reflexivity|destruct H|reflexivity].
Qed.
Definition cu_cl : list (list gchild) :=
  [[GOther; GSimple 2 true 0; GSimple 1 true 40; GSimple 1 true 900000000];
   [GSimple 1 true 500000000];
   [GGroup [GBlock 1 600000000; GRef]; GGroup [GElse; GBlock 1 900000000]];
   [GSimple 1 false 1800000000];
   [GSimple 1 true 1700000040]].
Example C86_witness : Forall (Forall gchild_ok) cu_cl /\ generate_cues 1 cu_cl = (true, [(0%nat, 40); (2%nat, 900000000); (4%nat, 1700000040)]).
Proof. split; [|vm_compute; reflexivity]. repeat constructor; lia. Qed.
Print Assumptions C86_cues.
(** A track number of 32768 or more never gets one. *)
Theorem C86_big_number_refuted : ~ (forall main cl, 0 <= main -> fst (generate_cues main cl) = true <-> exists k c t, nth_error cl k = Some c /\ first_key_at main t c).
Proof.
  intros H. specialize (H 40000 [[GSimple 40000 true 0]] ltac:(lia)). destruct H as [_ H].
  assert (E : fst (generate_cues 40000 [[GSimple 40000 true 0]]) = true).
  { apply H. exists O, [GSimple 40000 true 0], 0. split; [reflexivity|]. exists [], (GSimple 40000 true 0), []. split; [reflexivity|]. split; constructor. }
  vm_compute in E. discriminate.
Qed.
Print Assumptions C86_big_number_refuted.
(** Keyframes 800 ms apart from all the cue points may have none: only the first keyframe of a cluster counts. *)
Theorem C86_later_keyframe_refuted : ~ (forall main cl k c t x, 0 <= main < 32768 -> Forall (Forall gchild_ok) cl -> nth_error cl k = Some c -> In x c -> is_key main t x ->
  exists j u, In (j, u) (snd (generate_cues main cl)) /\ Z.abs (t - u) < 800000000).
Proof.
  intros H. destruct (H 1 [[GSimple 1 true 0]; [GSimple 1 true 500000000; GSimple 1 true 5000000000]] 1%nat [GSimple 1 true 500000000; GSimple 1 true 5000000000] 5000000000 (GSimple 1 true 5000000000)) as (j & u & H1 & H2).
  - lia.
  - repeat constructor; lia.
  - reflexivity.
  - right. left. reflexivity.
  - constructor.
  - vm_compute in H1. destruct H1 as [H1|[]]. injection H1 as <- <-. lia.
Qed.
Print Assumptions C86_later_keyframe_refuted.

(** C87.  Looking for the block of a cue point: the cluster found has it, none is found only when no cluster has it,
    and from the start it is the first that has it. *)
Theorem C87_link : forall C (has : C -> bool) cl start,
  match link_cue has cl start with
  | Some i => exists c, nth_error cl i = Some c /\ has c = true
  | None => Forall (fun c => has c = false) cl
  end /\ (start = None -> forall i c j, link_cue has cl start = Some i -> (j < i)%nat -> nth_error cl j = Some c -> has c = false).
Proof. intros. apply link_cue_spec. Qed.
(** For all the cue points together. *)
Theorem C87_links : forall C Q (has : Q -> C -> bool) cl q start,
  Forall2 (fun x r => match r with Some i => exists c, nth_error cl i = Some c /\ has x c = true | None => Forall (fun c => has x c = false) cl end) q (link_cues has cl start q).
Proof. intros C Q has cl q. induction q as [|x q IH]; intros start; cbn [link_cues]; constructor; [apply link_cue_spec|apply IH]. Qed.
Definition lk_cl : list (list Z) := [[1]; [2]; [3]; [4]; [5]; [6]; [7]; [8]; [2]; [10]].
Definition lk_has (x : Z) (c : list Z) : bool := existsb (Z.eqb x) c.
Example C87_witness : link_cues lk_has lk_cl None [2; 9; 3; 10; 2] = [Some 1%nat; None; Some 2%nat; Some 9%nat; Some 1%nat].
Proof. vm_compute. reflexivity. Qed.
Print Assumptions C87_link.
Print Assumptions C87_links.
(** Going on from the last cluster, a block that an earlier cluster has as well is found in a later one. *)
Theorem C87_first_refuted : ~ (forall C (has : C -> bool) cl start i c j, link_cue has cl start = Some i -> (j < i)%nat -> nth_error cl j = Some c -> has c = false).
Proof. intros H. specialize (H _ (lk_has 2) lk_cl (Some 5%nat) 8%nat [2] 1%nat eq_refl ltac:(lia) eq_refl). vm_compute in H. discriminate. Qed.
Print Assumptions C87_first_refuted.

(** C88.  The clusters are written at strictly rising times: each at its own when that is after the one before,
    else one unit of the scale after it; then its blocks keep their times and those that fit are stored rounded
    towards the time of the cluster. *)
Theorem C88_times : forall s M c l cl t times, scale_ok s -> 0 <= M ->
  Forall2 (fun p t => ready s t (fst p) (snd p)) ((c, l) :: cl) (t :: times) -> Forall (fun t => 0 <= t <= M) (t :: times) -> M + (zlen cl + 1) * s < 2 ^ 59 ->
  exists out r, write_clusters INVALID_TIMESTAMP ((c, l) :: cl) = Ok ((c, l) :: out) /\
    Forall2 (out_ok s) cl out /\ r = map (fun p => cl_global (fst p)) out /\ pushed s t times r /\ rising (t :: r).
Proof.
  intros s M c l cl t times Hs M0 HF HM HB. inversion HF as [|? ? ? ? R HF']; subst. cbn [fst snd] in R. apply Forall_cons_iff in HM. destruct HM as [Ht HM].
  pose proof (zlen_nonneg cl) as Z0. assert (Hs0 : 0 < s) by apply Hs. cbn [write_clusters].
  destruct (write_cluster_spec s INVALID_TIMESTAMP t c l Hs R ltac:(nia) (or_introl eq_refl)) as (T & c' & l' & E & _ & _ & [(_ & -> & -> & ->)|(D & _)]); [|contradiction].
  rewrite E. cbn [bind]. destruct (write_clusters_spec s M Hs cl times t HF' HM M0 ltac:(lia) ltac:(nia)) as (out & O1 & O2 & O3). rewrite O1. cbn [bind].
  exists out, (map (fun p => cl_global (fst p)) out). split; [reflexivity|]. split; [exact O2|]. split; [reflexivity|]. split; [exact O3|]. eapply pushed_rising; eassumption.
Qed.
(** Times already rising are kept, so are the clusters. *)
Theorem C88_kept : forall s t times r, pushed s t times r -> rising (t :: times) -> r = times.
Proof. intros s t times r H1 H2. eapply pushed_same; eassumption. Qed.
(** When the times are whole units of the scale, so are those written, and the Timestamp elements rise as well. *)
Theorem C88_elements_rise : forall s t times r, 0 < s -> pushed s t times r -> Forall (fun t => (s | t)) (t :: times) -> rising (map (fun t => t / s) (t :: r)).
Proof.
  intros s t times r Hs H HF. apply Forall_cons_iff in HF. destruct HF as [Ht HF]. apply rising_div; [exact Hs| |eapply pushed_rising; eassumption].
  constructor; [exact Ht|]. eapply pushed_mult; eassumption.
Qed.
Definition wc_b (g : Z) : tblock := mkT 0 true g (Some 1000000) (Some 1000000) true true.
Definition wc_c (t : Z) (l : list Z) : clus * list tblock := (mkCl (Some (t / 1000000)) t (Some 1000000) (Some 1000000), map wc_b l).
Definition wc_in : list (clus * list tblock) := [wc_c 0 [0; 5000000]; wc_c 7000000 [9000000]; wc_c 3000000 [3000000; 11000000]; wc_c 8000000 []; wc_c 20000000 [21000000]].
Example C88_witness : Forall2 (fun p t => ready 1000000 t (fst p) (snd p)) wc_in [0; 7000000; 3000000; 8000000; 20000000] /\
  match write_clusters INVALID_TIMESTAMP wc_in with
  | Ok out => map (fun p => (cl_elt (fst p), map t_local (snd p))) out
  | _ => []
  end = [(Some 0, [0; 0]); (Some 7, [0]); (Some 8, [-5; 3]); (Some 9, []); (Some 20, [0])].
Proof. split; [|vm_compute; reflexivity]. repeat constructor; unfold big; try (vm_compute; reflexivity). Qed.
Print Assumptions C88_times.
Print Assumptions C88_kept.
Print Assumptions C88_elements_rise.
(** Otherwise the Timestamp elements of two clusters can be the same. *)
Theorem C88_elements_refuted : ~ (forall s t times r, scale_ok s -> pushed s t times r -> rising (map (fun t => t / s) (t :: r))).
Proof.
  intros H. specialize (H 1000000 0 [500000] [500000] ltac:(unfold scale_ok; lia)).
  assert (P : pushed 1000000 0 [500000] [500000]) by (apply pushed_keep; [lia|constructor]). specialize (H P). vm_compute in H. destruct H as [H _]. discriminate.
Qed.
Print Assumptions C88_elements_refuted.

(** C89.  The scale chosen is that of the source times the least power of two that makes it 100000 or more. *)
Theorem C89_scale : forall s, 0 < s < 2 ^ 62 ->
  exists k, 0 <= k /\ scale_loop 17 s = Some (s * 2 ^ k) /\ 100000 <= s * 2 ^ k /\ (k = 0 \/ 0 < k /\ s * 2 ^ (k - 1) < 100000).
Proof. intros s Hs. apply scale_loop_spec; [lia|lia|]. change (2 ^ Z.of_nat 17) with 131072. lia. Qed.
Example C89_witness : scale_loop 17 1000 = Some 128000 /\ scale_loop 17 1000000 = Some 1000000 /\ scale_loop 17 1 = Some 131072.
Proof. vm_compute. repeat split. Qed.
Print Assumptions C89_scale.
(** A source with a scale of 0 is never finished with. *)
Theorem C89_zero_refuted : ~ (forall s, 0 <= s < 2 ^ 62 -> exists fuel r, scale_loop fuel s = Some r).
Proof.
  intros H. destruct (H 0 ltac:(lia)) as (fuel & r & E). revert E. induction fuel as [|f IH]; [discriminate|exact IH].
Qed.
Print Assumptions C89_zero_refuted.
