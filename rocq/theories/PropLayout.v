(** C90-C91: where mkclean puts the elements of a file. *)
From Verif Require Import Base BaseProofs Vint VintProofs EbmlId IntElt IntEltSpec IntEltProofs EltHead Ebml Tree TreeRead Create Arr Stream Frame BlockTime Cues CuesSpec Layout LayoutSpec LayoutProofs LayoutProofs2 LayoutProofs3.

(** C90.  Settling the Cues against the clusters that follow them ends, whatever data size is supposed at first: the
    clusters lie one after the other right after the Cues, every cue point holds the position of its cluster from
    the data of the segment, and the data size is that of the cue points with those positions. *)
Theorem C90_settles : forall start segd sizes k q s fuel,
  0 <= segd <= start -> Forall (fun s => 0 <= s) sizes -> Forall (cue_ok (length sizes)) q -> k = 0 \/ k = 6 -> 0 <= s ->
  start + s + 40 * zlen q + 15 + sum sizes < 2 ^ 63 -> (7 * length q + 2 <= fuel)%nat ->
  exists d cp ps, settle fuel start segd sizes k q s = Ok (k + d, cp, ps) /\ cues_size q ps d /\
    consecutive (start + full L_Cues (k + d)) sizes cp /\ Forall2 (leads segd cp) q ps.
Proof.
  intros start segd sizes k q s fuel Hs Hz Hq Hk H0 HB Hf. pose proof (sum_nonneg _ Hz) as Sz. pose proof (zlen_nonneg q) as Zq. pose proof (cbase_pos q _ Hq) as Hc.
  assert (Hroom : start + (k + cbase q + 7 * zlen q) + 9 + sum sizes < 2 ^ 63) by lia.
  assert (Hlow : low_room start sizes s) by (split; lia).
  destruct (settle_ok start segd k sizes q Hz Hq Hk Hs Hroom s fuel Hlow Hf) as (x & Hx & Hn & ->).
  pose proof (at_size_range start x ltac:(lia)) as Ra.
  destruct (csum_size segd sizes (at_size start x) q Hz ltac:(lia) ltac:(lia) Hq) as [C1 C2]. unfold next in Hn.
  eexists. eexists. eexists. split; [rewrite <- Hn at 1; reflexivity|]. split; [exact C1|]. split; [|exact C2]. rewrite Hn. apply place_con.
Qed.
Example C90_witness :
  let q := [mkLC 0 1 6 (Some 0%nat); mkLC 1000 1 6 (Some 1%nat)] in
  Forall (cue_ok 2) q /\ settle 16 65500 100 [3000; 3006] 6 q 0 = Ok (48, [65553; 68553], [65453; 68453]) /\
  settle 16 65582 100 [3000; 3006] 6 q 0 = Ok (48, [65635; 68635], [65535; 68535]) /\
  settle 16 65583 100 [3000; 3006] 6 q 0 = Ok (49, [65637; 68637], [65537; 68537]).
Proof.
  cbn zeta. split; [|vm_compute; repeat split; reflexivity].
  repeat (constructor; [unfold cue_ok; cbn [lc_time lc_track lc_chk lc_clus]; split; [lia|split; [lia|split; [right; reflexivity|eexists; split; [reflexivity|lia]]]]|]). constructor.
Qed.
Print Assumptions C90_settles.
(** The sizes used are those of the element trees: the cue point that MATROSKA_CuePointUpdate makes has, after its
    size is updated, the size of the layout. *)
Theorem C90_cue_point_size : forall td flt fuel prof q i k ch s bt track c seg n cl, (2 <= fuel)%nat -> q_elt q = Master i k ch -> e_kind i = Known 1 -> e_fin i = true -> e_szlen i = 0 -> e_defsz i = -1 ->
  seg_scale (q_seg q) = s -> 0 < s -> Z.abs bt < 2 ^ 62 -> 0 <= track < 2 ^ 16 -> - 2 ^ 62 < e_epos c < 2 ^ 62 -> - 2 ^ 62 < position_data seg < 2 ^ 62 ->
  n = mkLC (Z.quot bt s) track (if k =? 0 then 0 else 6) cl ->
  exists q', cue_update td fuel prof q bt track (Some c) seg = Ok (ERR_NONE, q') /\
    exists d e', update_size mk_E flt false (q_elt q') = Ok (d, e') /\ full_size_of mk_E flt false e' = Ok (cue_full n (e_epos c - position_data seg)).
Proof. exact cue_tree_size. Qed.
Example C90_cue_point_size_ex :
  let at_ ep sp := mkInfo (Known 99) true false true 1000 1 0 ep sp 0 in
  match cue_update (fun x => x) 2 0 (mkCue (Master (mkInfo (Known 1) true true true 4 (-1) 0 0 0 0) 1 []) None) 12345678 3 (Some (at_ 500 504)) (at_ 40 44) with
  | Ok (_, q) => match update_size mk_E (fun _ _ => false) false (q_elt q) with
                 | Ok (_, e) => full_size_of mk_E (fun _ _ => false) false e = Ok (cue_full (mkLC 12 3 6 None) 454)
                 | _ => False end
  | _ => False
  end.
Proof. vm_compute. reflexivity. Qed.
Print Assumptions C90_cue_point_size.
(** A cue point whose block was not found is followed as if it had one: the null pointer. *)
Theorem C90_unlinked_refuted : ~ (forall start segd sizes k q s, exists fuel r, settle fuel start segd sizes k q s = Ok r).
Proof.
  intros H. destruct (H 1000 100 [3000; 3006] 6 [mkLC 0 1 6 (Some 0%nat); mkLC 1000 1 6 None] 50) as ([|fuel] & r & E); vm_compute in E; discriminate.
Qed.
Print Assumptions C90_unlinked_refuted.

(** C91.  Writing a file with Cues gives a file or a failure that is told (the Cues no longer fit, or the size of the
    SeekHead changed).  In the file the elements follow each other without gap or overlap, from where the SeekHead
    and the room kept after it end to where the segment ends; the SeekHead entries lead, from the data of the
    segment as its head stands at the end, to the elements; and the cue points lead to their clusters from the data
    of the segment as its head was first written, moved by what the size of the SeekHead changed after the plan. *)
Theorem C91_file : forall spos d0 l0 j wsizes changed fuel, 0 <= spos -> (0 <= d0 /\ l0 = 0 \/ d0 = -1 /\ l0 = 8) -> job_ok (spos + coded_size_length d0 l0 true) j -> j_cues j <> [] ->
  (7 * length (j_cues j) + 2 <= fuel)%nat -> length wsizes = length (j_bases j) -> Forall (fun s => 0 <= s) wsizes -> sum wsizes < 2 ^ 61 -> (changed = false -> wsizes = sizes_of j) ->
  exists pl w, make_plan fuel (spos + coded_size_length d0 l0 true) j = Ok pl /\ write_file fuel spos d0 l0 j wsizes changed = Ok w /\
    match w with
    | Failed c => c = -18 /\ changed = true \/ c = -23
    | File o =>
        o_segd o = spos + coded_size_length d0 l0 true /\
        o_segd' o = spos + Z.max (coded_size_length d0 l0 true) (coded_size_length (o_size o) 0 true) /\
        consecutive (o_segd o + pl_seek3 pl + j_void j) (map snd (j_parts j) ++ full L_Cues (pl_size pl) :: wsizes) (o_parts o ++ o_cues o :: o_clus o) /\
        o_size o = pl_seek3 pl + j_void j + sum (map snd (j_parts j)) + full L_Cues (pl_size pl) + sum wsizes /\
        (exists first, hd_error (o_clus o) = Some first /\ seeks (o_segd' o) (o_seek o) (real_list j o first)) /\
        Forall2 (leads (o_segd o + (if changed then 0 else pl_seek3 pl - pl_seek2 pl)) (o_clus o)) (j_cues j) (o_held o)
    end.
Proof. exact write_ok. Qed.
Print Assumptions C91_file.
(** So everything leads where it should when the segment needs no longer head than it had and either the clusters
    changed or the SeekHead did not; the SeekHead does not change when the positions supposed for the Cues and the
    first cluster need as many bytes as the planned ones. *)
Theorem C91_right : forall spos d0 l0 j wsizes changed fuel pl o, 0 <= spos -> (0 <= d0 /\ l0 = 0 \/ d0 = -1 /\ l0 = 8) -> job_ok (spos + coded_size_length d0 l0 true) j -> j_cues j <> [] ->
  (7 * length (j_cues j) + 2 <= fuel)%nat -> length wsizes = length (j_bases j) -> Forall (fun s => 0 <= s) wsizes -> sum wsizes < 2 ^ 61 -> (changed = false -> wsizes = sizes_of j) ->
  make_plan fuel (spos + coded_size_length d0 l0 true) j = Ok pl -> write_file fuel spos d0 l0 j wsizes changed = Ok (File o) ->
  coded_size_length (o_size o) 0 true <= coded_size_length d0 l0 true ->
  changed = true \/ (usize (s64 (j_cest j - o_segd o)) = usize (s64 (pl_start pl - o_segd o)) /\ usize (s64 (j_fest j - o_segd o)) = usize (s64 (first_pos (pl_clus pl) (j_fest j) - o_segd o))) ->
  o_segd' o = o_segd o /\ Forall2 (leads (o_segd' o) (o_clus o)) (j_cues j) (o_held o) /\
  exists first, hd_error (o_clus o) = Some first /\ seeks (o_segd' o) (o_seek o) (real_list j o first).
Proof.
  intros spos d0 l0 j wsizes changed fuel pl o H1 H2 H3 H4 H5 H6 H7 H8 H9 E W Hh HC.
  destruct (write_ok spos d0 l0 j wsizes changed fuel H1 H2 H3 H4 H5 H6 H7 H8 H9) as (pl' & w & E' & W' & P). rewrite E in E'. injection E' as <-. rewrite W in W'. injection W' as <-.
  destruct P as (S1 & S2 & _ & _ & S5 & S6). assert (Es : o_segd' o = o_segd o) by lia. split; [exact Es|]. split; [|exact S5]. rewrite Es.
  replace (o_segd o) with (o_segd o + (if changed then 0 else pl_seek3 pl - pl_seek2 pl)); [exact S6|].
  destruct HC as [->|[U1 U2]]; [lia|]. destruct (make_plan_ok _ j fuel H3 H5) as (pl' & E' & _ & _ & _ & _ & _ & _ & _ & Q). rewrite E in E'. injection E' as <-.
  rewrite <- S1 in Q. rewrite (Q U1 U2). destruct changed; lia.
Qed.
(** A source of 1000000 bytes (head of 3), Info and Tracks of [tr] bytes, no checksums, two clusters with a cue
    point each; the positions first supposed as mkclean.c 2101-2127 and 2925-2948 do. *)
Definition job_of (tr : Z) : job :=
  mkJob [(357149030, 100); (374648427, tr)] [106; 266] 0 true 110 [mkLC 0 1 0 (Some 0%nat); mkLC 1000 1 0 (Some 1%nat)] 30 (106 + 160 + tr) [3000; 3000] (106 + 160 + tr + 35 + 110).
Lemma job_of_ok segd tr : 0 <= segd < 2 ^ 40 -> 0 <= tr < 2 ^ 40 -> job_ok segd (job_of tr).
Proof.
  intros Hs Ht. unfold job_ok, job_of. cbn [j_parts j_est j_chk j_safe j_void j_cues j_size j_cest j_bases j_fest map snd length].
  split; [lia|]. split; [repeat (constructor; [cbn [snd]; lia|]); constructor|]. split; [left; reflexivity|]. split; [lia|]. split.
  { repeat (constructor; [unfold cue_ok; cbn [lc_time lc_track lc_chk lc_clus]; split; [lia|split; [lia|split; [left; reflexivity|eexists; split; [reflexivity|lia]]]]|]). constructor. }
  split; [lia|]. split; [repeat (constructor; [lia|]); constructor|].
  match goal with |- context [sizes_of ?x] => change (sizes_of x) with [3006; 3010] || change (sizes_of x) with (sizes_of (job_of 0)) end.
  let v := eval vm_compute in (sum (sizes_of (job_of 0))) in change (sum (sizes_of (job_of 0))) with v. unfold sum, zlen. cbn [fold_right length]. lia.
Qed.
Example C91_witness :
  job_ok (44 + coded_size_length 1000000 0 true) (job_of 500) /\
  write_file 16 44 1000000 0 (job_of 500) (sizes_of (job_of 500)) false =
    Ok (File (mkOut 47 47 [(357149030, 174); (374648427, 274); (475249515, 774); (524531317, 808)] [221; 321] 821 [855; 3861] [808; 3814] 6824 6871)).
Proof. split; [apply job_of_ok; vm_compute; split; congruence|vm_compute; reflexivity]. Qed.
Print Assumptions C91_right.
(** The position supposed for the Cues leaves out the room kept after the SeekHead.  When that room takes it over a
    power of 256, the SeekHead changes size after the cue points were settled: mkclean ends with success and every
    cue point is off. *)
Theorem C91_seekhead_size_refuted : ~ (forall spos d0 j fuel o, job_ok (spos + coded_size_length d0 0 true) j ->
  write_file fuel spos d0 0 j (sizes_of j) false = Ok (File o) -> o_segd' o = o_segd o -> Forall2 (leads (o_segd' o) (o_clus o)) (j_cues j) (o_held o)).
Proof.
  assert (J : job_ok (44 + coded_size_length 1000000 0 true) (job_of 65200)) by (apply job_of_ok; [vm_compute; split; congruence|lia]).
  intros H. specialize (H 44 1000000 (job_of 65200) 16%nat (mkOut 47 47 [(357149030, 174); (374648427, 274); (475249515, 65474); (524531317, 65509)] [221; 321] 65521 [65556; 68562] [65510; 68516] 71525 71572)
    J ltac:(vm_compute; reflexivity) eq_refl).
  cbn [o_segd' o_clus o_held job_of j_cues] in H. inversion H as [|c p q ps (i & x & E & N & L) _ Ec]; subst. cbn in E. injection E as <-. cbn in N. injection N. lia.
Qed.
Print Assumptions C91_seekhead_size_refuted.
(** The check that the segment still fits its head is always passed (the source says so): a segment that needs a
    longer head gets it, the head then covers the first byte of what followed and the cue points are off. *)
Theorem C91_segment_head_refuted : ~ (forall spos d0 j fuel o, job_ok (spos + coded_size_length d0 0 true) j ->
  write_file fuel spos d0 0 j (sizes_of j) false = Ok (File o) -> o_segd' o = o_segd o).
Proof.
  assert (J : job_ok (44 + coded_size_length 6000 0 true) (job_of 20000)) by (apply job_of_ok; [vm_compute; split; congruence|lia]).
  intros H. specialize (H 44 6000 (job_of 20000) 16%nat (mkOut 46 47 [(357149030, 173); (374648427, 273); (475249515, 20273); (524531317, 20307)] [220; 320] 20320 [20354; 23360] [20308; 23314] 26324 26370)
    J ltac:(vm_compute; reflexivity)).
  discriminate.
Qed.
Print Assumptions C91_segment_head_refuted.
