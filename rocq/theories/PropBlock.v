(** Properties of blocks: header, lacing, header stripping, frames. *)
From Verif Require Import Base BaseProofs FinderSpec Arr ArrProofs2 Vint VintSpec VintProofs StreamProofs Stream Ebml Tree TreeRead TreeProofs2 TreeProofs3.
From Verif Require Import Block BlockSpec BlockProofs BlockProofs2 BlockProofs3 Frame BlockProofs4 BlockProofs5 BlockProofs6.

(** A block holding frames, the block the finder returns for [dsize] bytes at [dpos], a file. *)
Definition made (simple : bool) (track time : Z) (key disc invis : bool) (lacing : Z) (fs : list (list Z)) : block :=
  mkBlock simple true true 0 0 track time true key disc invis lacing 0 (map zlen fs) [] (concat fs) [].
Definition found (simple : bool) (dsize dpos : Z) : block := mkBlock simple false false dsize dpos 0 0 false false false false 0 0 [] [] [] [].
Definition file (l : list Z) : ist := mkIn false 0 l.
(** Header stripping of [h] with a given scope. *)
Definition strip (scope : option Z) (h : list Z) : encodings := Some [mkEnc true scope (Some (mkCompr (Some 3) (Some h)))].

(** ** C25 *)

(** Rendering writes exactly the bytes the format prescribes for the fields and the frames. *)
Theorem C25_write : forall b t h ps, 0 <= b_track b < 16384 -> -32768 <= b_time b < 32768 -> track_header t h ->
  holds (b_sizes b) (b_data b) (map (app h) ps) -> lace_ok (b_lacing b) ps ->
  exists bs, block_code 4 (b_simple b) (b_track b) (b_time b) (b_key b) (b_disc b) (b_invis b) (b_lacing b) ps bs /\
    forall o, room o (zlen bs) -> render_block b t o = Ok (ERR_NONE, zlen bs, o_put o bs).
Proof.
  intros b t h ps Ht Hm Hth Hh Hl. destruct (header_stripped t h Hth) as [Hst _]. destruct (render_block_ok b t h ps Ht Hm Hst Hh Hl) as (bs & Hc & Hr & _). exists bs. split; assumption.
Qed.
Print Assumptions C25_write.
Example C25_write_ex : render_block (made true 300 (-2) true false true 1 [[1; 2]; []; [3]]) None (OFile [] 0) =
  Ok (ERR_NONE, 11, OFile [65; 44; 255; 254; 138; 2; 2; 0; 1; 2; 3] 11).
Proof. reflexivity. Qed.

(** Track numbers the block head cannot hold are refused, and nothing is written. *)
Theorem C25_large_track : forall b t o, 16384 <= b_track b -> render_block b t o = Ok (ERR_INVALID_DATA, 0, o).
Proof.
  intros b t o H. unfold render_block, block_head. replace (b_track b <? 128) with false by lia. replace (b_track b <? 16384) with false by lia. reflexivity.
Qed.
Print Assumptions C25_large_track.
Example C25_large_track_ex : 16384 <= b_track (made true 20000 0 false false false 0 [[1]]).
Proof. vm_compute; discriminate. Qed.

(** Reading the head of a block gives back every field, the frame sizes and the place of the frames. *)
Theorem C25_read : forall fuel r s pos track time key disc invis lacing ps bs, 0 <= track < 16384 -> -32768 <= time < 32768 ->
  block_code 4 (b_simple r) track time key disc invis lacing ps bs -> placed fuel r s bs [] ps -> (lacing = 2 -> zlen ps < 256) ->
  exists r', read_head fuel r s pos = Ok (ERR_NONE, r', b_first r') /\ shows r' track time key disc invis lacing /\ b_sizes r' = map zlen ps /\ at_pos (in_data s) (b_first r') (concat ps).
Proof.
  intros fuel r s pos track time key disc invis lacing ps bs Ht Hm Hc Hp H2.
  destruct (read_head_ok fuel r s pos track time key disc invis lacing [] ps bs Ht Hm Hc Hp H2) as (r1 & H1 & H3 & H4 & _ & _ & _ & _ & H5 & _). exists r1. repeat (split; [assumption|]). assumption.
Qed.
Print Assumptions C25_read.
Example C25_read_ex : exists r', read_head 10 (found true 11 2) (file ([9; 9] ++ [65; 44; 255; 254; 138; 2; 2; 0; 1; 2; 3])) 0 = Ok (ERR_NONE, r', 10) /\
  b_track r' = 300 /\ b_time r' = -2 /\ b_key r' = true /\ b_disc r' = false /\ b_invis r' = true /\ b_sizes r' = [2; 0; 1].
Proof. eexists. vm_compute. repeat split. Qed.

(** Full round trip: one block in any lacing its frames allow. *)
Definition round_trip (b : block) (t : encodings) (h : list Z) (ps : list (list Z)) : Prop :=
  exists bs, (forall o, room o (zlen bs) -> render_block b t o = Ok (ERR_NONE, zlen bs, o_put o bs)) /\
    forall fuel r moved s pos, b_simple r = b_simple b -> placed fuel r s bs h ps ->
      exists r' q, read_frames fuel r t moved s pos = Ok (ERR_NONE, r', q) /\ shows r' (b_track b) (b_time b) (b_key b) (b_disc b) (b_invis b) (b_lacing b) /\
        b_set r' = true /\ holds (b_sizes r') (b_data r') (map (app h) ps).
Lemma round_trip_ok b t h ps : 0 <= b_track b < 16384 -> -32768 <= b_time b < 32768 -> track_header t h ->
  holds (b_sizes b) (b_data b) (map (app h) ps) -> lace_ok (b_lacing b) ps -> (b_lacing b = 2 -> zlen ps < 256) -> round_trip b t h ps.
Proof.
  intros Ht Hm Hth Hh Hlo H2. destruct (C25_write b t h ps Ht Hm Hth Hh Hlo) as (bs & Hc & Hr). exists bs. split; [exact Hr|].
  intros fuel r moved s pos Hs Hp. rewrite <- Hs in Hc. exact (read_frames_ok fuel r t moved s pos _ _ _ _ _ _ h ps bs Ht Hm Hc Hth Hp H2).
Qed.

(** A block of four bytes (an empty frame) at the end of a file is a valid block that is not read: the
    reader wants five bytes. *)
Theorem C25_empty_frame_refuted : exists bs, block_code 4 true 1 0 true false false 0 [[]] bs /\ at_pos bs 0 bs /\
  exists r p, read_head 10 (found true (zlen bs) 0) (file bs) 0 = Ok (ERR_END_OF_FILE, r, p).
Proof.
  exists [129; 0; 0; 128]. split; [exists []; split; [constructor|reflexivity]|]. split; [vm_compute; repeat split; discriminate|]. eexists _, _. vm_compute. reflexivity.
Qed.
Print Assumptions C25_empty_frame_refuted.

(** ** C26 *)
Theorem C26_xiph_round_trip : forall b t h fs f, 0 <= b_track b < 16384 -> -32768 <= b_time b < 32768 -> track_header t h -> holds (b_sizes b) (b_data b) (map (app h) (fs ++ [f])) ->
  b_lacing b = 1 -> zlen fs < 256 -> fold_right (fun x a => zlen x / 255 + 1 + a) 0 fs <= 4 * (zlen fs + 1) -> round_trip b t h (fs ++ [f]).
Proof.
  intros b t h fs f Ht Hm Hth Hh Hl Hn Hc. apply round_trip_ok; try assumption; [|lia]. rewrite Hl. exists fs, f. split; [reflexivity|]. split; [exact Hn|].
  change (concat (map (fun x : list Z => xiph_code (zlen x)) fs)) with (xiph_codes fs). rewrite xiph_codes_len, zlen_app. change (zlen [f]) with 1.
  assert (Hx : xsum (map zlen fs) = fold_right (fun x a => zlen x / 255 + 1 + a) 0 fs) by (clear; induction fs as [|x fs IH]; [reflexivity|]; cbn [map xsum fold_right]; fold (xsum (map zlen fs)); rewrite IH; reflexivity). lia.
Qed.
Print Assumptions C26_xiph_round_trip.
Example C26_ex : exists r q, read_frames 10 (found true 269 0) None false (file ([129; 0; 5; 2; 2; 255; 0; 1] ++ repeat 7 255 ++ [8; 9; 10; 11; 12; 13])) 0 = Ok (ERR_NONE, r, q) /\ b_sizes r = [255; 1; 5].
Proof. eexists _, _. vm_compute. split; reflexivity. Qed.

(** A valid Xiph-laced block read by the library and rendered again writes outside the buffer of the
    lace: it has four bytes per frame, and a size takes one byte per 255 bytes. *)
Theorem C26_long_frame_refuted : exists ps bs r q, block_code 4 true 1 0 true false false 1 ps bs /\ read_frames 100 (found true (zlen bs) 0) None false (file bs) 0 = Ok (ERR_NONE, r, q) /\
  holds (b_sizes r) (b_data r) ps /\ forall o, room o 5000 -> render_block r None o = Bad.
Proof.
  set (f := repeat 7 (255 * 8)). exists ([f] ++ [[1]]), (head_code true 1 0 true false false 1 ++ (zlen [f] :: concat (map (fun x => xiph_code (zlen x)) [f])) ++ concat ([f] ++ [[1]])).
  eexists _, _. split; [exists (zlen [f] :: concat (map (fun x => xiph_code (zlen x)) [f])); split; [constructor; reflexivity|reflexivity]|].
  split; [vm_compute; reflexivity|]. split; [vm_compute; split; reflexivity|].
  intros o Ho. unfold render_block. match goal with |- context [block_head ?x] => change (block_head x) with (Some [129; 0; 0; 130]) end. cbv iota beta.
  rewrite o_write_ok by (eapply room_le; [exact Ho|vm_compute; discriminate]). cbn [bind]. change (ERR_NONE =? ERR_NONE) with true. rewrite Z.eqb_refl. cbn [negb find_header bind]. vm_compute. reflexivity.
Qed.
Print Assumptions C26_long_frame_refuted.

(** ** C27 *)
Theorem C27_ebml_round_trip : forall b t h f fs g, 0 <= b_track b < 16384 -> -32768 <= b_time b < 32768 -> track_header t h ->
  holds (b_sizes b) (b_data b) (map (app h) (f :: fs ++ [g])) -> b_lacing b = 3 -> zlen fs < 255 -> zlen f < 2 ^ 28 - 1 -> steps_ok (zlen f) (map zlen fs) -> round_trip b t h (f :: fs ++ [g]).
Proof.
  intros b t h f fs g Ht Hm Hth Hh Hl Hn Hf Hs. apply round_trip_ok; try assumption; [|lia]. rewrite Hl. exists f, fs, g. repeat (split; [reflexivity || assumption|]). assumption.
Qed.
Print Assumptions C27_ebml_round_trip.
Example C27_ex : exists r q, read_frames 10 (found true 14 0) None false (file [129; 0; 5; 6; 2; 131; 189; 1; 2; 3; 4; 5; 6; 7]) 0 = Ok (ERR_NONE, r, q) /\ b_sizes r = [3; 1; 3] /\ b_data r = [1; 2; 3; 4; 5; 6; 7].
Proof. eexists _, _. vm_compute. repeat split. Qed.

(** The format lets a size take up to eight bytes; the reader has four bytes per frame but one. *)
Theorem C27_long_code_refuted : exists ps bs, block_code 8 true 1 0 true false false 3 ps bs /\ read_frames 100 (found true (zlen bs) 0) None false (file bs) 0 = Bad.
Proof.
  set (c := [8; 0; 0; 0; 1]). exists ([1] :: [] ++ [[2]]), (head_code true 1 0 true false false 3 ++ (zlen [[1]] :: c ++ []) ++ concat ([1] :: [] ++ [[2]])).
  split; [|vm_compute; reflexivity]. eexists. split; [|reflexivity]. apply lace_ebml; [reflexivity| |vm_compute; discriminate|constructor].
  unfold vint_spec. vm_compute. repeat split; try discriminate. repeat constructor; vm_compute; discriminate || reflexivity.
Qed.
Print Assumptions C27_long_code_refuted.

(** ** C28 *)
Theorem C28_fixed_round_trip : forall b t h f fs, 0 <= b_track b < 16384 -> -32768 <= b_time b < 32768 -> track_header t h -> holds (b_sizes b) (b_data b) (map (app h) (f :: fs)) ->
  b_lacing b = 2 -> zlen fs < 255 -> Forall (fun x => zlen x = zlen f) fs -> round_trip b t h (f :: fs).
Proof.
  intros b t h f fs Ht Hm Hth Hh Hl Hn Hs. apply round_trip_ok; try assumption; [|rewrite zlen_cons; lia]. rewrite Hl. exists f, fs. split; [reflexivity|]. split; [lia|exact Hs].
Qed.
Print Assumptions C28_fixed_round_trip.
Example C28_ex : exists r q, read_frames 10 (found true 11 0) None false (file [129; 0; 5; 4; 2; 1; 2; 3; 4; 5; 6]) 0 = Ok (ERR_NONE, r, q) /\ b_sizes r = [2; 2; 2] /\ b_data r = [1; 2; 3; 4; 5; 6].
Proof. eexists _, _. vm_compute. repeat split. Qed.

(** When the frames do not divide the data, each frame has the quotient: fewer bytes than frames are lost. *)
Theorem C28_remainder : forall fuel b s pos b' q, bytes_ok (in_data s) -> read_parse fuel b s pos = Ok (ERR_NONE, b', q) -> b_lacing b' = 2 -> 0 <= b_dsize b - (b_first b' - b_dpos b) < 2 ^ 31 ->
  exists x, b_sizes b' = repeat x (length (b_sizes b')) /\ 0 <= b_dsize b - (b_first b' - b_dpos b) - sumz (b_sizes b') < zlen (b_sizes b').
Proof.
  intros fuel b s pos b' q Hb Hp Hl Hr. destruct (parse_facts fuel b s pos b' q Hb Hp) as (_ & _ & _ & _ & _ & _ & _ & _ & _ & _ & H2). destruct (H2 Hl) as (x & Hx & Hc). exists x.
  split; [rewrite Hx at 1; f_equal; unfold zlen; lia|]. specialize (Hc Hr). lia.
Qed.
Print Assumptions C28_remainder.
Example C28_remainder_ex : exists r q, read_parse 10 (found true 13 0) (file [129; 0; 5; 4; 2; 1; 2; 3; 4; 5; 6; 7; 8]) 0 = Ok (ERR_NONE, r, q) /\ b_lacing r = 2 /\ b_sizes r = [2; 2; 2].
Proof. eexists _, _. vm_compute. repeat split. Qed.

(** A block of 256 frames of the same size, which the library writes, is never read to the end: the
    loop counter is a byte. *)
Theorem C28_256_frames_refuted : exists b bs, b_lacing b = 2 /\ holds (b_sizes b) (b_data b) (repeat [7] 256) /\ (forall o, room o (zlen bs) -> render_block b None o = Ok (ERR_NONE, zlen bs, o_put o bs)) /\
  forall fuel, read_frames fuel (found true (zlen bs) 0) None false (file bs) 0 = Fuel.
Proof.
  set (b := made true 1 0 true false false 2 (repeat [7] 256)). exists b, ([129; 0; 0; 132; 255] ++ repeat 7 256). split; [reflexivity|]. split; [split; reflexivity|]. split.
  - intros o Ho. destruct (C25_write b None [] (repeat [7] 256)) as (bs & (l & Hl & Hbs) & Hr); [vm_compute; split; [discriminate|reflexivity]|vm_compute; split; [discriminate|reflexivity]|constructor|split; reflexivity| |].
    + exists [7], (repeat [7] 255). split; [reflexivity|]. split; [reflexivity|]. apply Forall_forall. intros x Hx. apply repeat_spec in Hx. subst x. reflexivity.
    + assert (E : [129; 0; 0; 132; 255] ++ repeat 7 256 = bs); [|rewrite E in Ho |- *; apply Hr; exact Ho]. rewrite Hbs. inversion Hl; reflexivity.
  - intros fuel. vm_compute. reflexivity.
Qed.
Print Assumptions C28_256_frames_refuted.

(** ** C29 *)
Theorem C29_size : forall b t h ps, 0 <= b_track b < 16384 -> -32768 <= b_time b < 32768 -> track_header t h ->
  holds (b_sizes b) (b_data b) (map (app h) ps) -> lace_ok (b_lacing b) ps -> b_need b = true ->
  exists n b', update_block_size b t = Ok (n, b') /\ b_dsize b' = n /\ b_need b' = false /\ exists bs, zlen bs = n /\
    forall o, room o n -> render_block b t o = Ok (ERR_NONE, n, o_put o bs) /\ render_block b' t o = Ok (ERR_NONE, n, o_put o bs).
Proof.
  intros b t h ps Ht Hm Hth Hh Hl Hn. destruct (header_stripped t h Hth) as [Hst _]. destruct (render_block_ok b t h ps Ht Hm Hst Hh Hl) as (bs & _ & Hr & Hu).
  exists (zlen bs), (bl_need (bl_dsize b (zlen bs)) false). split; [apply Hu; exact Hn|]. split; [reflexivity|]. split; [reflexivity|]. exists bs. split; [reflexivity|]. intros o Ho. split; apply Hr; exact Ho.
Qed.
Print Assumptions C29_size.
Example C29_ex : forall o, update_block_size (made false 5 (-100) false false false 3 [[1; 2; 3]; [4]; [5; 6]]) None = Ok (13, o) -> b_dsize o = 13.
Proof. intros o H. vm_compute in H. injection H as <-. reflexivity. Qed.
(** A single frame can be written with EBML lacing too: the size announced is still the one written,
    the bytes being the head, a zero count, the size of the frame and the frame. *)
Theorem C29_one_ebml : forall b f, 0 <= b_track b < 16384 -> -32768 <= b_time b < 32768 -> holds (b_sizes b) (b_data b) [f] -> b_lacing b = 3 -> b_need b = true -> zlen f < 2 ^ 27 ->
  exists c n b', let hd := head_code (b_simple b) (b_track b) (b_time b) (b_key b) (b_disc b) (b_invis b) 3 in update_block_size b None = Ok (n, b') /\ b_dsize b' = n /\ vint_spec c (zlen f) /\
    n = zlen (hd ++ [0] ++ c ++ f) /\ forall o, room o n -> render_block b None o = Ok (ERR_NONE, n, o_put o (hd ++ [0] ++ c ++ f)).
Proof.
  intros b f Ht Hm [Hs Hd] Hl Hn Hf. cbn [map concat] in Hs, Hd. rewrite app_nil_r in Hd. destruct (first_code_ok (zlen f)) as (c & Hc & Hv & Hz & Hz4). { pose proof (zlen_nonneg f). lia. }
  assert (Hhd : block_head b = Some (head_of b)) by (apply block_head_ok; try assumption; red; lia). pose proof (zlen_nonneg f). pose proof (zlen_nonneg c). pose proof (zlen_nonneg (head_of b)).
  assert (Hcs : coded_sizes b NoHeader 1 = [zlen f]) by (unfold coded_sizes; rewrite Hs; cbn [map strip_of]; change (zlen (@nil Z)) with 0; rewrite Z.sub_0_r; reflexivity).
  assert (Hlen : zlen (head_of b ++ [0] ++ c ++ f) = head_size b + 1 + laced_size 3 [zlen f]).
  { rewrite !zlen_app, head_len. change (zlen [0]) with 1. unfold laced_size. cbn [Z.eqb LACING_EBML Pos.eqb hd tl removelast ebml_delta_sizes]. lia. }
  exists c, (zlen (head_of b ++ [0] ++ c ++ f)). eexists. cbv zeta. rewrite <- Hl. change (head_code _ _ _ _ _ _ (b_lacing b)) with (head_of b). split.
  { unfold update_block_size. rewrite Hn, Hl. cbn [bind find_header]. change (3 =? LACING_AUTO) with false. cbn match. cbn [bind]. cbv zeta. replace (bl_lacing b 3) with b by (destruct b; cbn in Hl; subst; reflexivity). rewrite Hcs.
    change (3 =? LACING_NONE) with false. change (3 =? LACING_EBML) with true. cbn [orb]. rewrite <- Hlen. replace (_ <? -1) with false by (pose proof (zlen_nonneg (head_of b ++ [0] ++ c ++ f)); lia). reflexivity. }
  split; [reflexivity|]. split; [exact Hv|]. split; [reflexivity|]. intros o Hr. unfold render_block. rewrite Hhd.
  rewrite !zlen_app in Hr. change (zlen [0]) with 1 in Hr.
  rewrite o_write_ok by (eapply room_le; [exact Hr|lia]). cbn [bind]. cbn [Z.eqb ERR_NONE negb]. rewrite Z.eqb_refl. cbn [negb find_header bind]. rewrite Hl, Hcs. change (3 =? LACING_NONE) with false.
  assert (Hlh : lace_head 3 [zlen f] = Ok ([0] ++ c)).
  { unfold lace_head, ebml_lace. change (zlen [zlen f] =? 0) with false. change (3 =? LACING_EBML) with true. cbn [removelast ebml_deltas]. rewrite Hc. cbn [opt_res bind]. rewrite app_nil_r. change (zlen [zlen f]) with 1.
    replace (4 * 1 <? zlen c) with false by lia. reflexivity. }
  rewrite Hlh. cbn [bind]. assert (Hz0 : zlen ([0] ++ c) = 1 + zlen c) by (rewrite zlen_app; reflexivity).
  rewrite o_write_ok by (eapply room_put'; [exact Hr|lia|lia]). cbn [bind Z.eqb negb]. rewrite (o_put_app _ _ _ _ Hr) by lia. rewrite Hd.
  rewrite o_write_ok by (eapply room_put'; [exact Hr|lia|rewrite zlen_app; lia]). cbn [bind]. rewrite (o_put_app _ _ _ _ Hr) by (rewrite zlen_app; lia). rewrite <- !app_assoc, !zlen_app. change (zlen [0]) with 1. change (negb (ERR_NONE =? ERR_NONE)) with false. cbn match. do 3 f_equal. lia.
Qed.
Print Assumptions C29_one_ebml.
Example C29_one_ebml_ex : exists b, update_block_size (made true 5 0 false false false 3 [[1; 2; 3]]) None = Ok (9, b) /\
  render_block (made true 5 0 false false false 3 [[1; 2; 3]]) None (OFile [] 0) = Ok (ERR_NONE, 9, OFile [133; 0; 0; 6; 0; 131; 1; 2; 3] 9).
Proof. eexists. split; vm_compute; reflexivity. Qed.

(** ** C51: automatic lacing *)

(** Frames appended to an empty block: the library chooses a lacing, announces the size it writes, and a
    reader gets the frames back. *)
Theorem C51_auto_round_trip : forall b t h fs, 0 <= b_track b < 16384 -> -32768 <= b_time b < 32768 -> track_header t h -> b_sizes b = [] -> b_data b = [] ->
  1 <= zlen fs < 256 -> Forall (fun f => zlen (fst f) < 2 ^ 27) fs ->
  exists lacing bs b', update_block_size (append_all b (map (fun f => (h ++ fst f, snd f)) fs)) t = Ok (zlen bs, b') /\ b_dsize b' = zlen bs /\
    block_code 4 (b_simple b) (b_track b) (b_time b) (b_key b) (b_disc b) (b_invis b) lacing (map fst fs) bs /\
    (forall o, room o (zlen bs) -> render_block b' t o = Ok (ERR_NONE, zlen bs, o_put o bs)) /\
    forall fuel r moved s pos, b_simple r = b_simple b -> placed fuel r s bs h (map fst fs) ->
      exists r' q, read_frames fuel r t moved s pos = Ok (ERR_NONE, r', q) /\ shows r' (b_track b) (b_time b) (b_key b) (b_disc b) (b_invis b) lacing /\
        b_set r' = true /\ holds (b_sizes r') (b_data r') (map (fun f => h ++ fst f) fs).
Proof.
  intros b t h fs Ht Hm Hth Hs Hd Hn Hb. set (gs := map (fun f => (h ++ fst f, snd f)) fs).
  destruct (append_all_ok gs b []) as (Hh & I1 & I2 & I3 & I4 & I5 & I6 & _ & I7); [split; assumption|]. cbn [app] in Hh.
  assert (Hg : map fst gs = map (app h) (map fst fs)) by (unfold gs; rewrite !map_map; reflexivity).
  destruct I7 as (_ & Hnd & Hau); [unfold gs; destruct fs; [cbn in Hn; lia|discriminate]|].
  destruct (update_auto (append_all b gs) t h (map fst fs)) as (lacing & bs & b' & Hu & Hds & Hc & Hlac & Hr); try assumption.
  - rewrite I1. exact Ht.
  - rewrite I2. exact Hm.
  - rewrite <- Hg. exact Hh.
  - rewrite zlen_map. lia.
  - apply Forall_forall. intros p Hp. apply in_map_iff in Hp. destruct Hp as (f & <- & Hf). eapply Forall_forall in Hb; [exact Hb|exact Hf].
  - exists lacing, bs, b'. rewrite I1, I2, I3, I4, I5, I6 in Hc. repeat (split; [assumption|]). intros fuel r moved s pos Hsim Hp. rewrite <- Hsim in Hc.
    destruct (read_frames_ok fuel r t moved s pos _ _ _ _ _ _ h _ bs Ht Hm Hc Hth Hp) as (r' & q & Hrf & Hsh & Hset & Hho); [rewrite zlen_map; lia|]. exists r', q. repeat (split; [assumption|]).
    rewrite map_map in Hho. exact Hho.
Qed.
Print Assumptions C51_auto_round_trip.
Example C51_ex : exists b', update_block_size (append_all (found true 0 0) [([1; 2; 3], 10); ([4], 10); ([5; 6], 10)]) None = Ok (13, b') /\ b_lacing b' = 3.
Proof. eexists. vm_compute. split; reflexivity. Qed.

(** The choice is not the shortest: the estimate for EBML lacing does not use the differences written. *)
Theorem C51_shortest_refuted : exists fs n m b' b'', update_block_size (append_all (found true 0 0) (map (fun f => (f, 0)) fs)) None = Ok (n, b') /\ b_lacing b' = 1 /\
  update_block_size (bl_lacing (append_all (found true 0 0) (map (fun f => (f, 0)) fs)) 3) None = Ok (m, b'') /\ m < n.
Proof.
  exists (repeat (repeat 0 260) 2 ++ repeat (repeat 0 254) 7). eexists _, _, _, _. vm_compute. repeat split.
Qed.
Print Assumptions C51_shortest_refuted.

(** ** C30 *)

(** Whatever the bytes, a table the reader accepts has 1 to 256 entries in 32 bits; without lacing, or
    with Xiph or EBML lacing, it adds up to the rest of the element modulo 2^32, with fixed lacing to
    the rest less a remainder. *)
Theorem C30_table : forall fuel b s pos b' q, bytes_ok (in_data s) -> read_parse fuel b s pos = Ok (ERR_NONE, b', q) ->
  let n := zlen (b_sizes b') in let rest := b_dsize b - (b_first b' - b_dpos b) in
  0 <= b_lacing b' < 4 /\ (b_lacing b' = 0 -> n = 1) /\ 1 <= n <= 256 /\ Forall (fun x => - 2 ^ 31 <= x < 2 ^ 31) (b_sizes b') /\ b_dpos b + 4 <= b_first b' /\
  (b_lacing b' <> 2 -> exists z, sumz (b_sizes b') = rest + z * 2 ^ 32) /\
  (b_lacing b' = 2 -> exists x, b_sizes b' = repeat x (Z.to_nat n) /\ (0 <= rest < 2 ^ 31 -> sumz (b_sizes b') <= rest < sumz (b_sizes b') + n)).
Proof.
  intros fuel b s pos b' q Hb Hp. destruct (parse_facts fuel b s pos b' q Hb Hp) as (H1 & H2 & H3 & H4 & H5 & _ & _ & _ & _ & H6 & H7). cbv zeta. repeat (split; [assumption|]). assumption.
Qed.
Print Assumptions C30_table.
Example C30_table_ex : exists r q, read_parse 10 (found true 9 0) (file [129; 0; 0; 2; 2; 200; 100; 3; 4]) 0 = Ok (ERR_NONE, r, q) /\ b_sizes r = [200; 100; -298].
Proof. eexists _, _. vm_compute. split; reflexivity. Qed.

(** Without EBML lacing, and unless fixed lacing announces 256 frames, reading the head of any bytes
    ends and stays in its buffers, if the last byte of the stream is not 255. *)
Theorem C30_total : forall fuel b s pos, bytes_ok (in_data s) -> 0 <= b_dpos b <= zlen (in_data s) -> in_reach s (b_dpos b) -> last (in_data s) 0 <> 255 -> zlen (in_data s) < Z.of_nat fuel ->
  lacing_at (in_data s) (b_dpos b) <> 3 -> (lacing_at (in_data s) (b_dpos b) = 2 -> count_at (in_data s) (b_dpos b) <> 255) -> exists r, read_parse fuel b s pos = Ok r.
Proof. intros fuel b s pos Hb Hp Hr Hl Hf H3 H2. apply parse_total; assumption || lia. Qed.
Print Assumptions C30_total.
Example C30_total_ex : let d := [129; 0; 0; 2; 9; 255; 255; 3] in bytes_ok d /\ last d 0 <> 255 /\ lacing_at d 0 = 1 /\ exists r q, read_parse 20 (found true 8 0) (file d) 0 = Ok (ERR_NONE, r, q).
Proof. split; [apply bytes_ok_forallb; reflexivity|]. split; [discriminate|]. split; [reflexivity|]. eexists _, _. vm_compute. reflexivity. Qed.

(** Reading the frames of any table: it ends, and the data holds what the table adds up to; if no size
    is negative, every frame is inside the data. *)
Theorem C30_frames_inside : forall b s pos moved, in_reach s (b_first b) -> (in_mem s = true -> in_lo s <= zlen (in_data s)) -> 0 <= b_first b -> b_set b = false -> (b_lacing b = 0 -> zlen (b_sizes b) = 1) ->
  Forall (fun x => x < 2 ^ 31) (b_sizes b) ->
  exists err b' q, read_data b None moved s pos = Ok (err, b', q) /\ (err = ERR_NONE -> zlen (b_data b') = sumz (b_sizes b') /\
    (Forall (fun x => 0 <= x) (b_sizes b') -> forall ts n e f, 0 <= n -> get_frame b' ts n true = (e, Some f) -> 0 <= f_off f /\ 0 <= f_size f /\ f_off f + f_size f <= zlen (b_data b'))).
Proof.
  intros b s pos moved Hr Hlo Hf Hs H1 Hb. destruct (read_data_safe b s pos moved Hr Hlo Hf Hs) as (err & b' & q & Hrd & He). exists err, b', q. split; [exact Hrd|]. intros E.
  destruct (He E) as (_ & Hsz & Hn & Hd & _).
  assert (Hsum : zlen (b_data b') = sumz (b_sizes b')).
  { rewrite Hd, Hsz. destruct (b_lacing b =? LACING_NONE) eqn:El; [|reflexivity]. unfold LACING_NONE in El. specialize (H1 ltac:(lia)).
    destruct (b_sizes b) as [|x [|y l]]; [discriminate|cbn; lia|]. rewrite !zlen_cons in H1. pose proof (zlen_nonneg l). lia. }
  split; [exact Hsum|]. intros Hpos ts n e f Hn0 Hg. unfold get_frame in Hg. destruct (_ && _); [discriminate|]. destruct (n >=? _) eqn:En; [discriminate|]. injection Hg as _ <-. cbn [f_off f_size].
  rewrite Hsum. rewrite Hsz in *. clear -Hpos Hb En Hn0. set (k := Z.to_nat n). assert (Hk : (k < length (b_sizes b))%nat) by (unfold zlen in En; lia). clearbody k. clear En Hn0 n.
  revert k Hk. induction (b_sizes b) as [|x l IH]; intros k Hk; [cbn in Hk; lia|]. apply Forall_cons_iff in Hpos, Hb. destruct Hpos as [P1 P2], Hb as [B1 B2]. specialize (IH B2 P2).
  assert (Hl0 : 0 <= sumz l) by (clear -P2; induction P2 as [|y l Hy Hl IH]; cbn [sumz fold_right]; [lia|fold (sumz l); lia]).
  change (sumz (x :: l)) with (x + sumz l). destruct k as [|k]; cbn [firstn map fold_right nth].
  - rewrite u32_small by lia. lia.
  - specialize (IH k ltac:(cbn in Hk; lia)). rewrite (u32_small x) by lia. lia.
Qed.
Print Assumptions C30_frames_inside.
Example C30_frames_inside_ex : exists b' q, read_data (mkBlock true false false 0 0 1 0 true true false false 1 2 [2; 1] [] [] []) None false (file [9; 9; 1; 2; 3; 9]) 0 = Ok (ERR_NONE, b', q) /\
  b_data b' = [1; 2; 3] /\ exists f, get_frame b' 0 1 true = (ERR_NONE, Some f) /\ f_off f = 2 /\ f_size f = 1.
Proof. eexists _, _. split; [vm_compute; reflexivity|]. split; [reflexivity|]. eexists. repeat split. Qed.

(** Sizes larger than the data, and negative differences, give frames outside the data. *)
Theorem C30_oversize_refuted : exists d b q f, read_frames 10 (found true (zlen d) 0) None false (file d) 0 = Ok (ERR_NONE, b, q) /\ get_frame b 0 0 true = (ERR_NONE, Some f) /\ zlen (b_data b) < f_off f + f_size f.
Proof. exists [129; 0; 0; 2; 1; 200; 1; 2; 3]. eexists _, _, _. split; [vm_compute; reflexivity|]. split; [reflexivity|]. reflexivity. Qed.
Print Assumptions C30_oversize_refuted.
Theorem C30_negative_size_refuted : exists d b q f, read_frames 10 (found true (zlen d) 0) None false (file d) 0 = Ok (ERR_NONE, b, q) /\ get_frame b 0 1 true = (ERR_NONE, Some f) /\ f_size f = 2 ^ 32 - 1.
Proof. exists [129; 0; 0; 6; 2; 129; 189; 1; 2; 3]. eexists _, _, _. split; [vm_compute; reflexivity|]. split; reflexivity. Qed.
Print Assumptions C30_negative_size_refuted.
(** EBML lacing with a count byte of 0 writes after the table. *)
Theorem C30_zero_count_refuted : exists d, bytes_ok d /\ forall fuel, read_parse fuel (found true (zlen d) 0) (file d) 0 = Bad.
Proof. exists [129; 0; 0; 6; 0; 1; 2; 3]. split; [apply bytes_ok_forallb; reflexivity|]. intros fuel. vm_compute. reflexivity. Qed.
Print Assumptions C30_zero_count_refuted.
(** A Xiph size cut by the end of the file after a byte 255 is read for ever. *)
Theorem C30_xiph_end_refuted : exists d, bytes_ok d /\ forall fuel, read_parse fuel (found true (zlen d) 0) (file d) 0 = Fuel.
Proof.
  exists [129; 0; 0; 2; 1; 255]. split; [apply bytes_ok_forallb; reflexivity|]. intros fuel. 
  assert (H : forall acc n, read_xiph fuel (file [129; 0; 0; 2; 1; 255]) 6 255 acc n = Fuel).
  { induction fuel as [|fuel IH]; intros acc n; [reflexivity|]. cbn [read_xiph]. change (read_byte (file [129; 0; 0; 2; 1; 255]) 6 255) with (Ok (255, 6)). cbn [bind]. rewrite Z.eqb_refl. apply IH. }
  assert (H5 : forall acc n, read_xiph fuel (file [129; 0; 0; 2; 1; 255]) 5 1 acc n = Fuel).
  { destruct fuel as [|fuel]; intros acc n; [reflexivity|]. cbn [read_xiph]. change (read_byte (file [129; 0; 0; 2; 1; 255]) 5 1) with (Ok (255, 6)). cbn [bind]. rewrite Z.eqb_refl.
    specialize (H (acc - acc) n). clear -H. revert H. generalize (s32 (acc + 255)). intros a H.
    assert (Hg : forall k a n, (k <= fuel)%nat -> read_xiph k (file [129; 0; 0; 2; 1; 255]) 6 255 a n = Fuel).
    { induction k as [|k IH]; intros a' n' Hk; [reflexivity|]. cbn [read_xiph]. change (read_byte (file [129; 0; 0; 2; 1; 255]) 6 255) with (Ok (255, 6)). cbn [bind]. rewrite Z.eqb_refl. apply IH. lia. }
    apply Hg. lia. }
  unfold read_parse. change (i_seek (file [129; 0; 0; 2; 1; 255]) (b_dpos (bl_set (found true (zlen [129; 0; 0; 2; 1; 255]) 0) false)) 0) with (0, 0).
  change (0 =? INVALID_FILEPOS) with false. cbv iota. change (i_read (file [129; 0; 0; 2; 1; 255]) 0 5) with (Ok (ERR_NONE, [129; 0; 0; 2; 1], 5)). cbn [bind]. change (negb (ERR_NONE =? ERR_NONE)) with false. cbv iota zeta.
  cbn [nth]. change (Z.land 129 128) with 128. cbn [Z.eqb andb Nat.eqb bind Nat.add nth]. change (Z.shiftr (Z.land 2 6) 1) with 1. change (1 =? LACING_NONE) with false. change (1 =? LACING_XIPH) with true. cbv iota.
  change (Z.to_nat 1) with 1%nat. cbn [read_xiph_sizes]. rewrite H5. reflexivity.
Qed.
Print Assumptions C30_xiph_end_refuted.

(** ** C31 *)

(** Frames that start with the header come back whole, in any lacing. *)
Theorem C31_lossless : forall b scope h ps, 0 <= b_track b < 16384 -> -32768 <= b_time b < 32768 -> match scope with Some x => Z.odd x = true | None => True end ->
  holds (b_sizes b) (b_data b) (map (app h) ps) -> lace_ok (b_lacing b) ps -> (b_lacing b = 2 -> zlen ps < 256) -> round_trip b (strip scope h) h ps.
Proof. intros b scope h ps Ht Hm Hs Hh Hl H2. apply round_trip_ok; try assumption. constructor. exact Hs. Qed.
Print Assumptions C31_lossless.
Example C31_ex : render_block (made true 1 0 true false false 2 [[5; 5; 1]; [5; 5; 2]]) (strip None [5; 5]) (OFile [] 0) = Ok (ERR_NONE, 7, OFile [129; 0; 0; 132; 1; 1; 2] 7) /\
  exists r q, read_frames 10 (found true 7 0) (strip None [5; 5]) false (file [129; 0; 0; 132; 1; 1; 2]) 0 = Ok (ERR_NONE, r, q) /\ b_data r = [5; 5; 1; 5; 5; 2].
Proof. split; [reflexivity|]. eexists _, _. vm_compute. split; reflexivity. Qed.

(** A frame that does not start with the header is refused. *)
Theorem C31_refuses : forall b scope h fs o, 0 <= b_track b < 16384 -> -32768 <= b_time b < 32768 -> match scope with Some x => Z.odd x = true | None => True end ->
  holds (b_sizes b) (b_data b) fs -> lace_ok (b_lacing b) (map (skipn (length h)) fs) -> Forall (fun f => zlen h <= zlen f) fs ->
  Exists (fun f => firstn (length h) f <> h) fs -> room o (zlen (concat fs) + 6 + 4 * zlen fs) -> exists n o', render_block b (strip scope h) o = Ok (ERR_INVALID_DATA, n, o').
Proof. intros. eapply render_refuses; eassumption. Qed.
Print Assumptions C31_refuses.
Example C31_refuses_ex : exists n o', render_block (made true 1 0 true false false 2 [[5; 5; 1]; [5; 6; 2]]) (strip None [5; 5]) (OFile [] 0) = Ok (ERR_INVALID_DATA, n, o').
Proof. eexists _, _. reflexivity. Qed.

(** With a scope that does not cover blocks (only the codec private data), the frames are written whole
    but read with the header put in front. *)
Theorem C31_scope_refuted : exists h b bs r q, render_block b (strip (Some 2) h) (OFile [] 0) = Ok (ERR_NONE, zlen bs, OFile bs (zlen bs)) /\
  read_frames 10 (found true (zlen bs) 0) (strip (Some 2) h) false (file bs) 0 = Ok (ERR_NONE, r, q) /\ b_data r <> b_data b.
Proof. exists [5], (made true 1 0 true false false 0 [[5; 1]]), [129; 0; 0; 128; 5; 1]. eexists _, _. split; [reflexivity|]. split; [vm_compute; reflexivity|]. discriminate. Qed.
Print Assumptions C31_scope_refuted.

(** ** C33 *)

(** MATROSKA_BlockGetFrame gives each frame of a block that holds some bytes. *)
Theorem C33_get_frame : forall b ts fs n, holds (b_sizes b) (b_data b) fs -> Forall (fun p => zlen p < 2 ^ 32) fs -> 0 <= n < zlen fs -> concat fs <> [] ->
  exists f, get_frame b ts n true = (ERR_NONE, Some f) /\ mem_get (b_data b) (f_off f) (f_size f) = Some (nth (Z.to_nat n) fs []) /\ f_size f = frame_length b n /\ f_dur f = frame_duration b n.
Proof. exact get_frame_ok. Qed.
Print Assumptions C33_get_frame.
Example C33_get_frame_ex : exists f, get_frame (made true 1 0 true false false 1 [[1]; [2; 3]; [4]]) 0 1 true = (ERR_NONE, Some f) /\ f_off f = 1 /\ f_size f = 2.
Proof. eexists. vm_compute. repeat split. Qed.
Theorem C33_no_frame : forall b ts n w e f, zlen (b_sizes b) <= n -> get_frame b ts n w = (e, f) -> e <> ERR_NONE /\ f = None.
Proof.
  intros b ts n w e f Hn. unfold get_frame. replace (n >=? zlen (b_sizes b)) with true by lia. destruct (_ && _); intros H; injection H as <- <-; split; try reflexivity; discriminate.
Qed.
Print Assumptions C33_no_frame.
Example C33_no_frame_ex : fst (get_frame (made true 1 0 true false false 1 [[1]; [2; 3]; [4]]) 0 3 true) = ERR_INVALID_PARAM.
Proof. reflexivity. Qed.

(** The start of a frame is the timestamp of the block and the durations before; the three functions agree. *)
Theorem C33_times : forall b ts n f, 0 <= n < zlen (b_durs b) -> n < zlen (b_sizes b) -> sums ts (firstn (Z.to_nat n) (b_durs b)) -> get_frame b ts n false = (ERR_NONE, Some f) ->
  frame_start b ts n = ts + sumz (firstn (Z.to_nat n) (b_durs b)) /\ f_time f = frame_start b ts n /\
  (let d := nth (Z.to_nat n) (b_durs b) 0 in d <> INVALID_TIMESTAMP -> - 2 ^ 63 <= ts + sumz (firstn (Z.to_nat n) (b_durs b)) + d < 2 ^ 63 ->
     frame_end b ts n = frame_start b ts n + d /\ f_dur f = d).
Proof.
  intros b ts n f Hn Hn2 Hs Hg. unfold get_frame in Hg. cbn [andb] in Hg. replace (n >=? zlen (b_sizes b)) with false in Hg by lia. injection Hg as <-. cbn [f_time f_dur].
  destruct (frame_time_ok (Z.to_nat n) (b_durs b) ts Hs) as (H1 & H2 & H3); [unfold zlen in Hn; lia|].
  assert (Hts : ts <> INVALID_TIMESTAMP) by (destruct (firstn (Z.to_nat n) (b_durs b)); cbn [sums] in Hs; unfold INVALID_TIMESTAMP in *; lia).
  assert (Hst : frame_start b ts n = ts + sumz (firstn (Z.to_nat n) (b_durs b))).
  { unfold frame_start. replace (n >=? zlen (b_durs b)) with false by lia. replace (ts =? INVALID_TIMESTAMP) with false by lia. exact H2. }
  split; [exact Hst|]. split; [rewrite Hst; exact H1|]. cbv zeta. intros Hd Hr. unfold frame_end, frame_duration. rewrite Hst. replace (ts + sumz _ =? INVALID_TIMESTAMP) with false by lia.
  replace (n >=? zlen (b_durs b)) with false by lia. replace (nth (Z.to_nat n) (b_durs b) 0 =? INVALID_TIMESTAMP) with false by lia. rewrite s64_small by lia. replace (n <? zlen (b_durs b)) with true by lia. split; reflexivity.
Qed.
Print Assumptions C33_times.
Example C33_times_ex : let b := append_all (found true 0 0) [([1], 40); ([2], 40); ([3], 20)] in frame_start b 1000 2 = 1080 /\ frame_end b 1000 2 = 1100 /\ sums 1000 (firstn 2 (b_durs b)).
Proof. vm_compute. repeat split; discriminate. Qed.
(** An unknown duration before a frame, or an unknown block timestamp, makes its start unknown. *)
Theorem C33_unknown : forall b ts n f, 0 <= n -> get_frame b ts n false = (ERR_NONE, Some f) ->
  ts = INVALID_TIMESTAMP \/ zlen (b_durs b) < n \/ In INVALID_TIMESTAMP (firstn (Z.to_nat n) (b_durs b)) -> f_time f = INVALID_TIMESTAMP.
Proof.
  intros b ts n f Hn Hg H. unfold get_frame in Hg. cbn [andb] in Hg. destruct (n >=? _); [discriminate|]. injection Hg as <-. cbn [f_time].
  destruct (frame_time_unknown (Z.to_nat n) (b_durs b) ts) as [H1 H2]. destruct H as [->|[H|H]]; [exact H1|apply H2; left; unfold zlen in H; lia|apply H2; right; exact H].
Qed.
Print Assumptions C33_unknown.
Example C33_unknown_ex : exists f, get_frame (append_all (found true 0 0) [([1], INVALID_TIMESTAMP); ([2], 40)]) 1000 1 false = (ERR_NONE, Some f) /\ f_time f = INVALID_TIMESTAMP.
Proof. eexists. vm_compute. split; reflexivity. Qed.

(** The end is unknown when the start or the duration of the frame is, and so is the start of a frame the
    block has no duration for. *)
Theorem C33_unknown_end : forall b ts n, 0 <= n ->
  (ts = INVALID_TIMESTAMP \/ zlen (b_durs b) <= n \/ In INVALID_TIMESTAMP (firstn (Z.to_nat n) (b_durs b)) -> frame_start b ts n = INVALID_TIMESTAMP) /\
  (ts = INVALID_TIMESTAMP \/ zlen (b_durs b) <= n \/ In INVALID_TIMESTAMP (firstn (S (Z.to_nat n)) (b_durs b)) -> frame_end b ts n = INVALID_TIMESTAMP).
Proof.
  intros b ts n Hn.
  assert (H1 : ts = INVALID_TIMESTAMP \/ zlen (b_durs b) <= n \/ In INVALID_TIMESTAMP (firstn (Z.to_nat n) (b_durs b)) -> frame_start b ts n = INVALID_TIMESTAMP).
  { unfold frame_start. intros H. destruct (n >=? zlen (b_durs b)) eqn:E; [reflexivity|]. destruct (ts =? INVALID_TIMESTAMP) eqn:Et; [lia|]. destruct H as [H|[H|H]]; [lia|lia|].
    clear -H. revert ts H. generalize (b_durs b). induction (Z.to_nat n) as [|k IH]; intros l ts H; [destruct H|]. destruct l as [|d l]; [destruct H|]. cbn [firstn start_loop] in *.
    destruct (d =? INVALID_TIMESTAMP) eqn:E; [reflexivity|]. apply IH. destruct H as [H|H]; [lia|exact H]. }
  split; [exact H1|]. intros H. unfold frame_end. destruct (frame_start b ts n =? INVALID_TIMESTAMP) eqn:E; [reflexivity|].
  assert (Hd : frame_duration b n = INVALID_TIMESTAMP).
  { destruct H as [H|[H|H]]; [rewrite H1 in E by auto; discriminate|rewrite H1 in E by auto; discriminate|].
    assert (Hx : In INVALID_TIMESTAMP (firstn (Z.to_nat n) (b_durs b)) \/ nth_error (b_durs b) (Z.to_nat n) = Some INVALID_TIMESTAMP).
    { clear -H. revert H. generalize (b_durs b). induction (Z.to_nat n) as [|k IH]; intros [|d l] H; try (destruct H; fail).
      - destruct H as [H|[]]. right. cbn. f_equal. exact H.
      - cbn [firstn In nth_error] in *. destruct H as [H|H]; [auto|]. destruct (IH l H); auto. }
    destruct Hx as [Hx|Hx]; [rewrite H1 in E by auto; discriminate|]. unfold frame_duration.
    assert (Hlt : (Z.to_nat n < length (b_durs b))%nat) by (apply nth_error_Some; congruence).
    replace (n >=? zlen (b_durs b)) with false by (unfold zlen; lia). apply nth_error_nth with (d := 0) in Hx. exact Hx. }
  rewrite Hd. reflexivity.
Qed.
Print Assumptions C33_unknown_end.
Example C33_unknown_end_ex : let b := append_all (found true 0 0) [([1], 40); ([2], INVALID_TIMESTAMP)] in frame_start b 1000 1 = 1040 /\ frame_end b 1000 1 = INVALID_TIMESTAMP /\ frame_end b 1000 0 = 1040.
Proof. vm_compute. repeat split. Qed.

(** MATROSKA_BlockSkipToFrame leaves the stream at the first byte of the frame. *)
Theorem C33_skip : forall fuel r s pos pos' track time key disc invis lacing ps bs n, 0 <= track < 16384 -> -32768 <= time < 32768 ->
  block_code 4 (b_simple r) track time key disc invis lacing ps bs -> placed fuel r s bs [] ps -> (lacing = 2 -> zlen ps < 256) -> 0 <= n < zlen ps ->
  exists r' p, read_head fuel r s pos = Ok (ERR_NONE, r', b_first r') /\ skip_to_frame r' s pos' n = (ERR_NONE, p) /\ at_pos (in_data s) p (nth (Z.to_nat n) ps []) /\
    i_read s p (frame_length r' n) = Ok (ERR_NONE, nth (Z.to_nat n) ps [], p + frame_length r' n).
Proof. exact skip_ok. Qed.
Print Assumptions C33_skip.
Example C33_skip_ex : exists r, read_head 10 (found true 11 2) (file ([9; 9] ++ [65; 44; 255; 254; 138; 2; 2; 0; 1; 2; 3])) 0 = Ok (ERR_NONE, r, 10) /\ skip_to_frame r (file ([9; 9] ++ [65; 44; 255; 254; 138; 2; 2; 0; 1; 2; 3])) 0 2 = (ERR_NONE, 12).
Proof. eexists. split; [vm_compute; reflexivity|]. reflexivity. Qed.
(** A frame the block does not have is refused and the stream is not moved. *)
Theorem C33_skip_no_frame : forall b s pos n e p, zlen (b_sizes b) <= n -> skip_to_frame b s pos n = (e, p) -> e <> ERR_NONE /\ p = pos.
Proof. intros b s pos n e p Hn. unfold skip_to_frame. replace (n >=? zlen (b_sizes b)) with true by lia. intros H. injection H as <- <-. split; [discriminate|reflexivity]. Qed.
Print Assumptions C33_skip_no_frame.
Example C33_skip_no_frame_ex : skip_to_frame (made true 1 0 true false false 1 [[1]; [2; 3]]) (file [1; 2; 3]) 1 2 = (ERR_INVALID_PARAM, 1).
Proof. reflexivity. Qed.
(** In a laced block with a stripped header it does not: the sizes count the header, which is not in the file. *)
Theorem C33_skip_stripped_refuted : exists h bs ps r q p, block_code 4 true 1 0 true false false 2 ps bs /\ read_frames 10 (found true (zlen bs) 0) (strip None h) false (file bs) 0 = Ok (ERR_NONE, r, q) /\
  holds (b_sizes r) (b_data r) (map (app h) ps) /\ skip_to_frame r (file bs) 0 1 = (ERR_NONE, p) /\ i_read (file bs) p (zlen (nth 1 ps [])) <> Ok (ERR_NONE, nth 1 ps [], p + zlen (nth 1 ps [])).
Proof.
  exists [5], [129; 0; 0; 132; 1; 1; 2; 3; 4], [[1; 2]; [3; 4]]. eexists _, _, _. split; [exists [1]; split; [apply (lace_fixed 4 [1; 2] [[3; 4]]); [reflexivity|repeat constructor]|reflexivity]|].
  split; [vm_compute; reflexivity|]. split; [split; reflexivity|]. split; [reflexivity|]. vm_compute. discriminate.
Qed.
Print Assumptions C33_skip_stripped_refuted.

(** ** C52: releasing the data *)

(** After MATROSKA_BlockReleaseData the frames can be read again. *)
Theorem C52_read_again : forall b t h moved s pos ps, track_header t h -> b_set b = false -> b_sizes b = map zlen (map (app h) ps) -> b_sizes_in b = [] -> (b_lacing b = 0 -> exists p, ps = [p]) ->
  in_reach s (b_first b) -> at_pos (in_data s) (b_first b) (concat ps) ->
  exists b1 q1, read_data b t moved s pos = Ok (ERR_NONE, b1, q1) /\ forall pos2 known,
    let b2 := release_data b1 known true in b_set b2 = false /\ b_data b2 = [] /\
    exists b3 q3, read_data b2 t moved s pos2 = Ok (ERR_NONE, b3, q3) /\ holds (b_sizes b3) (b_data b3) (map (app h) ps).
Proof. exact release_again. Qed.
Print Assumptions C52_read_again.
Example C52_ex : exists r q, read_frames 10 (found true 7 0) (strip None [5; 5]) false (file [129; 0; 0; 132; 1; 1; 2]) 0 = Ok (ERR_NONE, r, q) /\
  exists r2 q2, read_data (release_data r true true) (strip None [5; 5]) false (file [129; 0; 0; 132; 1; 1; 2]) 0 = Ok (ERR_NONE, r2, q2) /\ b_data r2 = b_data r.
Proof. eexists _, _. split; [vm_compute; reflexivity|]. eexists _, _. vm_compute. split; reflexivity. Qed.
(** When only what can be read again is released, a block whose timestamp is unknown keeps everything. *)
Theorem C52_kept : forall b, release_data b false false = b.
Proof. reflexivity. Qed.
Print Assumptions C52_kept.
Example C52_kept_ex : b_data (release_data (made true 1 0 true false false 1 [[1]; [2; 3]]) false false) = [1; 2; 3] /\ b_data (release_data (made true 1 0 true false false 1 [[1]; [2; 3]]) true false) = [].
Proof. split; reflexivity. Qed.
