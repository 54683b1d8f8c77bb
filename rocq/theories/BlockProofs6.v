(** Rendering refuses frames that do not start with the stripped header; skipping to a frame; release. *)
From Verif Require Import Base BaseProofs FinderSpec Arr ArrProofs2 Vint VintSpec VintProofs StreamProofs Stream Ebml Tree TreeRead TreeProofs2 TreeProofs3 Block BlockSpec BlockProofs BlockProofs2 BlockProofs3 Frame BlockProofs4 BlockProofs5.

Lemma mem_get_3 (a b c : list Z) n m : n = zlen a -> m = zlen b -> mem_get (a ++ b ++ c) n m = Some b.
Proof. intros -> ->. apply mem_get_ok. Qed.
Lemma firstn_len_eq (h f : list Z) : zlen h <= zlen f -> zlen (firstn (length h) f) = zlen h.
Proof. intros H. unfold zlen in *. rewrite firstn_length. lia. Qed.
Lemma list_eqb_neq a b : a <> b -> list_eqb a b = false.
Proof. intros H. destruct (list_eqb a b) eqn:E; [|reflexivity]. apply list_eqb_eq in E. contradiction. Qed.

Lemma render_stripped_refuse h fs : forall pre data cursor err n o, data = pre ++ concat fs -> cursor = zlen pre -> Forall (fun f => zlen h <= zlen f) fs ->
  Exists (fun f => firstn (length h) f <> h) fs -> room o (zlen (concat fs)) -> exists n' o', render_stripped h data cursor (map zlen fs) err n o = Ok (ERR_INVALID_DATA, n', o').
Proof.
  induction fs as [|f fs IH]; intros pre data cursor err n o -> -> Hl He Hr; [inversion He|].
  apply Forall_cons_iff in Hl. destruct Hl as [Hf Hl]. cbn [map render_stripped concat].
  assert (Hsp : f = firstn (length h) f ++ skipn (length h) f) by (symmetry; apply firstn_skipn).
  pose proof (firstn_len_eq h f Hf) as Hfl. set (a := firstn (length h) f) in *. set (b := skipn (length h) f) in *.
  assert (Hzf : zlen f = zlen h + zlen b) by (rewrite Hsp, zlen_app; lia).
  replace (mem_get (pre ++ f ++ concat fs) (zlen pre) (zlen h)) with (Some a) by (symmetry; rewrite Hsp, <- app_assoc; apply mem_get_3; lia).
  cbn [opt_res bind]. destruct (list_eqb a h) eqn:Ea; cbn [negb]; [|eauto].
  apply list_eqb_eq in Ea.
  replace (mem_get (pre ++ f ++ concat fs) (zlen pre + zlen h) (zlen f - zlen h)) with (Some b).
  2:{ symmetry. rewrite Hsp at 1. rewrite <- app_assoc, (app_assoc pre). apply mem_get_3; [rewrite zlen_app; lia|lia]. }
  cbn [opt_res bind]. cbn [concat] in Hr. rewrite zlen_app in Hr. pose proof (zlen_nonneg b). pose proof (zlen_nonneg h). pose proof (zlen_nonneg (concat fs)).
  rewrite o_write_ok by (eapply room_le; [exact Hr|lia]). cbn [bind].
  apply (IH (pre ++ f)).
  - rewrite <- app_assoc. reflexivity.
  - rewrite zlen_app. lia.
  - exact Hl.
  - apply Exists_cons in He. destruct He as [He|He]; [exfalso; apply He; exact Ea|exact He].
  - eapply room_put'; [exact Hr|lia|lia].
Qed.

Lemma render_refuses b scope h fs o : 0 <= b_track b < 16384 -> -32768 <= b_time b < 32768 -> match scope with Some x => Z.odd x = true | None => True end ->
  holds (b_sizes b) (b_data b) fs -> lace_ok (b_lacing b) (map (skipn (length h)) fs) -> Forall (fun f => zlen h <= zlen f) fs ->
  Exists (fun f => firstn (length h) f <> h) fs -> room o (zlen (concat fs) + 6 + 4 * zlen fs) ->
  exists n o', render_block b (Some [mkEnc true scope (Some (mkCompr (Some 3) (Some h)))]) o = Ok (ERR_INVALID_DATA, n, o').
Proof.
  intros Ht Hm Hsc [Hs Hd] Hlo Hl He Hr. set (ps := map (skipn (length h)) fs) in *.
  assert (Hlok : lacing_ok (b_lacing b)) by (red; destruct (b_lacing b) as [|[[p|p|]|[p|p|]|]|p]; cbn in Hlo; tauto).
  unfold render_block. rewrite block_head_ok by assumption. pose proof (head_len b) as Hhl. pose proof (zlen_nonneg (concat fs)). pose proof (zlen_nonneg fs).
  assert (Hhs : 4 <= head_size b <= 5) by (unfold head_size; destruct (_ <? _); lia).
  rewrite o_write_ok by (eapply room_le; [exact Hr|lia]). cbn [bind]. cbn [Z.eqb ERR_NONE negb]. rewrite Z.eqb_refl. cbn [negb].
  cbn [find_header en_children negb en_scope en_compr cp_algo cp_settings]. change (3 =? COMP_HEADERSTRIP) with true. cbv iota. cbn [bind].
  set (sc := match scope with Some s => s | None => 1 end). assert (Hland : (Z.land sc 1 =? 0) = false) by (unfold sc; destruct scope as [x|]; [apply odd_land in Hsc; lia|reflexivity]).
  assert (Hcs : coded_sizes b (Strip h) sc = map zlen ps).
  { unfold coded_sizes, strip_of. rewrite Hland, Hs. unfold ps. rewrite !map_map. apply map_ext_in. intros f Hf. eapply Forall_forall in Hl; [|exact Hf]. unfold zlen in *. rewrite skipn_length. lia. }
  assert (Hzp : zlen ps = zlen fs) by (unfold ps; apply zlen_map).
  assert (Hlh : exists l o1, (if b_lacing b =? LACING_NONE then Ok (ERR_NONE, 0, o_put o (head_of b)) else do x <- lace_head (b_lacing b) (coded_sizes b (Strip h) sc); o_write (o_put o (head_of b)) x)
     = Ok (ERR_NONE, l, o1) /\ room o1 (zlen (concat fs))).
  { destruct (b_lacing b =? LACING_NONE) eqn:E0.
    - eexists _, _. split; [reflexivity|]. eapply room_put'; [exact Hr|lia|lia].
    - rewrite Hcs. destruct (lace_head_ok (b_lacing b) ps) as (l & Hlh & Hrest); [unfold LACING_NONE in E0; lia|exact Hlo|].
      assert (Hll : zlen l <= 1 + 4 * zlen fs).
      { unfold lace_head in Hlh. rewrite zlen_map, Hzp in Hlh. destruct (zlen fs =? 0); [discriminate|]. destruct (if b_lacing b =? LACING_EBML then _ else _) as [| | |x]; cbn [bind] in Hlh; try discriminate.
        destruct (4 * zlen fs <? zlen x) eqn:E; [discriminate|]. injection Hlh as <-. rewrite zlen_cons. lia. }
      rewrite Hlh. cbn [bind]. pose proof (zlen_nonneg l). assert (Hrp : room (o_put o (head_of b)) (zlen l + zlen (concat fs))) by (eapply room_put'; [exact Hr|lia|lia]).
      rewrite o_write_ok by (eapply room_le; [exact Hrp|lia]). eexists _, _. split; [reflexivity|].
      eapply room_put'; [exact Hrp|lia|lia]. }
  destruct Hlh as (m & o1 & -> & Hr1). cbn [bind]. cbn [Z.eqb ERR_NONE negb]. rewrite Hland, Hs, Hd.
  apply (render_stripped_refuse h fs []); [reflexivity|reflexivity|assumption|assumption|assumption].
Qed.

Lemma skip_ok fuel r s pos pos' track time key disc invis lacing ps bs n : 0 <= track < 16384 -> -32768 <= time < 32768 ->
  block_code 4 (b_simple r) track time key disc invis lacing ps bs -> placed fuel r s bs [] ps -> (lacing = 2 -> zlen ps < 256) -> 0 <= n < zlen ps ->
  exists r' p, read_head fuel r s pos = Ok (ERR_NONE, r', b_first r') /\ skip_to_frame r' s pos' n = (ERR_NONE, p) /\ at_pos (in_data s) p (nth (Z.to_nat n) ps []) /\
    i_read s p (frame_length r' n) = Ok (ERR_NONE, nth (Z.to_nat n) ps [], p + frame_length r' n).
Proof.
  intros Ht Hm Hc Hp H2 Hn. destruct (read_head_ok fuel r s pos track time key disc invis lacing [] ps bs Ht Hm Hc Hp H2) as (r1 & Hrh & Hsh & Hsz & _ & _ & Hdp & _ & Hat & Hre & Hf0 & Hl0).
  assert (Hnl : (Z.to_nat n < length ps)%nat) by (unfold zlen in Hn; lia).
  pose proof (at_frame _ _ _ _ Hat Hnl) as Hfr. destruct Hsh as (_ & _ & _ & _ & _ & Hlac).
  assert (Hsmall : Forall (fun p : list Z => zlen p < 2 ^ 32) ps). { destruct Hp as (_ & _ & _ & _ & _ & _ & _ & Hsm). eapply Forall_impl; [|exact Hsm]. cbn [app]. intros a Ha. lia. }
  set (p := b_first r1 + zlen (concat (firstn (Z.to_nat n) ps))) in *.
  assert (Hlt : zlen (nth (Z.to_nat n) ps []) < 2 ^ 32) by (eapply Forall_forall in Hsmall; [exact Hsmall|apply nth_In; exact Hnl]).
  pose proof (zlen_nonneg (nth (Z.to_nat n) ps [])). pose proof (zlen_nonneg (concat (firstn (Z.to_nat n) ps))).
  assert (Hlen : frame_length r1 n = zlen (nth (Z.to_nat n) ps [])).
  { unfold frame_length. rewrite Hsz, zlen_map. replace (n >=? zlen ps) with false by lia. change 0 with (zlen (@nil Z)). rewrite map_nth. apply Z.mod_small. lia. }
  exists r1, p. split; [exact Hrh|]. split.
  - unfold skip_to_frame. rewrite Hsz, zlen_map. replace (n >=? zlen ps) with false by lia. rewrite Hlac, Hdp.
    assert (Hpos : (if lacing =? LACING_NONE then b_dpos r + head_size r1 else b_first r1 + fold_right Z.add 0 (map u32 (firstn (Z.to_nat n) (map zlen ps)))) = p).
    { destruct (lacing =? LACING_NONE) eqn:E0.
      - unfold LACING_NONE in E0. destruct (Hl0 ltac:(lia)) as (q & ->). rewrite <- (Hf0 ltac:(lia)). unfold p. change (zlen [q]) with 1 in Hn. replace (Z.to_nat n) with O by lia. cbn [firstn concat]. change (zlen (@nil Z)) with 0. lia.
      - unfold p. rewrite firstn_map, map_u32, zlen_concat by (rewrite <- (firstn_skipn (Z.to_nat n) ps) in Hsmall; apply Forall_app in Hsmall; tauto). reflexivity. }
    rewrite Hpos. destruct Hfr as (Hq0 & Hq1 & _). rewrite seek_ok by lia. rewrite Z.eqb_refl. reflexivity.
  - split; [exact Hfr|]. rewrite Hlen. apply rd; [eapply reach_le; [exact Hre|unfold p; lia]|exact Hfr|reflexivity].
Qed.

Lemma release_again b t h moved s pos ps : track_header t h -> b_set b = false -> b_sizes b = map zlen (map (app h) ps) -> b_sizes_in b = [] -> (b_lacing b = 0 -> exists p, ps = [p]) ->
  in_reach s (b_first b) -> at_pos (in_data s) (b_first b) (concat ps) ->
  exists b1 q1, read_data b t moved s pos = Ok (ERR_NONE, b1, q1) /\ forall pos2 known,
    let b2 := release_data b1 known true in b_set b2 = false /\ b_data b2 = [] /\
    exists b3 q3, read_data b2 t moved s pos2 = Ok (ERR_NONE, b3, q3) /\ holds (b_sizes b3) (b_data b3) (map (app h) ps).
Proof.
  intros Hth Hns Hsz Hin Hl0 Hre Ha. destruct (header_stripped t h Hth) as [Hst Hsc].
  destruct (read_data_ok b t h moved s pos ps Hst Hsc Hns Hsz Hl0 Hre Ha) as (b1 & q1 & Hr & Hset & [Hh1 Hh2] & _ & _ & _ & _ & _ & _ & Hlac & Hf & Hsi).
  exists b1, q1. split; [exact Hr|]. intros pos2 known b2. unfold release_data in b2. cbn [negb andb] in b2. split; [reflexivity|]. split; [reflexivity|].
  assert (Hs2 : b_sizes b2 = map zlen (map (app h) ps)).
  { unfold b2. cbn [bl_set bl_frames b_sizes]. destruct Hsi as [Hsi|Hsi]; [rewrite Hsi, Hin; exact Hh1|]. rewrite Hsi, Hsz. destruct (map zlen (map (app h) ps)) eqn:E; [exact Hh1|reflexivity]. }
  destruct (read_data_ok b2 t h moved s pos2 ps Hst Hsc eq_refl Hs2) as (b3 & q3 & Hr3 & _ & Hh3 & _).
  - unfold b2. cbn [bl_set bl_frames b_lacing]. rewrite Hlac. exact Hl0.
  - unfold b2. cbn [bl_set bl_frames b_first]. rewrite Hf. exact Hre.
  - unfold b2. cbn [bl_set bl_frames b_first]. rewrite Hf. exact Ha.
  - exists b3, q3. split; [exact Hr3|exact Hh3].
Qed.
