(** Blocks compressed with zlib: writing and reading them back. *)
From Verif Require Import Base BaseProofs FinderSpec Arr ArrProofs2 Void Vint VintSpec VintProofs StreamProofs Stream Ebml Tree TreeRead TreeProofs2 TreeProofs3.
From Verif Require Import Block BlockSpec BlockProofs BlockProofs2 BlockProofs3 Frame BlockProofs4 BlockProofs5 BlockProofs6 Zlib ZlibSpec ZlibProofs.

Lemma track_zlib t : zlib_track t -> exists scope, zlib_of t = Some scope /\ on_blocks scope = true.
Proof.
  intros [scope algo settings Hs Ha]. unfold zlib_of. cbn [en_children en_compr cp_algo en_scope]. eexists. split.
  - destruct Ha as [->| ->]; reflexivity.
  - unfold on_blocks. destruct scope as [x|]; [|reflexivity]. apply odd_land in Hs. destruct (Z.land x 1 =? 0) eqn:E; [lia|reflexivity].
Qed.

Section ZP.
Context (z : zlib) (junk : Z) (e : list Z -> list Z) (C : codes z e).

(** The frames can be compressed, in that many turns, into the buffer there is for each. *)
Definition sound (fuel : nat) (fs : list (list Z)) : Prop := Forall (fun f => f <> [] /\ enough fuel f (e f)) fs.
Definition fits (fs : list (list Z)) : Prop := Forall (fun f => zlen (e f) <= zlen f + 100) fs.
Definition soon (fuel : nat) (fs : list (list Z)) : Prop := Forall (fun f : list Z => zlen f / 1024 + 1 < Z.of_nat fuel /\ zlen f < 2 ^ 31) fs.

Lemma zsizes_ok fuel fs : forall data pre suf prev, sound fuel fs -> data = pre ++ concat fs ++ suf -> prev = zlen pre -> zsizes z fuel data prev (map zlen fs) = Ok (map zlen (map e fs)).
Proof.
  induction fs as [|f fs IH]; intros data pre suf prev S -> ->; [reflexivity|]. pose proof (Forall_inv S) as [Hn He]. apply Forall_inv_tail in S. cbn [map zsizes concat]. rewrite <- app_assoc.
  rewrite mem_get_3 by reflexivity. cbn [opt_res bind]. rewrite (compress_ok z fuel f (e f) 0 (proj1 (C f)) Hn He). cbn [bind]. change (ERR_NONE =? ERR_NONE) with true. cbv iota.
  rewrite (IH _ (pre ++ f) suf (zlen pre + zlen f) S); [reflexivity|rewrite <- app_assoc; reflexivity|rewrite zlen_app; reflexivity].
Qed.
Lemma z_sizes_ok fuel b fs : b_set b = true -> holds (b_sizes b) (b_data b) fs -> sound fuel fs -> z_sizes z fuel b = Ok (map zlen (map e fs)).
Proof. intros Hs [H1 H2] S. unfold z_sizes. rewrite Hs, H1. apply (zsizes_ok fuel fs (b_data b) [] [] 0 S); [rewrite app_nil_r; exact H2|reflexivity]. Qed.

Lemma render_zlib_ok fuel fs : forall data pre cursor n o, sound fuel fs -> fits fs -> data = pre ++ concat fs -> cursor = zlen pre -> room o (zlen (concat (map e fs))) ->
  render_zlib z fuel data cursor (map zlen fs) n o = Ok (ERR_NONE, n + zlen (concat (map e fs)), o_put o (concat (map e fs))).
Proof.
  induction fs as [|f fs IH]; intros data pre cursor n o S F -> -> Ho.
  - cbn [map concat render_zlib]. rewrite o_put_nil by exact Ho. change (zlen (@nil Z)) with 0. rewrite Z.add_0_r. reflexivity.
  - pose proof (Forall_inv S) as [Hn He]. apply Forall_inv_tail in S. pose proof (Forall_inv F) as Hf. cbv beta in Hf. apply Forall_inv_tail in F. cbn [map render_zlib concat] in *. rewrite zlen_app in Ho.
    pose proof (zlen_nonneg (concat (map e fs))). pose proof (zlen_nonneg (e f)).
    rewrite mem_get_3 by reflexivity. cbn [opt_res bind]. rewrite (compress_ok z fuel f (e f) _ (proj1 (C f)) Hn He). cbn [bind]. change (ERR_NONE =? ERR_NONE) with true. cbn [negb].
    replace (zlen f + 100 <? zlen (e f)) with false by lia. rewrite firstn_all2 by (unfold zlen in Hf; unfold zlen; lia).
    rewrite o_write_ok by (eapply room_le; [exact Ho|lia]). cbn [bind]. change (ERR_NONE =? ERR_NONE) with true. cbn [negb].
    rewrite (IH _ (pre ++ f) (zlen pre + zlen f) _ _ S F); [|rewrite <- app_assoc; reflexivity|rewrite zlen_app; reflexivity|eapply room_put'; [exact Ho|lia|lia]].
    rewrite (o_put_app _ _ _ _ Ho) by lia. rewrite zlen_app. do 3 f_equal. lia.
Qed.

(** Writing, and the size computed for it. *)
Lemma z_render_ok fuel b t fs : 0 <= b_track b < 16384 -> -32768 <= b_time b < 32768 -> zlib_track t -> b_set b = true ->
  holds (b_sizes b) (b_data b) fs -> lace_ok (b_lacing b) (map e fs) -> sound fuel fs -> fits fs ->
  exists bs, block_code 4 (b_simple b) (b_track b) (b_time b) (b_key b) (b_disc b) (b_invis b) (b_lacing b) (map e fs) bs /\
    (forall o, room o (zlen bs) -> z_render z fuel b t o = Ok (ERR_NONE, zlen bs, o_put o bs)) /\
    (b_need b = true -> z_update z fuel b t = Ok (zlen bs, bl_need (bl_dsize b (zlen bs)) false)).
Proof.
  intros Ht Hm Hz Hset Hh Hl Hs Hft. destruct (track_zlib t Hz) as (scope & Ez & Eb). pose proof Hh as [Hsz Hdt]. set (ps := map e fs) in *.
  assert (Hlac : lacing_ok (b_lacing b)).
  { red. destruct (b_lacing b) as [|[[?|?|]|[?|?|]|]|]; cbn in Hl; try contradiction; auto. }
  assert (Hex : exists l, (if b_lacing b =? 0 then l = [] else lace_head (b_lacing b) (map zlen ps) = Ok l) /\ lace 4 (b_lacing b) ps l /\
     zlen l + zlen (concat ps) = if b_lacing b =? 0 then hd 0 (map zlen ps) else 1 + laced_size (b_lacing b) (map zlen ps)).
  { destruct (b_lacing b =? 0) eqn:E0.
    - assert (E0' : b_lacing b = 0) by lia. rewrite E0' in *. destruct Hl as (f & ->). exists []. split; [reflexivity|]. split; [constructor|]. cbn [concat map hd]. rewrite app_nil_r.
      change (zlen (@nil Z)) with 0. lia.
    - destruct (lace_head_ok (b_lacing b) ps ltac:(lia) Hl) as (l & H1 & H2 & H3). exists l. auto. }
  destruct Hex as (l & Hl1 & Hl2 & Hl3). exists (out_of b ps l). split; [exists l; split; [exact Hl2|reflexivity]|].
  assert (Hlen : zlen (out_of b ps l) = zlen (head_of b) + (zlen l + zlen (concat ps))) by (unfold out_of; rewrite !zlen_app; lia).
  pose proof (zlen_nonneg l). pose proof (zlen_nonneg (concat ps)). pose proof (zlen_nonneg (head_of b)).
  pose proof (z_sizes_ok fuel b fs Hset Hh Hs) as Hcs. fold ps in Hcs.
  split.
  - intros o Hr. unfold z_render. rewrite Ez, Eb. cbn [negb]. rewrite block_head_ok by assumption.
    rewrite o_write_ok by (eapply room_le; [exact Hr|lia]). cbn [bind]. cbn [Z.eqb ERR_NONE negb]. rewrite Z.eqb_refl. cbn [negb].
    rewrite Hcs. cbn [bind]. change (b_lacing b =? LACING_NONE) with (b_lacing b =? 0).
    assert (Hlw : (if b_lacing b =? 0 then Ok (ERR_NONE, 0, o_put o (head_of b))
       else do l0 <- lace_head (b_lacing b) (map zlen ps); o_write (o_put o (head_of b)) l0) = Ok (ERR_NONE, zlen l, o_put (o_put o (head_of b)) l)).
    { destruct (b_lacing b =? 0).
      - rewrite Hl1. rewrite o_put_nil by (eapply room_put'; [exact Hr|lia|lia]). reflexivity.
      - rewrite Hl1. cbn [bind]. apply o_write_ok. eapply room_put'; [exact Hr|lia|lia]. }
    rewrite Hlw. cbn [bind Z.eqb ERR_NONE negb]. rewrite (o_put_app _ _ _ _ Hr) by lia.
    assert (Hr2 : room (o_put o (head_of b ++ l)) (zlen (concat ps))) by (eapply room_put'; [exact Hr|lia|rewrite zlen_app; lia]).
    assert (Hfin : o_put (o_put o (head_of b ++ l)) (concat ps) = o_put o (out_of b ps l)).
    { rewrite (o_put_app _ _ _ _ Hr) by (rewrite zlen_app; lia). unfold out_of. rewrite <- app_assoc. reflexivity. }
    rewrite Hsz. rewrite (render_zlib_ok fuel fs (b_data b) [] 0 _ _ Hs Hft Hdt eq_refl Hr2). fold ps. rewrite Hfin, Hlen. do 3 f_equal. lia.
  - intros Hnd. unfold z_update. rewrite Ez, Eb, Hnd. cbn [negb].
    replace (b_lacing b =? LACING_AUTO) with false by (red in Hlac; change LACING_AUTO with 4; lia). cbn [bind].
    replace (bl_lacing b (b_lacing b)) with b by (destruct b; reflexivity). rewrite Hcs. cbn [bind].
    change LACING_NONE with 0. change LACING_EBML with 3. change LACING_XIPH with 1. change LACING_FIXED with 2. rewrite <- head_len.
    assert (Hd : (if b_lacing b =? 0 then zlen (head_of b) + hd 0 (map zlen ps)
      else if (b_lacing b =? 3) || (b_lacing b =? 1) || (b_lacing b =? 2) then zlen (head_of b) + 1 + laced_size (b_lacing b) (map zlen ps) else b_dsize b) = zlen (out_of b ps l)).
    { rewrite Hlen, Hl3. destruct (b_lacing b =? 0) eqn:E0; [reflexivity|]. red in Hlac.
      replace ((b_lacing b =? 3) || (b_lacing b =? 1) || (b_lacing b =? 2)) with true by lia. lia. }
    rewrite Hd. replace (zlen (out_of b ps l) <? -1) with false by lia. reflexivity.
Qed.

(** Reading. *)
Lemma resize_exact buf n x : 0 <= n -> firstn (Z.to_nat n) buf = x -> n <= zlen buf -> resize junk buf n = x.
Proof. intros H E L. unfold resize. rewrite E. replace (Z.to_nat (n - zlen buf)) with 0%nat by lia. cbn [repeat]. apply app_nil_r. Qed.
Lemma read_zlib_ok fuel fs : forall tmp pre cursor buf off, soon fuel fs -> tmp = pre ++ concat (map e fs) -> cursor = zlen pre -> 0 <= off <= zlen buf ->
  exists buf', read_zlib z junk fuel tmp cursor (map zlen (map e fs)) buf off = Ok (ERR_NONE, map zlen fs, buf', off + zlen (concat fs)) /\
    firstn (Z.to_nat (off + zlen (concat fs))) buf' = firstn (Z.to_nat off) buf ++ concat fs /\ off + zlen (concat fs) <= zlen buf'.
Proof.
  induction fs as [|f fs IH]; intros tmp pre cursor buf off S -> -> Ho.
  - exists buf. cbn [map concat read_zlib]. change (zlen (@nil Z)) with 0. rewrite Z.add_0_r, app_nil_r. split; [reflexivity|]. split; [reflexivity|lia].
  - pose proof (Forall_inv S) as [Hf Hl]. apply Forall_inv_tail in S. cbn [map read_zlib concat]. rewrite mem_get_3 by reflexivity. cbn [opt_res bind]. pose proof (zlen_nonneg f).
    destruct (uncompress_ok z junk fuel (e f) f buf off (proj2 (C f)) Ho Hf) as (buf1 & E1 & F1 & L1). rewrite E1. cbn [bind]. change (ERR_NONE =? ERR_NONE) with true. cbn [negb].
    assert (Ho1 : 0 <= off + zlen f <= zlen buf1) by lia.
    destruct (IH (pre ++ e f ++ concat (map e fs)) (pre ++ e f) (zlen pre + zlen (e f)) buf1 (off + zlen f) S) as (buf2 & E2 & F2 & L2); [rewrite <- app_assoc; reflexivity|rewrite zlen_app; reflexivity|exact Ho1|].
    rewrite E2. cbn [bind]. exists buf2. rewrite s32_small by lia. rewrite zlen_app. replace (off + (zlen f + zlen (concat fs))) with (off + zlen f + zlen (concat fs)) by lia. split; [reflexivity|]. split; [|exact L2].
    rewrite F2, F1. rewrite <- app_assoc. reflexivity.
Qed.

Lemma z_read_data_ok fuel b t moved s pos fs : zlib_track t -> b_set b = false -> b_sizes b = map zlen (map e fs) -> (b_lacing b = 0 -> exists f, fs = [f]) -> soon fuel fs ->
  in_reach s (b_first b) -> at_pos (in_data s) (b_first b) (concat (map e fs)) ->
  exists b' q, z_read_data z junk fuel b t moved s pos = Ok (ERR_NONE, b', q) /\ b_set b' = true /\ holds (b_sizes b') (b_data b') fs /\ b_sizes_in b' = map zlen (map e fs) /\ b_first b' = b_first b /\
    (b_simple b' = b_simple b /\ b_track b' = b_track b /\ b_time b' = b_time b /\ b_tused b' = b_tused b /\ b_key b' = b_key b /\ b_disc b' = b_disc b /\ b_invis b' = b_invis b /\ b_lacing b' = b_lacing b).
Proof.
  intros Hz Hset Hsz Hl0 Hs Hre Hat. destruct (track_zlib t Hz) as (scope & Ez & Eb). unfold z_read_data. rewrite Ez, Eb, Hset. cbn [negb]. cbv zeta. pose proof Hat as (Ha0 & Ha1 & _). pose proof (zlen_nonneg (concat (map e fs))).
  rewrite seek_ok by lia. cbn [snd bl_frames b_lacing b_sizes b_first b_data b_sizes_in].
  destruct (b_lacing b =? LACING_NONE) eqn:E0.
  - destruct Hl0 as (f & ->); [change LACING_NONE with 0 in E0; lia|]. rewrite Hsz. cbn [map hd tl concat] in *. rewrite app_nil_r in *. pose proof (Forall_inv Hs) as [Hf Hl]. pose proof (zlen_nonneg f).
    rewrite (rd s (b_first b) (e f) _ Hre Hat eq_refl). cbn [bind]. change (ERR_NONE =? ERR_NONE) with true. cbn [negb].
    destruct (uncompress_ok z junk fuel (e f) f (b_data b) 0 (proj2 (C f))) as (buf & E & F & L); [pose proof (zlen_nonneg (b_data b)); lia|exact Hf|]. rewrite E. cbn [bind]. change (ERR_NONE =? ERR_NONE) with true. cbn [negb].
    rewrite Z.add_0_l in F, L. cbn [Z.to_nat firstn app] in F. rewrite (resize_exact buf (zlen f) f) by (assumption || lia). rewrite s32_small by lia.
    eexists _, _. split; [reflexivity|]. destruct moved; (split; [reflexivity|]; split; [split; [reflexivity|cbn [concat]; rewrite app_nil_r; reflexivity]|]; repeat split).
  - rewrite Hsz, <- zlen_concat. replace (zlen (concat (map e fs)) <? 0) with false by lia. rewrite (rd s (b_first b) _ _ Hre Hat eq_refl). cbn [bind]. change (ERR_NONE =? ERR_NONE) with true. cbn [negb].
    destruct (read_zlib_ok fuel fs (concat (map e fs)) [] 0 (b_data b) 0 Hs eq_refl eq_refl) as (buf & E & F & L); [pose proof (zlen_nonneg (b_data b)); lia|]. cbn [app] in E. rewrite E. cbn [bind]. change (ERR_NONE =? ERR_NONE) with true. cbn [negb].
    rewrite Z.add_0_l in *. cbn [Z.to_nat firstn app] in F. rewrite (resize_exact buf _ _ (zlen_nonneg _) F L).
    eexists _, _. split; [reflexivity|]. destruct moved; (split; [reflexivity|]; split; [split; reflexivity|]; repeat split).
Qed.

Lemma z_read_frames_ok fuel zf r t moved s pos track time key disc invis lacing fs bs : 0 <= track < 16384 -> -32768 <= time < 32768 -> zlib_track t ->
  block_code 4 (b_simple r) track time key disc invis lacing (map e fs) bs -> placed fuel r s bs [] (map e fs) -> (lacing = 2 -> zlen fs < 256) -> soon zf fs ->
  exists r' q, z_read_frames z junk fuel zf r t moved s pos = Ok (ERR_NONE, r', q) /\ shows r' track time key disc invis lacing /\ b_set r' = true /\ holds (b_sizes r') (b_data r') fs.
Proof.
  intros Ht Hm Hz Hc Hp H2 Hs. destruct (read_head_ok fuel r s pos track time key disc invis lacing [] (map e fs) bs Ht Hm Hc Hp) as (r1 & Hrh & Hsh & Hsz & Hda & Hset & _ & Hsim & Hat & Hre & _ & Hl0).
  { intros E. unfold zlen. rewrite map_length. exact (H2 E). }
  unfold z_read_frames. destruct (track_zlib t Hz) as (scope & Ez & Eb). rewrite Ez. rewrite Hrh. cbn [bind]. change (ERR_NONE =? ERR_NONE) with true. cbn [negb]. rewrite Hda. change (0 <? zlen (@nil Z)) with false. cbv iota.
  destruct Hsh as (S1 & S2 & S3 & S4 & S5 & S6).
  destruct (z_read_data_ok zf r1 t moved s (b_first r1) fs Hz Hset Hsz) as (r2 & q & E & Hset2 & Hh & _ & _ & U0 & U1 & U2 & U3 & U4 & U5 & U6 & U7); [|exact Hs|exact Hre|exact Hat|].
  { intros E. destruct Hl0 as (p & Hp0); [congruence|]. destruct fs as [|f [|g fs]]; try discriminate. exists f. reflexivity. }
  exists r2, q. split; [exact E|]. split; [|split; [exact Hset2|exact Hh]]. unfold shows. rewrite U0, U1, U2, U3, U4, U5, U6, U7. repeat split; try assumption; apply S4; assumption.
Qed.

(** Reading again after a release. *)
Lemma z_release_again fuel b t moved s pos fs : zlib_track t -> b_set b = false -> b_sizes b = map zlen (map e fs) -> (b_lacing b = 0 -> exists f, fs = [f]) -> fs <> [] -> soon fuel fs ->
  in_reach s (b_first b) -> at_pos (in_data s) (b_first b) (concat (map e fs)) ->
  exists b1 q1, z_read_data z junk fuel b t moved s pos = Ok (ERR_NONE, b1, q1) /\ holds (b_sizes b1) (b_data b1) fs /\ forall pos2 known,
    let b2 := release_data b1 known true in b_set b2 = false /\ b_data b2 = [] /\ b_sizes b2 = b_sizes b /\
    exists b3 q3, z_read_data z junk fuel b2 t moved s pos2 = Ok (ERR_NONE, b3, q3) /\ holds (b_sizes b3) (b_data b3) fs.
Proof.
  intros Hz Hset Hsz Hl0 Hn Hs Hre Hat. destruct (z_read_data_ok fuel b t moved s pos fs Hz Hset Hsz Hl0 Hs Hre Hat) as (b1 & q1 & E & _ & Hh & Hin & Hfst & _ & _ & _ & _ & _ & _ & _ & Hlac).
  exists b1, q1. split; [exact E|]. split; [exact Hh|]. intros pos2 known b2. unfold release_data in b2. cbn [negb andb] in b2.
  assert (Hs2 : b_sizes b2 = map zlen (map e fs)).
  { unfold b2. cbn [bl_set bl_frames b_sizes]. rewrite Hin. destruct fs as [|f fs]; [congruence|reflexivity]. }
  split; [reflexivity|]. split; [reflexivity|]. split; [congruence|].
  destruct (z_read_data_ok fuel b2 t moved s pos2 fs Hz eq_refl Hs2) as (b3 & q3 & E3 & _ & Hh3 & _).
  - unfold b2. cbn [bl_set bl_frames b_lacing]. rewrite Hlac. exact Hl0.
  - exact Hs.
  - unfold b2. cbn [bl_set bl_frames b_first]. rewrite Hfst. exact Hre.
  - unfold b2. cbn [bl_set bl_frames b_first]. rewrite Hfst. exact Hat.
  - exists b3, q3. split; [exact E3|exact Hh3].
Qed.
End ZP.
