(** What holds of zlib tracks whatever the library does, and what goes wrong. *)
From Verif Require Import Base BaseProofs FinderSpec Arr ArrProofs2 Void Vint VintSpec VintProofs StreamProofs Stream Ebml Tree TreeRead TreeProofs2 TreeProofs3.
From Verif Require Import Block BlockSpec BlockProofs BlockProofs2 BlockProofs3 Frame BlockProofs4 BlockProofs5 BlockProofs6 Zlib ZlibSpec ZlibProofs.
From Verif Require Import IntEltProofs ZlibProofs2.

Lemma inflate_grows z junk : forall fuel st buf count total r buf' total', inflate_loop z junk fuel st buf count total = Ok (r, buf', total') -> total <= total'.
Proof.
  induction fuel as [|fuel IH]; intros st buf count total r buf' total' H; [discriminate|]. cbn [inflate_loop] in H. destruct (z_icall z st 1024) as [[r0 o] st']. pose proof (zlen_nonneg o).
  destruct (1024 <? zlen o); [discriminate|]. destruct r0; try (injection H; intros; subst; lia). destruct (_ && _); [|injection H; intros; subst; lia]. apply IH in H. lia.
Qed.
Lemma uncompress_grows z junk fuel c buf off err buf' n off' : uncompress_frame z junk fuel c buf off = Ok (err, buf', n, off') -> 0 <= n /\ off' = off + n.
Proof.
  unfold uncompress_frame. intros E. destruct (z_istart z c) as [st|]; [|injection E; intros; subst; lia].
  destruct (inflate_loop z junk fuel st buf off 0) as [| | |[[r1 b1] t1]] eqn:E3; try discriminate. cbn [bind] in E. apply inflate_grows in E3. injection E; intros; subst. lia.
Qed.
Lemma read_table z junk fuel tmp sizes : forall cursor buf off ss buf' out, read_zlib z junk fuel tmp cursor sizes buf off = Ok (ERR_NONE, ss, buf', out) -> 0 <= off ->
  length ss = length sizes /\ off <= out /\ (out < 2 ^ 31 -> fold_right Z.add 0 ss = out - off).
Proof.
  induction sizes as [|s l IH]; intros cursor buf off ss buf' out H Ho; cbn [read_zlib] in H.
  - injection H; intros; subst. split; [reflexivity|]. split; [lia|]. intros _. cbn [fold_right]. lia.
  - destruct (opt_res _) as [| | |c]; try discriminate. cbn [bind] in H. destruct (uncompress_frame z junk fuel c buf off) as [| | |[[[err buf1] n] off']] eqn:E; try discriminate. cbn [bind] in H.
    destruct (negb (err =? ERR_NONE)) eqn:E1; [injection H; intros; subst; discriminate|].
    destruct (read_zlib z junk fuel tmp (cursor + s) l buf1 off') as [| | |[[[err2 ss2] buf2] out2]] eqn:E2; try discriminate. cbn [bind] in H. injection H; intros; subst.
    destruct (uncompress_grows _ _ _ _ _ _ _ _ _ _ E) as [N1 N2].
    destruct (IH _ _ _ _ _ _ E2 ltac:(lia)) as (H1 & H2 & H3). split; [cbn [length]; lia|]. split; [lia|]. intros Hb. cbn [fold_right]. rewrite (H3 Hb). replace (s32 n) with n by (unfold s32; rewrite s_wrap_small; lia). lia.
Qed.
Lemma resize_len junk l n : 0 <= n -> zlen (resize junk l n) = n.
Proof. intros H. unfold resize. rewrite zlen_app. unfold zlen. rewrite firstn_length, repeat_length. lia. Qed.

Lemma z_table z junk fuel b t moved s pos b' q : zlib_track t -> b_set b = false -> (b_lacing b = 0 -> length (b_sizes b) = 1%nat) ->
  z_read_data z junk fuel b t moved s pos = Ok (ERR_NONE, b', q) -> length (b_sizes b') = length (b_sizes b) /\ (zlen (b_data b') < 2 ^ 31 -> fold_right Z.add 0 (b_sizes b') = zlen (b_data b')).
Proof.
  intros Ht Hs Hl H. destruct (track_zlib t Ht) as (scope & Ez & Eb). unfold z_read_data in H. rewrite Ez, Eb, Hs in H. cbn [negb] in H.
  assert (M : forall c, b_sizes (if moved then bl_need c true else c) = b_sizes c /\ b_data (if moved then bl_need c true else c) = b_data c) by (intros c; destruct moved; split; reflexivity).
  change (b_lacing (bl_frames b (b_first b) (b_sizes b) (b_sizes b) (b_data b))) with (b_lacing b) in H. destruct (b_lacing b =? LACING_NONE) eqn:E.
  - specialize (Hl ltac:(unfold LACING_NONE in E; lia)). destruct (i_read s _ _) as [| | |[[err bs] q1]]; try discriminate. cbn [bind] in H.
    destruct (negb (err =? ERR_NONE)) eqn:E1; [injection H; intros; subst; discriminate|]. destruct (uncompress_frame z junk fuel bs _ 0) as [| | |[[[err2 buf] n] o]] eqn:E2; try discriminate. cbn [bind] in H.
    destruct (negb (err2 =? ERR_NONE)) eqn:E3; [injection H; intros; subst; discriminate|]. injection H; intros; subst q b'. rewrite (proj1 (M _)), (proj2 (M _)). cbn [b_sizes b_data bl_set bl_frames].
    destruct (uncompress_grows _ _ _ _ _ _ _ _ _ _ E2) as [N1 N2]. destruct (b_sizes b) as [|x [|y l]]; try discriminate. cbn [tl length fold_right]. split; [reflexivity|]. rewrite resize_len by lia. intros Hb. unfold s32. rewrite s_wrap_small; lia.
  - destruct (fold_right Z.add 0 (b_sizes _) <? 0); [discriminate|]. destruct (i_read s _ _) as [| | |[[err tmp] q1]]; try discriminate. cbn [bind] in H.
    destruct (negb (err =? ERR_NONE)) eqn:E1; [injection H; intros; subst; discriminate|]. destruct (read_zlib z junk fuel tmp 0 _ _ 0) as [| | |[[[err2 ss] buf] out]] eqn:E2; try discriminate. cbn [bind] in H.
    destruct (negb (err2 =? ERR_NONE)) eqn:E3; [injection H; intros; subst; discriminate|]. injection H; intros; subst q b'. rewrite (proj1 (M _)), (proj2 (M _)). cbn [b_sizes b_data bl_set bl_frames].
    assert (err2 = ERR_NONE) by lia. subst err2. destruct (read_table _ _ _ _ _ _ _ _ _ _ _ E2 ltac:(lia)) as (R1 & R2 & R3). cbn [b_sizes bl_frames] in R1. rewrite resize_len by lia. split; [exact R1|]. intros Hb. rewrite (R3 Hb). lia.
Qed.

(** An error in a lace: the value is not set. *)
Lemma z_laced_failure z junk fuel b t moved s pos err b' q : zlib_track t -> b_set b = false -> b_lacing b <> 0 ->
  z_read_data z junk fuel b t moved s pos = Ok (err, b', q) -> err <> ERR_NONE -> b_set b' = false.
Proof.
  intros Ht Hs Hl H He. destruct (track_zlib t Ht) as (scope & Ez & Eb). unfold z_read_data in H. rewrite Ez, Eb, Hs in H. cbn [negb] in H.
  change (b_lacing (bl_frames b (b_first b) (b_sizes b) (b_sizes b) (b_data b))) with (b_lacing b) in H. destruct (b_lacing b =? LACING_NONE) eqn:E; [unfold LACING_NONE in E; lia|].
  destruct (fold_right Z.add 0 (b_sizes _) <? 0); [injection H; intros; subst; exact Hs|]. destruct (i_read s _ _) as [| | |[[err1 tmp] q1]]; try discriminate. cbn [bind] in H.
  destruct (negb (err1 =? ERR_NONE)) eqn:E1; [injection H; intros; subst; exact Hs|]. destruct (read_zlib z junk fuel tmp 0 _ _ 0) as [| | |[[[err2 ss] buf] out]] eqn:E2; try discriminate. cbn [bind] in H.
  destruct (negb (err2 =? ERR_NONE)) eqn:E3; [injection H; intros; subst; exact Hs|]. injection H; intros; subst. contradiction.
Qed.

(** Without lacing it is. *)
Lemma z_failed z junk fuel b t moved s pos c m : zlib_track t -> b_set b = false -> b_lacing b = 0 -> b_sizes b = [zlen c] -> in_reach s (b_first b) -> at_pos (in_data s) (b_first b) c ->
  damaged z c m -> 0 <= m -> m / 1024 + 1 < Z.of_nat fuel ->
  exists b' q, z_read_data z junk fuel b t moved s pos = Ok (ERR_INVALID_DATA, b', q) /\ forall pos2, exists b'', z_read_data z junk fuel b' t moved s pos2 = Ok (ERR_NONE, b'', pos2) /\ b_sizes b'' = [zlen c] /\ b_data b'' = b_data b'.
Proof.
  intros Ht Hs Hl Hz Hr Ha Hd Hm Hf. destruct (track_zlib t Ht) as (scope & Ez & Eb). unfold z_read_data at 1. rewrite Ez, Eb, Hs. cbn [negb].
  cbv zeta. pose proof Ha as (Ha0 & Ha1 & _). pose proof (zlen_nonneg c). rewrite seek_ok by lia. cbn [snd bl_frames b_lacing b_sizes b_first b_data b_sizes_in]. rewrite Hl. change (0 =? LACING_NONE) with true. cbv iota.
  rewrite Hz. cbn [hd]. rewrite (rd s (b_first b) c _ Hr Ha eq_refl). cbn [bind]. change (ERR_NONE =? ERR_NONE) with true. cbn [negb].
  destruct (uncompress_damaged z junk fuel c m (b_data b) 0 Hd Hm) as (buf & n & o & E & _ & _); [pose proof (zlen_nonneg (b_data b)); lia|exact Hf|]. rewrite E. cbn [bind]. change (ERR_INVALID_DATA =? ERR_NONE) with false. cbn [negb].
  eexists _, _. split; [reflexivity|]. intros pos2. unfold z_read_data. rewrite Ez, Eb. cbn [negb]. destruct moved; cbn [b_set bl_set bl_need bl_frames]; (eexists; split; [reflexivity|]; split; reflexivity).
Qed.

(** A frame that grows by more than 100 bytes. *)
Lemma z_big z e fuel b t f : codes z e -> 0 <= b_track b < 16384 -> -32768 <= b_time b < 32768 -> zlib_track t -> b_set b = true -> b_lacing b = 0 -> holds (b_sizes b) (b_data b) [f] -> f <> [] ->
  zlen (e f) / zlen f + 1 < Z.of_nat fuel -> zlen f + 100 < zlen (e f) -> forall o, room o 6 -> z_render z fuel b t o = Bad.
Proof.
  intros C Ht Hm Hz Hset Hl [Hsz Hdt] Hn Hf Hb o Ho. destruct (track_zlib t Hz) as (scope & Ez & Eb). unfold z_render. rewrite Ez, Eb. cbn [negb].
  rewrite block_head_ok by (try assumption; left; exact Hl). assert (H6 : zlen (head_of b) <= 6) by (rewrite head_len; unfold head_size; destruct (b_track b <? 128); lia).
  rewrite o_write_ok by (eapply room_le; [exact Ho|lia]). cbn [bind]. cbn [Z.eqb ERR_NONE negb]. rewrite Z.eqb_refl. cbn [negb]. rewrite Hl. change (0 =? LACING_NONE) with true. cbn [bind]. change (negb (0 =? 0)) with false. cbv iota.
  rewrite Hsz, Hdt. cbn [map concat render_zlib]. pose proof (mem_get_ok [] f []) as G. cbn [app] in G. change (zlen (@nil Z)) with 0 in G. rewrite G. cbn [opt_res bind].
  rewrite (compress_ok z fuel f (e f) (zlen f + 100) (proj1 (C f)) Hn Hf). cbn [bind]. change (negb (ERR_NONE =? ERR_NONE)) with false. cbv iota. replace (zlen f + 100 <? zlen (e f)) with true by lia. reflexivity.
Qed.

(** The lacing chosen for frames of the same size. *)
Lemma z_auto z e fuel b t fs n : codes z e -> zlib_track t -> b_set b = true -> b_need b = true -> b_lacing b = 4 -> holds (b_sizes b) (b_data b) fs -> Forall (fun f => zlen f = n) fs -> 2 <= zlen fs ->
  Forall (fun f => f <> [] /\ zlen (e f) / zlen f + 1 < Z.of_nat fuel) fs -> exists d b', z_update z fuel b t = Ok (d, b') /\ b_lacing b' = 2.
Proof.
  intros C Hz Hset Hn Hl Hh Hall H2 Hs. destruct (track_zlib t Hz) as (scope & Ez & Eb). unfold z_update. rewrite Ez, Eb, Hn. cbn [negb]. rewrite Hl. change (4 =? LACING_AUTO) with true. cbv iota.
  assert (B : z_best z fuel b = Ok 2).
  { unfold z_best. rewrite (proj1 Hh). clear Hh Hs. destruct fs as [|f [|g fs]]; [unfold zlen in H2; cbn in H2; lia|unfold zlen in H2; cbn in H2; lia|]. change (map zlen (f :: g :: fs)) with (zlen f :: map zlen (g :: fs)). inversion Hall as [|? ? F1 F2]; subst.
    assert (Q : forallb (fun x => x =? zlen f) (map zlen (g :: fs)) = true); [|cbn [map] in *; rewrite Q; reflexivity]. apply forallb_forall. intros x Hx. apply in_map_iff in Hx. destruct Hx as (y & <- & Hy). rewrite Forall_forall in F2. rewrite (F2 y Hy). lia. }
  rewrite B. cbn [bind]. rewrite (z_sizes_ok z e C fuel (bl_lacing b 2) fs Hset Hh Hs). cbn [bind]. eexists _, _. split; reflexivity.
Qed.
