(** Reading LZO-compressed blocks. *)
From Verif Require Import Base BaseProofs IntEltProofs TreeProofs2 TreeProofs3 Ebml Stream Finder FinderSpec Tree TreeRead Block BlockSpec BlockProofs BlockProofs2 BlockProofs4 Lzo LzoSpec LzoProofs LzoProofs2 LzoProofs3 LzoBlock.

(** [c] is a compressed frame standing for [f], within the room the reader gives it. *)
Definition packs (c f : list Z) : Prop := lzo_stream c f /\ bytes_ok c /\ zlen c < 2 ^ 29 /\ zlen f <= Z.max 2048 (4 * zlen c).

Lemma room_ok (c : list Z) : zlen c < 2 ^ 29 -> out_room (zlen c) = Z.max 2048 (4 * zlen c).
Proof. intros H. pose proof (zlen_nonneg c). unfold out_room, s32. rewrite s_wrap_small by lia. f_equal. lia. Qed.
Lemma packs_lzo tail c f : packs c f -> lzo tail c (out_room (zlen c)) = Ok (L_SUCCESS, f) /\ s32 (zlen f) = zlen f.
Proof.
  intros (S & Hb & Hc & Hf). pose proof (zlen_nonneg c). pose proof (zlen_nonneg f). rewrite room_ok by exact Hc. split.
  - rewrite <- (app_nil_r c) at 1. apply (lzo_ok tail c [] f); try assumption; [|lia]. change MAX255 with ((2 ^ 64 - 1) / 255 - 2). lia.
  - unfold s32. rewrite s_wrap_small; lia.
Qed.
Lemma lzo_frames_ok junk : forall cs fs, Forall2 packs cs fs -> lzo_frames junk (concat cs) (map zlen cs) = Ok (ERR_NONE, map zlen fs, concat fs).
Proof.
  induction 1 as [|c f cs fs H _ IH]; [reflexivity|]. cbn [concat map lzo_frames]. pose proof (zlen_nonneg c). pose proof (zlen_nonneg (concat cs)). rewrite zlen_app.
  replace ((zlen c <? 0) || (zlen c + zlen (concat cs) <? zlen c)) with false by lia.
  replace (Z.to_nat (zlen c)) with (length c) by (unfold zlen; lia). rewrite firstn_app, firstn_all, Nat.sub_diag, skipn_app, skipn_all, Nat.sub_diag. cbn [firstn skipn app]. rewrite app_nil_r.
  destruct (packs_lzo (concat cs ++ junk) c f H) as [-> E]. cbn [bind]. change (L_SUCCESS =? L_SUCCESS) with true. cbn [negb]. rewrite IH. cbn [bind]. rewrite E. reflexivity.
Qed.
Lemma read_lzo_ok b junk s pos cs fs : Forall2 packs cs fs -> b_set b = false -> b_sizes b = map zlen cs -> (b_lacing b = 0 -> exists p, cs = [p]) ->
  in_reach s (b_first b) -> at_pos (in_data s) (b_first b) (concat cs) ->
  exists b' q, read_lzo b junk s pos = Ok (ERR_NONE, b', q) /\ b_set b' = true /\ holds (b_sizes b') (b_data b') fs /\
    b_track b' = b_track b /\ b_time b' = b_time b /\ b_tused b' = b_tused b /\ b_key b' = b_key b /\ b_disc b' = b_disc b /\ b_invis b' = b_invis b /\ b_lacing b' = b_lacing b /\
    b_simple b' = b_simple b.
Proof.
  intros H Hns Hsz Hl0 Hre Ha. unfold read_lzo. rewrite Hns. pose proof Ha as (Hp0 & Hpl & _). pose proof (zlen_nonneg (concat cs)). rewrite seek_ok by lia. cbn [snd]. cbv zeta beta.
  change LACING_NONE with 0. destruct (Z.eqb_spec (b_lacing b) 0) as [E0|E0].
  - destruct (Hl0 E0) as (c & ->). inversion H as [|c' f cs' fs' Hp Hr]; subst. inversion Hr; subst. cbn [concat] in *. rewrite app_nil_r in *. rewrite Hsz. cbn [map hd tl].
    replace (zlen c <? 0) with false by (pose proof (zlen_nonneg c); lia). rewrite (rd s (b_first b) c) by (assumption || reflexivity). cbn [bind]. cbn [Z.eqb ERR_NONE negb].
    destruct (packs_lzo junk c f Hp) as [-> E]. cbn [bind]. change (L_SUCCESS =? L_SUCCESS) with true. cbn [negb]. rewrite E.
    eexists _, _. split; [reflexivity|]. unfold holds. cbn [map concat]. rewrite app_nil_r. cbn [bl_set bl_frames b_set b_sizes b_data b_track b_time b_tused b_key b_disc b_invis b_lacing b_simple]. repeat split; reflexivity.
  - rewrite Hsz, <- zlen_concat. replace (zlen (concat cs) <? 0) with false by lia. rewrite (rd s (b_first b) (concat cs)) by (assumption || reflexivity). cbn [bind]. cbn [Z.eqb ERR_NONE negb].
    rewrite (lzo_frames_ok junk cs fs H). cbn [bind]. eexists _, _. split; [reflexivity|]. cbn. repeat split; reflexivity.
Qed.
Lemma read_lzo_block_ok fuel r junk s pos track time key disc invis lacing cs fs bs : 0 <= track < 16384 -> -32768 <= time < 32768 ->
  block_code 4 (b_simple r) track time key disc invis lacing cs bs -> placed fuel r s bs [] cs -> (lacing = 2 -> zlen cs < 256) -> Forall2 packs cs fs ->
  exists r' q, read_lzo_block fuel r junk s pos = Ok (ERR_NONE, r', q) /\ shows r' track time key disc invis lacing /\ holds (b_sizes r') (b_data r') fs.
Proof.
  intros Ht Hm Hc Hp H2 Hpk. destruct (read_head_ok fuel r s pos track time key disc invis lacing [] cs bs Ht Hm Hc Hp H2) as (b & E & Sh & Hsz & Hd & Hns & _ & _ & Ha & Hre & _ & Hl0).
  unfold read_lzo_block. rewrite E. cbn [bind]. cbn [Z.eqb ERR_NONE negb].
  assert (Hlac : b_lacing b = lacing) by apply Sh. rewrite <- Hlac in Hl0.
  destruct (read_lzo_ok b junk s (b_first b) cs fs Hpk Hns Hsz Hl0 Hre Ha) as (r' & q & E' & _ & Hh & E1 & E2 & E3 & E4 & E5 & E6 & E7 & E8).
  exists r', q. split; [exact E'|]. split; [|exact Hh]. destruct Sh as (S1 & S2 & S3 & S4 & S5 & S6). unfold shows. rewrite E1, E2, E3, E4, E5, E6, E7, E8. repeat split; try assumption; apply S4; assumption.
Qed.

(** Whatever the bytes, reading ends. *)
Lemma lzo_frames_total junk : stops junk -> forall sizes buf, Forall (fun z => 0 <= z < 2 ^ 29) sizes -> bytes_ok buf -> fold_right Z.add 0 sizes <= zlen buf ->
  exists err sz d, lzo_frames junk buf sizes = Ok (err, sz, d) /\ length sz = length sizes /\ (err = ERR_NONE -> fold_right Z.add 0 sz = zlen d /\ Forall (fun z => 0 <= z) sz).
Proof.
  intros Hj. induction sizes as [|z l IH]; intros buf Hs Hb Hsum.
  - exists ERR_NONE, [], []. cbn. auto.
  - cbn [lzo_frames fold_right] in *. apply Forall_cons_iff in Hs. destruct Hs as [Hz Hl].
    assert (Hl0 : 0 <= fold_right Z.add 0 l) by (clear -Hl; induction Hl as [|x l Hx _ IHl]; cbn; lia).
    replace ((z <? 0) || (zlen buf <? z)) with false by lia.
    assert (Hst : stops (skipn (Z.to_nat z) buf ++ junk)) by (apply Exists_app; right; exact Hj).
    assert (Hbf : bytes_ok (firstn (Z.to_nat z) buf) /\ bytes_ok (skipn (Z.to_nat z) buf)) by (apply Forall_app; rewrite firstn_skipn; exact Hb). destruct Hbf as [Hb1 Hb2].
    assert (Hroom : 0 <= out_room z < 2 ^ 31) by (unfold out_room, s32; rewrite s_wrap_small; lia).
    destruct (lzo_inv (skipn (Z.to_nat z) buf ++ junk) (firstn (Z.to_nat z) buf) (out_room z) Hb1 ltac:(lia)) as [[_ F]|(code & fin & -> & Hf & _)]; [contradiction|]. cbn [bind].
    destruct (negb (code =? L_SUCCESS)); [exists ERR_INVALID_DATA, (z :: l), []; split; [reflexivity|split; [reflexivity|discriminate]]|].
    destruct (IH (skipn (Z.to_nat z) buf) Hl Hb2) as (err & sz & d & -> & Hlen & Hg); [unfold zlen in *; rewrite skipn_length; lia|]. cbn [bind].
    pose proof (zlen_nonneg fin). assert (s32 (zlen fin) = zlen fin) as -> by (unfold s32; rewrite s_wrap_small; lia).
    eexists err, _, _. split; [reflexivity|]. split; [cbn; lia|]. intros He. destruct (Hg He) as [G1 G2]. cbn [fold_right]. rewrite zlen_app. split; [lia|]. constructor; [lia|exact G2].
Qed.
