(** The API sequences on blocks. *)
From Verif Require Import Base BaseProofs ArrProofs2 Vint VintSpec VintProofs StreamProofs Stream Ebml Tree TreeRead TreeProofs2 TreeProofs3 Block BlockSpec BlockProofs BlockProofs2 BlockProofs3 Frame.

Lemma odd_land x : Z.odd x = true -> Z.land x 1 <> 0.
Proof. intros H. change 1 with (Z.ones 1). rewrite Z.land_ones by lia. change (2 ^ 1) with 2. rewrite Zmod_odd, H. discriminate. Qed.
Lemma header_stripped t h : track_header t h -> stripped t h /\ (forall a c d sc x, find_header a c d t = Ok (inr (Strip x, sc)) -> Z.land sc 1 <> 0).
Proof.
  intros H. inversion H; subst.
  - split; [intros a b c; exists NoHeader, 1; split; reflexivity|]. intros a c d sc x Hx. discriminate.
  - split; [intros a b c; exists NoHeader, 1; cbn [find_header]; rewrite H0; split; reflexivity|]. intros a c d sc x. cbn [find_header]. rewrite H0. discriminate.
  - split.
    + intros a b c. exists (Strip h), (match scope with Some s => s | None => 1 end). split; [reflexivity|]. cbn [strip_of]. destruct scope as [x|]; [|reflexivity].
      apply odd_land in H0. replace (Z.land x 1 =? 0) with false by lia. reflexivity.
    + intros a c d sc x Hx. cbn [find_header en_children negb en_scope en_compr cp_algo cp_settings] in Hx. change (3 =? COMP_HEADERSTRIP) with true in Hx. cbv iota in Hx. injection Hx as _ <-.
      destruct scope as [y|]; [apply odd_land; exact H0|discriminate].
  - split; [intros a b c; exists NoHeader, (match scope with Some s => s | None => 1 end); split; reflexivity|]. intros a c d sc x Hx. discriminate.
Qed.

(** Linking the track adds the header to the sizes. *)
Lemma check_compression_ok b t h ps : track_header t h -> b_data b = [] -> b_sizes b = map zlen ps -> Forall (fun p => zlen (h ++ p) < 2 ^ 31) ps ->
  exists b', check_compression b t = Ok (ERR_NONE, b') /\ b_sizes b' = map zlen (map (app h) ps) /\ b_first b' = b_first b /\ b_set b' = b_set b /\ b_lacing b' = b_lacing b /\
    b_track b' = b_track b /\ b_time b' = b_time b /\ b_tused b' = b_tused b /\ b_key b' = b_key b /\ b_disc b' = b_disc b /\ b_invis b' = b_invis b.
Proof.
  intros H Hd Hs Hb. inversion H; subst; unfold check_compression.
  - exists b. split; [reflexivity|]. split; [|repeat split]. cbn [app]. rewrite map_id. exact Hs.
  - rewrite Hd. change (0 <? zlen (@nil Z)) with false. cbn [find_header]. rewrite H0. cbn [negb bind]. exists b. split; [reflexivity|]. split; [|repeat split]. cbn [app]. rewrite map_id. exact Hs.
  - rewrite Hd. change (0 <? zlen (@nil Z)) with false. cbn [find_header en_children negb en_scope en_compr cp_algo cp_settings]. change (3 =? COMP_HEADERSTRIP) with true. cbv iota. cbn [bind].
    eexists. split; [reflexivity|]. split; [|repeat split]. cbn [bl_frames b_sizes]. rewrite Hs, !map_map. apply map_ext_in. intros p Hp. eapply Forall_forall in Hb; [|exact Hp].
    rewrite zlen_app in *. pose proof (zlen_nonneg h). pose proof (zlen_nonneg p). rewrite s32_small by lia. lia.
  - rewrite Hd. change (0 <? zlen (@nil Z)) with false. cbn [find_header en_children negb en_scope en_compr cp_algo cp_settings]. change (3 =? COMP_HEADERSTRIP) with true. cbv iota. cbn [bind].
    exists b. split; [reflexivity|]. split; [|repeat split]. cbn [app]. rewrite map_id. exact Hs.
Qed.

(** The fields a reader sees. *)
Definition shows (r : block) (track time : Z) (key disc invis : bool) (lacing : Z) : Prop :=
  b_track r = track /\ b_time r = time /\ b_tused r = true /\ (b_simple r = true -> b_key r = key /\ b_disc r = disc) /\ b_invis r = invis /\ b_lacing r = lacing.

(** [bs] is at the data position of the block [r] that the finder returned. *)
Definition placed (fuel : nat) (r : block) (s : ist) (bs : list Z) (h : list Z) (ps : list (list Z)) : Prop :=
  in_reach s (b_dpos r) /\ at_pos (in_data s) (b_dpos r) bs /\ b_dpos r + 5 <= zlen (in_data s) /\ b_dsize r = zlen bs /\ zlen bs < 2 ^ 31 /\ b_data r = [] /\
  Forall (fun x => zlen x / 255 < Z.of_nat fuel) ps /\ Forall (fun p => zlen (h ++ p) < 2 ^ 31) ps.

Lemma head_zlen simple track time key disc invis lacing : 0 <= track < 16384 -> zlen (head_code simple track time key disc invis lacing) = if track <? 128 then 4 else 5.
Proof. intros H. unfold head_code, track_code, time_code. destruct (track <? 128); reflexivity. Qed.

Lemma read_head_ok fuel r s pos track time key disc invis lacing h ps bs : 0 <= track < 16384 -> -32768 <= time < 32768 ->
  block_code 4 (b_simple r) track time key disc invis lacing ps bs -> placed fuel r s bs h ps -> (lacing = 2 -> zlen ps < 256) ->
  exists r', read_head fuel r s pos = Ok (ERR_NONE, r', b_first r') /\ shows r' track time key disc invis lacing /\ b_sizes r' = map zlen ps /\ b_data r' = [] /\ b_set r' = false /\
    b_dpos r' = b_dpos r /\ b_simple r' = b_simple r /\
    at_pos (in_data s) (b_first r') (concat ps) /\ in_reach s (b_first r') /\ (lacing = 0 -> b_first r' = b_dpos r + head_size r') /\ (lacing = 0 -> exists p, ps = [p]).
Proof.
  intros Ht Hm (l & Hl & Hbs) (Hr & Ha & H5 & Hd & Hb & Hda & Hf & Hh) H2. subst bs.
  destruct (parse_ok fuel r s pos track time key disc invis lacing ps l Ht Hm Hl Hr Ha H5 Hd Hb Hf H2) as (q & Hp).
  unfold read_head. rewrite Hp. cbn [bind]. cbn [Z.eqb ERR_NONE negb].
  set (r' := parsed _ _ _ _ _ _ _ _ _) in *. assert (Hfst : b_first r' = b_dpos r + zlen (head_code (b_simple r) track time key disc invis lacing ++ l)).
  { unfold r', parsed. cbn [b_first bl_frames]. rewrite !zlen_app. lia. }
  assert (Hat : at_pos (in_data s) (b_first r') (concat ps)).
  { rewrite Hfst. rewrite app_assoc in Ha. apply at_app in Ha. exact (proj2 Ha). }
  pose proof Hat as (Ha0 & Ha1 & _). pose proof (zlen_nonneg (concat ps)).
  rewrite seek_ok by lia. replace (b_first r' =? INVALID_FILEPOS) with false by (unfold INVALID_FILEPOS; lia).
  exists r'. split; [reflexivity|]. split.
  { unfold shows, r', parsed. cbn [bl_frames bl_head bl_set b_track b_time b_tused b_simple b_key b_disc b_invis b_lacing]. repeat split; destruct (b_simple r); congruence. }
  split; [reflexivity|]. split; [unfold r', parsed; cbn [bl_frames b_data]; exact Hda|]. split; [reflexivity|]. split; [reflexivity|]. split; [reflexivity|]. split; [exact Hat|].
  split. { pose proof (zlen_nonneg (head_code (b_simple r) track time key disc invis lacing ++ l)). eapply reach_le; [exact Hr|lia]. }
  split.
  - intros ->. rewrite Hfst. inversion Hl; subst. rewrite app_nil_r, head_zlen by assumption. unfold head_size, r', parsed. cbn [bl_frames bl_head b_track]. reflexivity.
  - intros ->. inversion Hl; subst. eauto.
Qed.

Lemma read_frames_ok fuel r t moved s pos track time key disc invis lacing h ps bs : 0 <= track < 16384 -> -32768 <= time < 32768 ->
  block_code 4 (b_simple r) track time key disc invis lacing ps bs -> track_header t h -> placed fuel r s bs h ps -> (lacing = 2 -> zlen ps < 256) ->
  exists r' q, read_frames fuel r t moved s pos = Ok (ERR_NONE, r', q) /\ shows r' track time key disc invis lacing /\ b_set r' = true /\ holds (b_sizes r') (b_data r') (map (app h) ps).
Proof.
  intros Ht Hm Hc Hth Hpl H2. destruct (read_head_ok fuel r s pos track time key disc invis lacing h ps bs Ht Hm Hc Hpl H2)
    as (r1 & Hrh & Hsh & Hsz & Hda & Hset & _ & Hsim & Hat & Hre & _ & Hl0).
  unfold read_frames. rewrite Hrh. cbn [bind]. cbn [Z.eqb ERR_NONE negb].
  destruct (header_stripped t h Hth) as [Hst Hsc].
  destruct (check_compression_ok r1 t h ps Hth Hda Hsz) as (r2 & Hcc & Hsz2 & Hf2 & Hs2 & Hl2 & T1 & T2 & T3 & T4 & T5 & T6); [apply Hpl|].
  rewrite Hcc. cbn [bind]. cbn [Z.eqb ERR_NONE negb].
  destruct Hsh as (S1 & S2 & S3 & S4 & S5 & S6).
  destruct (read_data_ok r2 t h moved s (b_first r1) ps Hst Hsc) as (r3 & q & Hrd & Hset3 & Hho & U1 & U2 & U3 & U4 & U5 & U6 & U7 & _).
  - congruence.
  - exact Hsz2.
  - intros E. apply Hl0. congruence.
  - rewrite Hf2. exact Hre.
  - rewrite Hf2. exact Hat.
  - exists r3, q. split; [exact Hrd|]. split; [|split; [exact Hset3|exact Hho]].
    assert (Hs : b_simple r3 = b_simple r1).
    { assert (b_simple r2 = b_simple r1).
      { unfold check_compression in Hcc. destruct t; [|injection Hcc as <-; reflexivity]. destruct (0 <? _); [discriminate|].
        destruct (find_header _ _ _ _) as [| | |[?|[[|x] sc]]]; cbn [bind] in Hcc; try discriminate; try (injection Hcc as _ <-; reflexivity); injection Hcc as <-; reflexivity. }
      assert (b_simple r3 = b_simple r2); [|congruence].
      unfold read_data in Hrd. destruct (b_set r2); [injection Hrd as <- _; destruct moved; reflexivity|].
      destruct (find_header _ _ _ _) as [| | |[?|[hd0 sc]]]; cbn [bind] in Hrd; try discriminate; [injection Hrd as _ <- _; reflexivity|].
      set (r2' := match hd0 with NoHeader => r2 | Strip _ => _ end) in *. assert (Hr2 : b_simple r2' = b_simple r2) by (unfold r2'; destruct hd0; reflexivity). rewrite <- Hr2. clearbody r2'. cbv zeta in Hrd.
      destruct (b_lacing r2' =? LACING_NONE).
      - destruct (_ <? 0); [discriminate|]. destruct (_ <? _); [discriminate|]. destruct (i_read _ _ _) as [| | |[[e bs'] q']]; cbn [bind] in Hrd; try discriminate.
        destruct (negb _) eqn:Ee; [injection Hrd as Hrd _ _; subst e; discriminate|]. injection Hrd as <- _. destruct moved; reflexivity.
      - destruct (_ <? 0); [discriminate|]. destruct (match hd0 with NoHeader => _ | Strip _ => _ end) as [| | |[[e bs'] q']]; cbn [bind] in Hrd; try discriminate.
        destruct (negb _) eqn:Ee; [injection Hrd as Hrd _ _; subst e; discriminate|]. injection Hrd as <- _. destruct moved; reflexivity. }
    unfold shows. rewrite Hs, U1, U2, U3, U4, U5, U6, U7, T1, T2, T3, T4, T5, T6, Hl2. repeat split; try assumption; apply S4; assumption.
Qed.
