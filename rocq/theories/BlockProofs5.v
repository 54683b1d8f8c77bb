(** Automatic lacing, frame access, release, and the safety of MATROSKA_BlockReadData. *)
From Verif Require Import Base BaseProofs FinderSpec Arr ArrProofs2 Vint VintSpec VintProofs StreamProofs Stream Ebml Tree TreeRead TreeProofs2 TreeProofs3 Block BlockSpec BlockProofs BlockProofs2 BlockProofs3 Frame BlockProofs4.

(** ** Automatic lacing *)
Definition xsum (l : list Z) : Z := fold_right (fun s a => s / 255 + 1 + a) 0 l.
Lemma xiph_cost_ok l : Forall (fun s => 0 <= s) l -> forall acc d, exists d', xiph_cost l acc d = (acc + xsum l, d') /\ (l <> [] -> 0 <= d' < 255).
Proof.
  induction 1 as [|s l Hs Hl IH]; intros acc d; cbn [xiph_cost xsum fold_right].
  - exists d. split; [f_equal; lia|congruence].
  - fold (xsum l). set (dn := if s <? 255 then s else s mod 255). assert (Hdn : 0 <= dn < 255) by (unfold dn; destruct (s <? 255) eqn:E; [lia|apply Z.mod_pos_bound; lia]).
    replace (if s <? 255 then 1 else s / 255 + 1) with (s / 255 + 1). 2:{ destruct (s <? 255) eqn:E; [rewrite Z.div_small; lia|reflexivity]. }
    destruct (IH (acc + (s / 255 + 1)) dn) as (d' & Hd & Hr). rewrite Hd. exists d'. split; [f_equal; lia|]. intros _.
    destruct l as [|x l]; [cbn [xiph_cost] in Hd; injection Hd as _ <-; exact Hdn|apply Hr; discriminate].
Qed.
Lemma xiph_codes_len fs : zlen (xiph_codes fs) = xsum (map zlen fs).
Proof.
  unfold xiph_codes. induction fs as [|x fs IH]; [reflexivity|]. cbn [map concat xsum fold_right]. fold (xsum (map zlen fs)). rewrite zlen_app, xiph_code_len by apply zlen_nonneg. lia.
Qed.
Lemma xsum_sum l : Forall (fun s => 0 <= s) l -> sumz l <= 255 * xsum l /\ 0 <= sumz l.
Proof.
  induction 1 as [|s l Hs Hl [IH IH2]]; [split; vm_compute; discriminate|]. cbn [sumz xsum fold_right]. fold (sumz l) (xsum l).
  pose proof (Z.div_mod s 255 ltac:(lia)). pose proof (Z.mod_pos_bound s 255 ltac:(lia)). lia.
Qed.
Lemma signed_len5 d : 1 <= coded_size_length_signed d 0 <= 5.
Proof. unfold coded_size_length_signed. cbn [Z.ltb Z.compare andb]. destruct (_ && _); [vm_compute; split; discriminate|]. destruct (_ && _); [vm_compute; split; discriminate|]. destruct (_ && _); [vm_compute; split; discriminate|]. destruct (_ && _); vm_compute; split; discriminate. Qed.
Lemma signed_len3 d : - 1048576 < d < 1048576 -> coded_size_length_signed d 0 <= 3.
Proof.
  intros H. unfold coded_size_length_signed. cbn [Z.ltb Z.compare andb]. destruct (_ && _); [vm_compute; discriminate|]. destruct (_ && _); [vm_compute; discriminate|].
  replace ((-1048576 <? d) && (d <? 1048576)) with true by lia. vm_compute; discriminate.
Qed.
Lemma ebml_cost_5 l : forall acc d, ebml_cost l acc d <= acc + 5 * zlen l.
Proof.
  induction l as [|s l IH]; intros acc d; cbn [ebml_cost]; [change (zlen (@nil Z)) with 0; lia|]. rewrite zlen_cons. specialize (IH (acc + coded_size_length_signed (s32 (s - d)) 0) (s32 (s - d))).
  pose proof (signed_len5 (s32 (s - d))). lia.
Qed.
Lemma ebml_cost_3 l : Forall (fun s => 0 <= s) l -> forall acc d, Z.abs d + sumz l < 1048576 -> ebml_cost l acc d <= acc + 3 * zlen l.
Proof.
  induction 1 as [|s l Hs Hl IH]; intros acc d Hb; cbn [ebml_cost]; [change (zlen (@nil Z)) with 0; lia|]. rewrite zlen_cons. cbn [sumz fold_right] in Hb. fold (sumz l) in Hb.
  pose proof (proj2 (xsum_sum l Hl)). rewrite s32_small by lia. specialize (IH (acc + coded_size_length_signed (s - d) 0) (s - d) ltac:(lia)). pose proof (signed_len3 (s - d) ltac:(lia)). lia.
Qed.
Lemma first_len d : 0 <= d -> coded_size_length d 0 true <= 5 /\ (d < 2097151 -> coded_size_length d 0 true <= 3).
Proof. intros H. rewrite coded_size_length_natural by lia. destruct (d <? 127), (d <? 16383), (d <? 2097151) eqn:E, (d <? 268435455); lia. Qed.

Lemma steps_small l : forall p, 0 <= p < 2 ^ 27 -> Forall (fun s => 0 <= s < 2 ^ 27) l -> steps_ok p l.
Proof. induction l as [|d l IH]; intros p Hp Hl; [exact I|]. apply Forall_cons_iff in Hl. destruct Hl as [H1 H2]. cbn [steps_ok]. split; [lia|]. apply IH; assumption. Qed.

Lemma best_lacing_ok b t h ps : track_header t h -> b_sizes b = map zlen (map (app h) ps) -> 1 <= zlen ps <= 256 -> Forall (fun p => zlen p < 2 ^ 27) ps ->
  exists l, best_lacing b t = Ok l /\ lace_ok l ps.
Proof.
  intros Ht Hs Hn Hb. destruct (header_stripped t h Ht) as [Hst _]. unfold best_lacing. rewrite Hs.
  destruct ps as [|f [|g ps]]; [change (zlen (@nil (list Z))) with 0 in Hn; lia| |].
  - exists 0. split; [reflexivity|]. exists f. reflexivity.
  - cbn [map]. destruct (forallb _ _) eqn:Ef.
    + exists 2. split; [reflexivity|]. exists f, (g :: ps). split; [reflexivity|]. split; [rewrite !zlen_cons in *; lia|].
      change (zlen (h ++ g) :: map zlen (map (app h) ps)) with (map zlen (map (app h) (g :: ps))) in Ef. rewrite forallb_forall in Ef. apply Forall_forall. intros x Hx.
      specialize (Ef (zlen (h ++ x)) (in_map zlen _ _ (in_map (app h) _ _ Hx))). rewrite !zlen_app in Ef. lia.
    + destruct (Hst 0 0 0) as (hd0 & scope & -> & Hstr). cbn [bind].
      assert (Hcs : coded_sizes b hd0 scope = map zlen (f :: g :: ps)) by (apply coded_sizes_ok; rewrite Hstr; exact Hs). rewrite Hcs.
      set (all := f :: g :: ps) in *. destruct (exists_last (l := all) ltac:(discriminate)) as (fs & z & Hall).
      assert (Hrl : removelast (map zlen all) = map zlen fs) by (rewrite Hall, map_app; cbn [map]; apply removelast_snoc).
      assert (Hfs : exists fs', fs = f :: fs' /\ removelast (tl (map zlen all)) = map zlen fs').
      { destruct fs as [|x fs']; [unfold all in Hall; discriminate|]. exists fs'. pose proof Hall as Hall'. unfold all in Hall'. injection Hall' as -> Htl. split; [reflexivity|].
        rewrite Hall. cbn [map tl app]. rewrite map_app. cbn [map]. apply removelast_snoc. }
      destruct Hfs as (fs' & Hfs & Hrt). rewrite Hrl, Hrt.
      assert (Hnn : Forall (fun s => 0 <= s) (map zlen fs)) by apply map_len_nonneg.
      destruct (xiph_cost_ok (map zlen fs) Hnn 0 (zlen (h ++ f))) as (d & -> & Hd). rewrite Z.add_0_l.
      specialize (Hd ltac:(rewrite Hfs; discriminate)). change (hd 0 (map zlen all)) with (zlen f).
      assert (Hlen : zlen all = zlen fs' + 2) by (rewrite Hall, Hfs, zlen_app; cbn [app]; rewrite zlen_cons; change (zlen [z]) with 1; lia).
      pose proof (zlen_nonneg fs'). pose proof (zlen_nonneg f) as Hf0.
      destruct (_ <? _) eqn:Ecmp.
      * exists 1. split; [reflexivity|]. exists fs, z. split; [exact Hall|]. split; [rewrite Hfs, zlen_cons; lia|].
        change (concat (map (fun x : list Z => xiph_code (zlen x)) fs)) with (xiph_codes fs). rewrite xiph_codes_len.
        destruct (first_len (zlen f) Hf0) as [Hf5 Hf3]. pose proof (ebml_cost_5 (map zlen fs') (coded_size_length (zlen f) 0 true) d) as H5. rewrite zlen_map in H5.
        destruct (xsum_sum (map zlen fs) Hnn) as [Hs1 Hs0].
        assert (Hsp : sumz (map zlen fs) = zlen f + sumz (map zlen fs')) by (rewrite Hfs; reflexivity).
        assert (Hs' : 0 <= sumz (map zlen fs')) by (apply xsum_sum, map_len_nonneg).
        pose proof (ebml_cost_3 (map zlen fs') (map_len_nonneg _) (coded_size_length (zlen f) 0 true) d ltac:(lia)) as H3. rewrite zlen_map in H3. specialize (Hf3 ltac:(lia)). lia.
      * exists 3. split; [reflexivity|]. exists f, fs', z. split; [rewrite Hall, Hfs; reflexivity|]. split; [lia|].
        rewrite Hall, Hfs in Hb. cbn [app] in Hb. apply Forall_cons_iff in Hb. destruct Hb as [Hb1 Hb2]. apply Forall_app in Hb2. destruct Hb2 as [Hb2 _].
        split; [lia|]. apply steps_small; [lia|]. apply Forall_forall. intros x Hx. apply in_map_iff in Hx. destruct Hx as (y & <- & Hy). eapply Forall_forall in Hb2; [|exact Hy]. pose proof (zlen_nonneg y). lia.
Qed.

(** Appending frames to a block that holds some. *)
Definition append_all (b : block) (fs : list (list Z * Z)) : block := fold_left (fun b f => append_frame b (fst f) (snd f)) fs b.
Lemma append_all_ok fs : forall b gs, holds (b_sizes b) (b_data b) gs -> let b' := append_all b fs in
  holds (b_sizes b') (b_data b') (gs ++ map fst fs) /\ b_track b' = b_track b /\ b_time b' = b_time b /\ b_simple b' = b_simple b /\ b_key b' = b_key b /\ b_disc b' = b_disc b /\ b_invis b' = b_invis b /\
  b_durs b' = b_durs b ++ map snd fs /\ (fs <> [] -> b_set b' = true /\ b_need b' = true /\ b_lacing b' = LACING_AUTO).
Proof.
  induction fs as [|[f d] fs IH]; intros b gs [Hs Hd] b'; unfold b', append_all; cbn [fold_left map].
  - rewrite !app_nil_r. repeat split; congruence.
  - fold (append_all (append_frame b f d) fs).
    assert (Hh : holds (b_sizes (append_frame b f d)) (b_data (append_frame b f d)) (gs ++ [f])).
    { unfold append_frame. cbn [bl_lacing bl_need bl_set bl_durs bl_frames b_sizes b_data]. split; [rewrite Hs, map_app; reflexivity|]. rewrite Hd, concat_app. cbn [concat]. rewrite app_nil_r. reflexivity. }
    destruct (IH _ _ Hh) as (I1 & I2 & I3 & I4 & I5 & I6 & I7 & I8 & I9). cbn [fst snd]. rewrite <- app_assoc in I1.
    unfold append_all in *. split; [exact I1|]. rewrite I2, I3, I4, I5, I6, I7, I8. cbn [append_frame bl_lacing bl_need bl_set bl_durs bl_frames b_track b_time b_simple b_key b_disc b_invis b_durs]. rewrite <- app_assoc.
    repeat (split; [reflexivity|]). intros _. destruct fs as [|y fs]; [repeat split|]. apply I9. discriminate.
Qed.

(** UpdateBlockSize chooses the lacing. *)
Lemma update_auto b t h ps : 0 <= b_track b < 16384 -> -32768 <= b_time b < 32768 -> track_header t h -> holds (b_sizes b) (b_data b) (map (app h) ps) ->
  1 <= zlen ps <= 256 -> Forall (fun p => zlen p < 2 ^ 27) ps -> b_lacing b = LACING_AUTO -> b_need b = true ->
  exists lacing bs b', update_block_size b t = Ok (zlen bs, b') /\ b_dsize b' = zlen bs /\ block_code 4 (b_simple b) (b_track b) (b_time b) (b_key b) (b_disc b) (b_invis b) lacing ps bs /\
    b_lacing b' = lacing /\ (forall o, room o (zlen bs) -> render_block b' t o = Ok (ERR_NONE, zlen bs, o_put o bs)).
Proof.
  intros Ht Hm Hth Hh Hn Hb Hl Hu. destruct (header_stripped t h Hth) as [Hst _]. destruct (best_lacing_ok b t h ps Hth (proj1 Hh) Hn Hb) as (l & Hbl & Hlo).
  set (b1 := bl_lacing b l).
  assert (Hup : update_block_size b t = update_block_size b1 t).
  { assert (Hl0 : l = 0 \/ l = 1 \/ l = 2 \/ l = 3) by (destruct l as [|[[p|p|]|[p|p|]|]|p]; cbn in Hlo; tauto).
    unfold update_block_size. rewrite Hu. change (b_need b1) with (b_need b). rewrite Hu. rewrite Hl. change (LACING_AUTO =? LACING_AUTO) with true. cbv iota. rewrite Hbl. cbn [bind].
    change (b_lacing b1) with l. replace (l =? LACING_AUTO) with false by (unfold LACING_AUTO; lia). cbn [bind]. change (bl_lacing b1 l) with b1. reflexivity. }
  destruct (render_block_ok b1 t h ps Ht Hm Hst Hh Hlo) as (bs & Hc & Hr & Hsz). specialize (Hsz Hu).
  exists l, bs, (bl_need (bl_dsize b1 (zlen bs)) false). rewrite Hup. split; [exact Hsz|]. split; [reflexivity|]. split; [exact Hc|]. split; [reflexivity|]. exact Hr.
Qed.

(** ** Frame access *)
Lemma u32_sizes h ps : Forall (fun p : list Z => zlen (h ++ p) < 2 ^ 32) ps -> map u32 (map zlen (map (app h) ps)) = map zlen (map (app h) ps).
Proof. intros H. rewrite !map_map. apply map_ext_in. intros p Hp. eapply Forall_forall in H; [|exact Hp]. apply u32_small. pose proof (zlen_nonneg (h ++ p)). lia. Qed.
Lemma map_u32 (fs : list (list Z)) : Forall (fun p => zlen p < 2 ^ 32) fs -> map u32 (map zlen fs) = map zlen fs.
Proof. intros H. pose proof (u32_sizes [] fs H) as Hu. rewrite (map_ext (app []) (fun x => x)), map_id in Hu by reflexivity. exact Hu. Qed.

Lemma get_frame_ok b ts fs n : holds (b_sizes b) (b_data b) fs -> Forall (fun p => zlen p < 2 ^ 32) fs -> 0 <= n < zlen fs -> concat fs <> [] ->
  exists f, get_frame b ts n true = (ERR_NONE, Some f) /\ mem_get (b_data b) (f_off f) (f_size f) = Some (nth (Z.to_nat n) fs []) /\ f_size f = frame_length b n /\ f_dur f = frame_duration b n.
Proof.
  intros [Hs Hd] Hb Hn Hne. unfold get_frame. rewrite Hs, Hd, zlen_map.
  assert (Hz : (zlen (concat fs) =? 0) = false) by (destruct (concat fs); [congruence|]; rewrite zlen_cons; pose proof (zlen_nonneg l); lia). rewrite Hz. cbn [andb].
  replace (n >=? zlen fs) with false by lia. eexists. split; [reflexivity|]. cbn [f_off f_size f_dur].
  assert (Hnl : (Z.to_nat n < length fs)%nat) by (unfold zlen in Hn; lia).
  assert (Hnth : nth (Z.to_nat n) (map zlen fs) 0 = zlen (nth (Z.to_nat n) fs [])) by (change 0 with (zlen (@nil Z)); apply map_nth).
  assert (Hlt : zlen (nth (Z.to_nat n) fs []) < 2 ^ 32) by (eapply Forall_forall in Hb; [exact Hb|apply nth_In; exact Hnl]).
  pose proof (zlen_nonneg (nth (Z.to_nat n) fs [])) as H0.
  assert (Hsum : fold_right Z.add 0 (map u32 (firstn (Z.to_nat n) (map zlen fs))) = zlen (concat (firstn (Z.to_nat n) fs))).
  { rewrite firstn_map, map_u32, zlen_concat by (rewrite <- (firstn_skipn (Z.to_nat n) fs) in Hb; apply Forall_app in Hb; tauto). reflexivity. }
  rewrite Hsum, Hnth, u32_small by lia. split; [|split].
  - destruct (nth_split fs [] Hnl) as (l1 & l2 & Hsp & Hl1). set (x := nth (Z.to_nat n) fs []) in *.
    assert (Hf : firstn (Z.to_nat n) fs = l1) by (rewrite Hsp, <- Hl1, firstn_app, firstn_all, Nat.sub_diag; cbn [firstn]; apply app_nil_r). rewrite Hf, Hsp, concat_app. cbn [concat]. apply mem_get_ok.
  - unfold frame_length. rewrite Hs, zlen_map, Hnth. replace (n >=? zlen fs) with false by lia. symmetry. apply Z.mod_small. lia.
  - unfold frame_duration. destruct (n <? zlen (b_durs b)) eqn:E; [replace (n >=? zlen (b_durs b)) with false by lia; reflexivity|replace (n >=? zlen (b_durs b)) with true by lia; reflexivity].
Qed.

(** The timestamps: the two functions agree, and are running sums. *)
Lemma s64_small x : - 2 ^ 63 <= x < 2 ^ 63 -> s64 x = x.
Proof. intros H. unfold s64, s_wrap. change (2 ^ (64 - 1)) with (2 ^ 63). rewrite Z.mod_small by lia. lia. Qed.
(** [sums ts durs]: no running sum reaches INVALID_TIMESTAMP_T and every duration is known. *)
Fixpoint sums (ts : Z) (durs : list Z) : Prop :=
  - 2 ^ 63 <= ts < INVALID_TIMESTAMP /\ match durs with [] => True | d :: l => d <> INVALID_TIMESTAMP /\ sums (ts + d) l end.
Lemma frame_time_ok k : forall durs ts, sums ts (firstn k durs) -> (k <= length durs)%nat -> frame_time k durs ts = ts + sumz (firstn k durs) /\ start_loop k durs ts = ts + sumz (firstn k durs) /\
  - 2 ^ 63 <= ts + sumz (firstn k durs) < INVALID_TIMESTAMP.
Proof.
  induction k as [|k IH]; intros durs ts Hs Hk; cbn [frame_time firstn].
  - cbn [firstn sumz fold_right sums] in *. destruct durs; cbn [start_loop]; lia.
  - destruct durs as [|d durs]; [cbn [length] in Hk; lia|]. cbn [firstn sums tl start_loop sumz fold_right] in *. fold (sumz (firstn k durs)). destruct Hs as (H1 & H2 & H3).
    unfold INVALID_TIMESTAMP in *. replace (ts =? 2 ^ 63 - 1) with false by lia. replace (d =? 2 ^ 63 - 1) with false by lia.
    assert (Hr : - 2 ^ 63 <= ts + d < 2 ^ 63 - 1) by (destruct (firstn k durs); cbn [sums] in H3; unfold INVALID_TIMESTAMP in H3; tauto).
    rewrite s64_small by lia. destruct (IH durs (ts + d) H3 ltac:(cbn [length] in Hk; lia)) as (I1 & I2 & I3). lia.
Qed.
Lemma frame_time_unknown k : forall durs ts, frame_time k durs INVALID_TIMESTAMP = INVALID_TIMESTAMP /\ ((length durs < k)%nat \/ In INVALID_TIMESTAMP (firstn k durs) -> frame_time k durs ts = INVALID_TIMESTAMP).
Proof.
  induction k as [|k IH]; intros durs ts; cbn [frame_time].
  - split; [reflexivity|]. cbn [firstn In]. intros [H|[]]. lia.
  - rewrite Z.eqb_refl. split; [apply (IH (tl durs) 0)|]. destruct durs as [|d durs]; cbn [tl firstn length In].
    + intros _. destruct (ts =? INVALID_TIMESTAMP) eqn:E; [replace ts with INVALID_TIMESTAMP by lia|]; apply (IH [] 0).
    + intros H. destruct (ts =? INVALID_TIMESTAMP) eqn:E; [replace ts with INVALID_TIMESTAMP by lia; apply (IH durs 0)|].
      destruct (d =? INVALID_TIMESTAMP) eqn:E2; [apply (IH durs 0)|]. apply IH. destruct H as [H|[H|H]]; [left; lia|lia|right; exact H].
Qed.

(** ** Skipping to a frame *)
Lemma at_frame f p (fs : list (list Z)) n : at_pos f p (concat fs) -> (n < length fs)%nat -> at_pos f (p + zlen (concat (firstn n fs))) (nth n fs []).
Proof.
  intros Ha Hn. destruct (nth_split fs [] Hn) as (l1 & l2 & Hsp & Hl1). set (x := nth n fs []) in *.
  assert (Hf : firstn n fs = l1) by (rewrite Hsp, <- Hl1, firstn_app, firstn_all, Nat.sub_diag; cbn [firstn]; apply app_nil_r). rewrite Hf. rewrite Hsp, concat_app in Ha. cbn [concat] in Ha.
  apply at_app in Ha. destruct Ha as [_ Ha]. apply at_app in Ha. tauto.
Qed.

(** ** Reading the data of any block *)
Lemma read_data_safe b s pos moved : in_reach s (b_first b) -> (in_mem s = true -> in_lo s <= zlen (in_data s)) -> 0 <= b_first b -> b_set b = false ->
  exists err b' q, read_data b None moved s pos = Ok (err, b', q) /\
    (err = ERR_NONE -> let n := if b_lacing b =? LACING_NONE then hd 0 (b_sizes b) else sumz (b_sizes b) in
       b_set b' = true /\ b_sizes b' = b_sizes b /\ 0 <= n /\ zlen (b_data b') = n /\ (b_first b <= zlen (in_data s) -> at_pos (in_data s) (b_first b) (b_data b'))).
Proof.
  intros Hr Hlo Hf Hs. unfold read_data. rewrite Hs. cbn [find_header bind].
  assert (Hrd : forall p n, in_reach s p -> 0 <= p -> 0 <= n -> exists e bs q, i_read s p n = Ok (e, bs, q) /\ (e = ERR_NONE -> zlen bs = n /\ (p <= zlen (in_data s) -> at_pos (in_data s) p bs))).
  { intros p n Hp H0 Hn. unfold i_read. rewrite reach_cond by assumption. replace (n <? 0) with false by lia. cbn [orb].
    set (l := firstn (Z.to_nat n) (skipn (Z.to_nat p) (in_data s))). eexists _, _, _. split; [reflexivity|].
    assert (zlen l <= n) by (unfold l, zlen; rewrite firstn_length; lia).
    destruct (zlen l <? n) eqn:E; [discriminate|]. intros _. split; [lia|]. intros Hp2. assert (Hz : zlen l = n) by lia.
    split; [exact H0|]. split; [|unfold slice; rewrite Hz; reflexivity]. unfold l, zlen in Hz. rewrite firstn_length, skipn_length in Hz. unfold zlen in *. lia. }
  set (p := snd (i_seek s (b_first b) pos)). assert (Hp : in_reach s p /\ 0 <= p /\ (b_first b <= zlen (in_data s) -> p = b_first b)).
  { unfold p, i_seek. pose proof (zlen_nonneg (in_data s)). unfold in_reach in *. destruct (in_mem s) eqn:Em; cbn [snd].
    - replace (b_first b <? 0) with false by lia. destruct (zlen (in_data s) <? b_first b) eqn:E; cbn [snd].
      + split; [intros _; apply Hlo; reflexivity|]. split; lia.
      + split; [exact Hr|]. split; lia.
    - replace (b_first b <? 0) with false by lia. cbn [snd]. split; [discriminate|]. split; lia. }
  destruct Hp as (Hp1 & Hp2 & Hp3). cbv zeta.
  destruct (b_lacing b =? LACING_NONE).
  - destruct (hd 0 (b_sizes b) <? 0) eqn:E; [eexists _, _, _; split; [reflexivity|discriminate]|]. change (zlen (@nil Z)) with 0. replace (hd 0 (b_sizes b) <? 0) with false by lia. rewrite Z.sub_0_r.
    destruct (Hrd p (hd 0 (b_sizes b)) Hp1 Hp2 ltac:(lia)) as (e & bs & q & -> & He). cbn [bind]. destruct (negb (e =? ERR_NONE)) eqn:Ee.
    + eexists _, _, _. split; [reflexivity|]. intros ->. discriminate.
    + eexists _, _, _. split; [reflexivity|]. intros _. destruct (He ltac:(lia)) as [H1 H2].
      destruct moved; cbn [bl_need bl_set bl_frames b_set b_sizes b_data]; (split; [reflexivity|]; split; [reflexivity|]; split; [lia|]; split; [exact H1|]; intros Hle; rewrite <- (Hp3 Hle); apply H2; rewrite (Hp3 Hle); exact Hle).
  - fold (sumz (b_sizes b)). destruct (sumz (b_sizes b) <? 0) eqn:E; [eexists _, _, _; split; [reflexivity|discriminate]|].
    destruct (Hrd p (sumz (b_sizes b)) Hp1 Hp2 ltac:(lia)) as (e & bs & q & -> & He). cbn [bind]. destruct (negb (e =? ERR_NONE)) eqn:Ee.
    + eexists _, _, _. split; [reflexivity|]. intros ->. discriminate.
    + eexists _, _, _. split; [reflexivity|]. intros _. destruct (He ltac:(lia)) as [H1 H2].
      destruct moved; cbn [bl_need bl_set bl_frames b_set b_sizes b_data]; (split; [reflexivity|]; split; [reflexivity|]; split; [lia|]; split; [exact H1|]; intros Hle; rewrite <- (Hp3 Hle); apply H2; rewrite (Hp3 Hle); exact Hle).
Qed.
