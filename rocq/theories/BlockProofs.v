(** Rendering blocks. *)
From Verif Require Import Base BaseProofs VintSpec EbmlIdSpec CrcSpec IntEltSpec Vint VintProofs EbmlId EbmlIdProofs IntElt IntEltProofs
  Crc CrcProofs EltHead Void VoidSpec VoidProofs Ebml Arr ArrProofs ArrProofs2 Stream StreamProofs Finder FinderSpec FinderProofs FinderProofs2 FinderProofs3 FinderProofs4
  Tree TreeRead TreeSpec TreeProofs TreeProofs2 TreeProofs3 Block BlockSpec.

(** ** The header *)
Lemma low_bits (t : Z) : 0 <= t < 128 -> Z.lor 128 (Z.land t 255) = 128 + t.
Proof.
  intros H. assert (Hb : is_byte t) by (red; lia).
  pose proof (byte_forall (fun t => (128 <=? t) || (Z.lor 128 (Z.land t 255) =? 128 + t)) ltac:(vm_compute; reflexivity) t Hb). cbv beta in H0. lia.
Qed.
Lemma low_bits6 (t : Z) : 0 <= t < 64 -> Z.lor 64 t = 64 + t.
Proof.
  intros H. assert (Hb : is_byte t) by (red; lia).
  pose proof (byte_forall (fun t => (64 <=? t) || (Z.lor 64 t =? 64 + t)) ltac:(vm_compute; reflexivity) t Hb). cbv beta in H0. lia.
Qed.

Definition lacing_ok (l : Z) : Prop := l = 0 \/ l = 1 \/ l = 2 \/ l = 3.
Lemma flags_ok b : lacing_ok (b_lacing b) -> block_flags b = flag_code (b_simple b) (b_key b) (b_disc b) (b_invis b) (b_lacing b).
Proof.
  intros H. unfold block_flags, flag_code, b2z. destruct H as [->|[->|[->| ->]]]; destruct (b_simple b), (b_key b), (b_disc b), (b_invis b); reflexivity.
Qed.
Lemma time_ok t : -32768 <= t < 32768 -> [u16 t / 256; u16 t mod 256] = time_code t.
Proof.
  intros H. unfold time_code, u16. change (2 ^ 16) with 65536. destruct (t <? 0) eqn:E.
  - replace (t mod 65536) with (t + 65536) by lia. reflexivity.
  - rewrite Z.mod_small by lia. reflexivity.
Qed.
Definition head_of (b : block) : list Z := head_code (b_simple b) (b_track b) (b_time b) (b_key b) (b_disc b) (b_invis b) (b_lacing b).
Lemma block_head_ok b : 0 <= b_track b < 16384 -> -32768 <= b_time b < 32768 -> lacing_ok (b_lacing b) -> block_head b = Some (head_of b).
Proof.
  intros Ht Hm Hl. unfold block_head, head_of, head_code. rewrite flags_ok, <- time_ok by assumption. cbv zeta. unfold track_code.
  destruct (b_track b <? 128) eqn:E.
  - rewrite low_bits by lia. reflexivity.
  - replace (b_track b <? 16384) with true by lia. rewrite land_255, shiftr_8, low_bits6 by lia. reflexivity.
Qed.
Lemma head_len b : zlen (head_of b) = head_size b.
Proof. unfold head_of, head_code, head_size, track_code, time_code. destruct (b_track b <? 128); reflexivity. Qed.

(** ** Laces *)
Lemma xiph_loop_ok k : forall d, 0 <= d -> d / 255 <= Z.of_nat k -> xiph_loop k d = Ok (xiph_code d).
Proof.
  induction k as [|k IH]; intros d Hd Hk; unfold xiph_code; cbn [xiph_loop].
  - replace (d <? 255) with true by lia. replace (d / 255) with 0 by lia. cbn [repeat Z.to_nat app]. unfold u8. change (2 ^ 8) with 256. do 2 f_equal. lia.
  - destruct (d <? 255) eqn:E.
    + replace (d / 255) with 0 by lia. cbn [repeat Z.to_nat app]. unfold u8. change (2 ^ 8) with 256. do 2 f_equal. lia.
    + rewrite IH by lia. cbn [bind]. unfold xiph_code. replace (Z.to_nat (d / 255)) with (S (Z.to_nat ((d - 255) / 255))) by lia. cbn [repeat app].
      replace (d mod 255) with ((d - 255) mod 255) by lia. reflexivity.
Qed.
Lemma xiph_size_ok d : 0 <= d -> xiph_size d = Ok (xiph_code d).
Proof. intros. apply xiph_loop_ok; lia. Qed.
Lemma xiph_lace_ok fs : xiph_lace (map (@zlen Z) fs) = Ok (concat (map (fun x => xiph_code (zlen x)) fs)).
Proof.
  induction fs as [|f fs IH]; [reflexivity|]. cbn [map xiph_lace concat]. rewrite xiph_size_ok by apply zlen_nonneg. cbn [bind]. rewrite IH. reflexivity.
Qed.
Lemma xiph_code_len d : 0 <= d -> zlen (xiph_code d) = d / 255 + 1.
Proof. intros. unfold xiph_code. rewrite zlen_app, BaseProofs.zlen_repeat. change (zlen [d mod 255]) with 1. lia. Qed.

Lemma signed_code_ok d : - 2 ^ 27 < d < 2 ^ 27 ->
  exists c, coded_value_length_signed d (coded_size_length_signed d 0) = Some c /\ signed_vint c d /\ zlen c = coded_size_length_signed d 0 /\ 1 <= zlen c <= 4.
Proof.
  intros H. change (2 ^ 27) with 134217728 in H. rewrite coded_size_length_signed_max by lia. rewrite coded_value_length_signed_bias. set (n := signed_natural d).
  assert (Hn : 1 <= n <= 4 /\ 0 <= d + signed_bias n < 2 ^ (7 * n) /\ signed_bias n = 2 ^ (7 * n - 1) - 1).
  { unfold n, signed_natural.
    destruct ((-64 <? d) && (d <? 64)) eqn:?; [cbn; lia|].
    destruct ((-8192 <? d) && (d <? 8192)) eqn:?; [cbn; lia|].
    destruct ((-1048576 <? d) && (d <? 1048576)) eqn:?; [cbn; lia|].
    destruct ((-134217728 <? d) && (d <? 134217728)) eqn:?; cbn; lia. }
  destruct Hn as (Hn & Hr & Hb). rewrite Z.max_r by lia. destruct (encode_ok (d + signed_bias n) n ltac:(lia) Hr) as (c & He & Hs & Hz).
  exists c. split; [exact He|]. split; [|lia]. unfold signed_vint. rewrite Hz. replace (d + 2 ^ (7 * n - 1) - 1) with (d + signed_bias n) by lia. exact Hs.
Qed.

Lemma deltas_ok l : forall p, steps_ok p l ->
  exists bs, ebml_deltas p l = Ok bs /\ delta_codes 4 p l bs /\ zlen bs + fold_right Z.add 0 l = ebml_delta_sizes p l /\ zlen bs <= 4 * zlen l.
Proof.
  induction l as [|d l IH]; intros p; cbn [steps_ok ebml_deltas ebml_delta_sizes fold_right].
  - intros _. exists []. split; [reflexivity|]. split; [apply dc_nil|]. split; reflexivity || (vm_compute; discriminate).
  - intros [H1 H2]. destruct (signed_code_ok _ H1) as (c & Hc & Hs & Hz & Hz4). destruct (IH d H2) as (bs & Hb & Hd & Hl & Hl4).
    rewrite Hc. cbn [opt_res bind]. rewrite Hb. cbn [bind]. exists (c ++ bs). split; [reflexivity|]. split; [constructor; [assumption|lia|assumption]|].
    rewrite zlen_app, zlen_cons. split; lia.
Qed.
Lemma delta_codes_len m p l bs : delta_codes m p l bs -> zlen bs <= m * zlen l.
Proof. induction 1; [rewrite zlen_nil; lia|]. rewrite zlen_app, zlen_cons. lia. Qed.

Lemma first_code_ok d : 0 <= d < 2 ^ 28 - 1 ->
  exists c, coded_value_length d (coded_size_length d 0 true) true = Some c /\ vint_spec c d /\ zlen c = coded_size_length d 0 true /\ 1 <= zlen c <= 4.
Proof.
  intros H. destruct (coded_size_length_fits d 0 ltac:(lia) ltac:(lia)) as [H1 H2].
  destruct (encode_ok d (coded_size_length d 0 true) H1) as (c & He & Hs & Hz). { unfold vint_reserved in H2. lia. }
  exists c. split; [exact He|]. split; [exact Hs|]. split; [exact Hz|]. rewrite Hz. rewrite coded_size_length_natural by lia.
  change (2 ^ 28 - 1) with 268435455 in H. destruct (d <? 127), (d <? 16383), (d <? 2097151), (d <? 268435455) eqn:E; lia.
Qed.

Lemma removelast_snoc {A} (l : list A) x : removelast (l ++ [x]) = l.
Proof. rewrite removelast_app by discriminate. cbn. apply app_nil_r. Qed.

(** What is needed for the frames [ps] to be written with a lacing type. *)
Definition lace_ok (lacing : Z) (ps : list (list Z)) : Prop :=
  match lacing with
  | 0 => exists f, ps = [f]
  | 1 => exists fs f, ps = fs ++ [f] /\ zlen fs < 256 /\ zlen (concat (map (fun x => xiph_code (zlen x)) fs)) <= 4 * zlen ps
  | 2 => exists f fs, ps = f :: fs /\ zlen fs < 256 /\ Forall (fun x => zlen x = zlen f) fs
  | 3 => exists f fs g, ps = f :: fs ++ [g] /\ zlen fs < 255 /\ zlen f < 2 ^ 28 - 1 /\ steps_ok (zlen f) (map zlen fs)
  | _ => False
  end.

Lemma zlen_concat ps : zlen (concat ps) = fold_right Z.add 0 (map (@zlen Z) ps).
Proof. induction ps as [|p ps IH]; [reflexivity|]. cbn [concat map fold_right]. rewrite zlen_app. lia. Qed.
Lemma sum_app a b : fold_right Z.add 0 (a ++ b) = fold_right Z.add 0 a + fold_right Z.add 0 b.
Proof. induction a as [|x a IH]; cbn [app fold_right]; lia. Qed.
Lemma last_snoc {A} (l : list A) x d : last (l ++ [x]) d = x.
Proof. induction l as [|y l IH]; [reflexivity|]. cbn [app last]. destruct (l ++ [x]) eqn:E; [destruct l; discriminate|]. exact IH. Qed.
Lemma land_count n : 0 <= n < 256 -> Z.land n 255 = n.
Proof. intros. rewrite land_255. lia. Qed.

Lemma xiph_fold fs : fold_right (fun s a => Z.quot s 255 + 1 + s + a) 0 (map (@zlen Z) fs)
  = zlen (concat (map (fun x => xiph_code (zlen x)) fs)) + zlen (concat fs).
Proof.
  induction fs as [|f fs IH]; [reflexivity|]. cbn [map fold_right concat]. rewrite !zlen_app, IH, xiph_code_len by apply zlen_nonneg.
  rewrite Z.quot_div_nonneg by (pose proof (zlen_nonneg f); lia). lia.
Qed.

(** The lace written, and the size announced for it. *)
Lemma lace_head_ok lacing ps : lacing <> 0 -> lace_ok lacing ps ->
  exists l, lace_head lacing (map zlen ps) = Ok l /\ lace 4 lacing ps l /\ 1 + laced_size lacing (map zlen ps) = zlen l + zlen (concat ps).
Proof.
  intros Hn H. destruct lacing as [|[[?|?|]|[?|?|]|]|]; try contradiction.
  - destruct H as (f & fs & g & -> & H1 & H2 & H3). destruct (first_code_ok (zlen f)) as (c & Hc & Hs & Hz & Hz4). { pose proof (zlen_nonneg f). lia. }
    destruct (deltas_ok _ _ H3) as (bs & Hb & Hd & Hl & Hl4). rewrite zlen_map in Hl4. exists (zlen (f :: fs) :: c ++ bs).
    assert (Hlen : zlen (map (@zlen Z) (f :: fs ++ [g])) = zlen fs + 2) by (rewrite zlen_map, zlen_cons, zlen_app; change (zlen [g]) with 1; lia).
    pose proof (zlen_nonneg fs). split; [|split; [constructor; assumption || lia|]].
    + unfold lace_head. rewrite Hlen. replace (zlen fs + 2 =? 0) with false by lia. change (3 =? LACING_EBML) with true. cbn [map ebml_lace].
      rewrite Hc. cbn [opt_res bind]. rewrite map_app. cbn [map]. rewrite removelast_snoc, Hb. cbn [bind]. rewrite zlen_app.
      replace (4 * (zlen fs + 2) <? zlen c + zlen bs) with false by lia. rewrite zlen_cons, land_count by lia. replace (zlen fs + 2 - 1) with (zlen fs + 1) by lia. reflexivity.
    + unfold laced_size. change (3 =? LACING_EBML) with true. cbn [map hd tl concat]. rewrite map_app. cbn [map]. rewrite removelast_snoc.
      destruct (map zlen fs ++ [zlen g]) eqn:Ea; [destruct fs; discriminate|]. rewrite <- Ea.
      replace (last (zlen f :: map zlen fs ++ [zlen g]) 0) with (zlen g).
      2:{ change (zlen f :: map zlen fs ++ [zlen g]) with ((zlen f :: map zlen fs) ++ [zlen g]). symmetry. apply last_snoc. }
      rewrite zlen_cons, !zlen_app, concat_app, zlen_app. cbn [concat]. rewrite app_nil_r. rewrite (zlen_concat fs). lia.
  - destruct H as (f & fs & -> & H1 & H2). exists [zlen fs]. pose proof (zlen_nonneg fs).
    assert (Hlen : zlen (map (@zlen Z) (f :: fs)) = zlen fs + 1) by (rewrite zlen_map, zlen_cons; lia).
    split; [|split; [constructor; assumption|]].
    + unfold lace_head. rewrite Hlen. replace (zlen fs + 1 =? 0) with false by lia. change (2 =? LACING_EBML) with false. change (2 =? LACING_XIPH) with false. cbn [bind].
      change (zlen (@nil Z)) with 0. replace (4 * (zlen fs + 1) <? 0) with false by lia. replace (zlen fs + 1 - 1) with (zlen fs) by lia. rewrite land_count by lia. reflexivity.
    + unfold laced_size. change (2 =? LACING_EBML) with false. change (2 =? LACING_XIPH) with false. rewrite zlen_concat. reflexivity.
  - destruct H as (fs & f & -> & H1 & H2). exists (zlen fs :: concat (map (fun x => xiph_code (zlen x)) fs)). pose proof (zlen_nonneg fs).
    assert (Hlen : zlen (map (@zlen Z) (fs ++ [f])) = zlen fs + 1) by (rewrite zlen_map, zlen_app; reflexivity).
    split; [|split; [constructor; assumption|]].
    + unfold lace_head. rewrite Hlen. replace (zlen fs + 1 =? 0) with false by lia. change (1 =? LACING_EBML) with false. change (1 =? LACING_XIPH) with true. cbv iota.
      rewrite map_app. cbn [map]. rewrite removelast_snoc, xiph_lace_ok. cbn [bind]. rewrite zlen_app in H2. change (zlen [f]) with 1 in H2.
      replace (4 * (zlen fs + 1) <? zlen (concat (map (fun x => xiph_code (zlen x)) fs))) with false by lia. replace (zlen fs + 1 - 1) with (zlen fs) by lia. rewrite land_count by lia. reflexivity.
    + unfold laced_size. change (1 =? LACING_EBML) with false. change (1 =? LACING_XIPH) with true. cbv iota. rewrite map_app. cbn [map].
      rewrite removelast_snoc, last_snoc, xiph_fold, zlen_cons, concat_app, zlen_app. cbn [concat]. rewrite app_nil_r. lia.
Qed.

(** ** Rendering *)
Lemma list_eqb_refl l : list_eqb l l = true.
Proof. induction l as [|x l IH]; [reflexivity|]. cbn [list_eqb]. rewrite Z.eqb_refl, IH. reflexivity. Qed.
Lemma list_eqb_eq a : forall b, list_eqb a b = true -> a = b.
Proof.
  induction a as [|x a IH]; intros [|y b]; cbn [list_eqb]; try discriminate; [reflexivity|]. intros H. apply andb_true_iff in H. destruct H as [H1 H2].
  f_equal; [lia|apply IH; exact H2].
Qed.

Lemma render_stripped_ok h ps : forall pre data cursor err n o, err = ERR_NONE -> data = pre ++ concat (map (app h) ps) -> cursor = zlen pre ->
  room o (zlen (concat ps)) ->
  render_stripped h data cursor (map zlen (map (app h) ps)) err n o = Ok (ERR_NONE, n + zlen (concat ps), o_put o (concat ps)).
Proof.
  induction ps as [|p ps IH]; intros pre data cursor err n o He Hd Hc Hr; cbn [map render_stripped concat] in *.
  - change (zlen (@nil Z)) with 0 in *. rewrite o_put_nil, Z.add_0_r by assumption. subst err. reflexivity.
  - pose proof (zlen_nonneg p). pose proof (zlen_nonneg (concat ps)). rewrite zlen_app in Hr.
    subst cursor. rewrite Hd at 1. rewrite <- !app_assoc, mem_get_ok. cbn [opt_res bind]. rewrite list_eqb_refl. cbn [negb].
    replace (mem_get data (zlen pre + zlen h) (zlen (h ++ p) - zlen h)) with (Some p).
    2:{ symmetry. rewrite Hd. rewrite zlen_app. replace (zlen h + zlen p - zlen h) with (zlen p) by lia.
        replace (zlen pre + zlen h) with (zlen (pre ++ h)) by apply zlen_app.
        rewrite <- !app_assoc, (app_assoc pre h). apply mem_get_ok. }
    cbn [opt_res bind]. rewrite o_write_ok by (eapply room_le; [exact Hr|lia]). cbn [bind].
    rewrite (IH (pre ++ h ++ p)).
    + rewrite (o_put_app _ _ _ _ Hr) by lia. rewrite zlen_app. do 3 f_equal. lia.
    + reflexivity.
    + rewrite Hd, <- !app_assoc. reflexivity.
    + rewrite !zlen_app. lia.
    + eapply room_put'; [exact Hr|lia|lia].
Qed.

(** The block [b] linked to a track with the encodings [t] holds the frames [h ++ p] for [p] in [ps],
    where [h] is the header stripped by the track. *)
Definition stripped (t : encodings) (h : list Z) : Prop :=
  forall a b c, exists hd scope, find_header a b c t = Ok (inr (hd, scope)) /\ strip_of hd scope = h.

Lemma coded_sizes_ok b hd scope ps : b_sizes b = map zlen (map (app (strip_of hd scope)) ps) -> coded_sizes b hd scope = map zlen ps.
Proof.
  intros H. unfold coded_sizes. rewrite H, !map_map. apply map_ext. intros p. rewrite zlen_app. lia.
Qed.

Definition out_of (b : block) (ps : list (list Z)) (l : list Z) : list Z := head_of b ++ l ++ concat ps.

Lemma render_block_ok b t h ps : 0 <= b_track b < 16384 -> -32768 <= b_time b < 32768 ->
  stripped t h -> holds (b_sizes b) (b_data b) (map (app h) ps) -> lace_ok (b_lacing b) ps ->
  exists bs, block_code 4 (b_simple b) (b_track b) (b_time b) (b_key b) (b_disc b) (b_invis b) (b_lacing b) ps bs /\
    (forall o, room o (zlen bs) -> render_block b t o = Ok (ERR_NONE, zlen bs, o_put o bs)) /\
    (b_need b = true -> update_block_size b t = Ok (zlen bs, bl_need (bl_dsize b (zlen bs)) false)).
Proof.
  intros Ht Hm Hs [Hsz Hdt] Hl.
  assert (Hlac : lacing_ok (b_lacing b)).
  { red. destruct (b_lacing b) as [|[[?|?|]|[?|?|]|]|]; cbn in Hl; try contradiction; auto. }
  assert (Hex : exists l, (if b_lacing b =? 0 then l = [] else lace_head (b_lacing b) (map zlen ps) = Ok l) /\ lace 4 (b_lacing b) ps l /\
     zlen l + zlen (concat ps) = if b_lacing b =? 0 then hd 0 (map zlen ps) else 1 + laced_size (b_lacing b) (map zlen ps)).
  { destruct (b_lacing b =? 0) eqn:E0.
    - assert (E0' : b_lacing b = 0) by lia. rewrite E0' in *. destruct Hl as (f & ->). exists []. split; [reflexivity|]. split; [constructor|]. cbn [concat map hd]. rewrite app_nil_r.
      change (zlen (@nil Z)) with 0. lia.
    - destruct (lace_head_ok (b_lacing b) ps ltac:(lia) Hl) as (l & H1 & H2 & H3). exists l. auto. }
  destruct Hex as (l & Hl1 & Hl2 & Hl3). exists (out_of b ps l). split; [exists l; split; [exact Hl2|reflexivity]|].
  assert (Hlen : zlen (out_of b ps l) = zlen (head_of b) + (zlen l + zlen (concat ps))) by (unfold out_of; rewrite !zlen_app; lia).
  pose proof (zlen_nonneg l). pose proof (zlen_nonneg (concat ps)). pose proof (zlen_nonneg (head_of b)).
  split.
  - intros o Hr. unfold render_block. rewrite block_head_ok by assumption.
    rewrite o_write_ok by (eapply room_le; [exact Hr|lia]). cbn [bind]. cbn [Z.eqb ERR_NONE negb]. rewrite Z.eqb_refl. cbn [negb].
    destruct (Hs ERR_INVALID_DATA ERR_INVALID_DATA ERR_NOT_SUPPORTED) as (hdr & scope & Hf & Hh). rewrite Hf. cbn [bind].
    rewrite (coded_sizes_ok b hdr scope ps) by (rewrite Hh; exact Hsz).
    change (b_lacing b =? LACING_NONE) with (b_lacing b =? 0).
    assert (Hlw : (if b_lacing b =? 0 then Ok (ERR_NONE, 0, o_put o (head_of b))
       else do l0 <- lace_head (b_lacing b) (map zlen ps); o_write (o_put o (head_of b)) l0) = Ok (ERR_NONE, zlen l, o_put (o_put o (head_of b)) l)).
    { destruct (b_lacing b =? 0).
      - rewrite Hl1. rewrite o_put_nil by (eapply room_put'; [exact Hr|lia|lia]). reflexivity.
      - rewrite Hl1. cbn [bind]. apply o_write_ok. eapply room_put'; [exact Hr|lia|lia]. }
    rewrite Hlw. cbn [bind Z.eqb ERR_NONE negb]. rewrite (o_put_app _ _ _ _ Hr) by lia.
    assert (Hr2 : room (o_put o (head_of b ++ l)) (zlen (concat ps))) by (eapply room_put'; [exact Hr|lia|rewrite zlen_app; lia]).
    assert (Hfin : o_put (o_put o (head_of b ++ l)) (concat ps) = o_put o (out_of b ps l)).
    { rewrite (o_put_app _ _ _ _ Hr) by (rewrite zlen_app; lia). unfold out_of. rewrite <- app_assoc. reflexivity. }
    assert (Hplain : h = [] -> (do r <- o_write (o_put o (head_of b ++ l)) (b_data b); let '(err, k, o0) := r in Ok (err, zlen (head_of b) + zlen l + k, o0))
       = Ok (ERR_NONE, zlen (out_of b ps l), o_put o (out_of b ps l))).
    { intros ->. cbn [app] in Hdt. rewrite map_id in Hdt. rewrite Hdt, o_write_ok by exact Hr2. cbn [bind]. rewrite Hfin, Hlen. do 3 f_equal. lia. }
    destruct hdr as [|s]; cbn [strip_of] in Hh.
    + apply Hplain. auto.
    + destruct (Z.land scope 1 =? 0); [apply Hplain; auto|]. subst s.
      rewrite Hsz. rewrite (render_stripped_ok h ps []) by (reflexivity || assumption). rewrite Hfin, Hlen. do 3 f_equal. lia.
  - intros Hnd. unfold update_block_size. rewrite Hnd.
    replace (b_lacing b =? LACING_AUTO) with false by (red in Hlac; change LACING_AUTO with 4; lia). cbn [bind].
    replace (bl_lacing b (b_lacing b)) with b by (destruct b; reflexivity).
    destruct (Hs ERR_INVALID_DATA ERR_INVALID_DATA ERR_INVALID_DATA) as (hdr & scope & Hf & Hh). rewrite Hf. cbn [bind].
    rewrite (coded_sizes_ok b hdr scope ps) by (rewrite Hh; exact Hsz).
    change LACING_NONE with 0. change LACING_EBML with 3. change LACING_XIPH with 1. change LACING_FIXED with 2. rewrite <- head_len.
    assert (Hd : (if b_lacing b =? 0 then zlen (head_of b) + hd 0 (map zlen ps)
      else if (b_lacing b =? 3) || (b_lacing b =? 1) || (b_lacing b =? 2) then zlen (head_of b) + 1 + laced_size (b_lacing b) (map zlen ps) else b_dsize b) = zlen (out_of b ps l)).
    { rewrite Hlen, Hl3. destruct (b_lacing b =? 0) eqn:E0; [reflexivity|]. red in Hlac.
      replace ((b_lacing b =? 3) || (b_lacing b =? 1) || (b_lacing b =? 2)) with true by lia. lia. }
    rewrite Hd. replace (zlen (out_of b ps l) <? -1) with false by lia. reflexivity.
Qed.
