(** Reading blocks. *)
From Verif Require Import Base BaseProofs VintSpec EbmlIdSpec CrcSpec IntEltSpec Vint VintProofs EbmlId EbmlIdProofs IntElt IntEltProofs
  Crc CrcProofs EltHead Void VoidSpec VoidProofs Ebml Arr ArrProofs ArrProofs2 Stream StreamProofs Finder FinderSpec FinderProofs FinderProofs2 FinderProofs3 FinderProofs4
  Tree TreeRead TreeSpec TreeProofs TreeProofs2 TreeProofs3 Block BlockSpec BlockProofs.

Lemma s32_small x : - 2 ^ 31 <= x < 2 ^ 31 -> s32 x = x.
Proof. intros H. apply s_wrap_small; [lia|exact H]. Qed.
Lemma s16_small x : - 2 ^ 15 <= x < 2 ^ 15 -> s16 x = x.
Proof. intros H. apply s_wrap_small; [lia|exact H]. Qed.
Lemma u32_small x : 0 <= x < 2 ^ 32 -> u32 x = x.
Proof. intros H. apply Z.mod_small. exact H. Qed.

Ltac okq := repeat match goal with |- Ok _ = Ok _ => f_equal | |- (_, _) = (_, _) => apply f_equal2 end; try reflexivity; try lia.
Lemma self_view s : view s (in_data s) (zlen (in_data s)).
Proof. split; [|pose proof (zlen_nonneg (in_data s)); lia]. unfold zlen. rewrite Nat2Z.id, firstn_all. reflexivity. Qed.
Lemma rd s p bs n : in_reach s p -> at_pos (in_data s) p bs -> n = zlen bs -> i_read s p n = Ok (ERR_NONE, bs, p + zlen bs).
Proof. intros H1 H2 ->. apply (i_read_at _ _ _ _ _ (self_view s)); try assumption. destruct H2 as (_ & H2 & _). exact H2. Qed.
Lemma reach_le s p q : in_reach s p -> p <= q -> in_reach s q.
Proof. unfold in_reach. intros H1 H2 H3. specialize (H1 H3). lia. Qed.
Lemma at_extend f p bs : at_pos f p bs -> p + zlen bs < zlen f -> exists e, at_pos f p (bs ++ [e]).
Proof.
  intros H Hl. pose proof H as (H1 & H2 & H3). pose proof (zlen_nonneg bs). pose proof (slice_len f (p + zlen bs) 1 ltac:(lia) ltac:(lia) ltac:(lia)) as Hs.
  destruct (slice f (p + zlen bs) 1) as [|e [|? ?]] eqn:E; [cbn in Hs; lia| |rewrite !zlen_cons in Hs; pose proof (zlen_nonneg l); lia].
  exists e. apply at_app. split; [assumption|]. split; [lia|]. change (zlen [e]) with 1. split; [lia|exact E].
Qed.
Lemma seek_ok s p cur : 0 <= p <= zlen (in_data s) -> i_seek s p cur = (p, p).
Proof. intros. apply (i_seek_at _ _ _ _ _ (self_view s)). lia. Qed.

(** ** Xiph sizes *)
Lemma read_byte_ok s p x prev : in_reach s p -> at_pos (in_data s) p [x] -> read_byte s p prev = Ok (x, p + 1).
Proof. intros H1 H2. unfold read_byte. rewrite (rd s p [x] 1 H1 H2 eq_refl). reflexivity. Qed.

Lemma read_xiph_ok s k : forall fuel p prev acc n r, in_reach s p -> at_pos (in_data s) p (repeat 255 k ++ [r]) -> 0 <= r < 255 -> (k < fuel)%nat ->
  0 <= acc -> acc + 255 * Z.of_nat k + r < 2 ^ 31 ->
  read_xiph fuel s p prev acc n = Ok (acc + 255 * Z.of_nat k + r, n + Z.of_nat k + 1, r, p + Z.of_nat k + 1).
Proof.
  induction k as [|k IH]; intros [|fuel] p prev acc n r Hp Ha Hr Hf H0 H1; try lia; cbn [read_xiph repeat app] in *.
  - rewrite (read_byte_ok s p r) by assumption. cbn [bind]. replace (r =? 255) with false by lia. rewrite s32_small by lia. okq.
  - change (255 :: repeat 255 k ++ [r]) with ([255] ++ repeat 255 k ++ [r]) in Ha. apply at_app in Ha. destruct Ha as [Ha1 Ha2].
    rewrite (read_byte_ok s p 255) by assumption. cbn [bind]. rewrite Z.eqb_refl, s32_small by lia. change (zlen [255]) with 1 in Ha2.
    rewrite (IH fuel (p + 1) 255 (acc + 255) (n + 1) r) by (assumption || lia || (eapply reach_le; [exact Hp|lia])). okq.
Qed.

Definition xiph_codes (fs : list (list Z)) : list Z := concat (map (fun x => xiph_code (zlen x)) fs).
Lemma read_xiph_sizes_ok s fs : forall fuel p prev lbs len, in_reach s p -> at_pos (in_data s) p (xiph_codes fs) ->
  Forall (fun x => zlen x / 255 < Z.of_nat fuel) fs -> zlen (xiph_codes fs) + zlen (concat fs) <= lbs < 2 ^ 31 ->
  read_xiph_sizes fuel s (length fs) p prev lbs len = Ok (map zlen fs, lbs - zlen (xiph_codes fs) - zlen (concat fs), len + zlen (xiph_codes fs)).
Proof.
  induction fs as [|f fs IH]; intros fuel p prev lbs len Hp Ha Hf Hl; cbn [read_xiph_sizes length map].
  - change (zlen (xiph_codes [])) with 0. change (zlen (concat [])) with 0. okq.
  - unfold xiph_codes in Ha, Hl. cbn [map concat] in Ha, Hl. fold (xiph_codes fs) in Ha, Hl. apply at_app in Ha. destruct Ha as [Ha1 Ha2].
    rewrite !zlen_app, xiph_code_len in Hl by apply zlen_nonneg. rewrite xiph_code_len in Ha2 by apply zlen_nonneg.
    apply Forall_cons_iff in Hf. destruct Hf as [Hf1 Hf2]. pose proof (zlen_nonneg f). pose proof (zlen_nonneg (xiph_codes fs)). pose proof (zlen_nonneg (concat fs)).
    unfold xiph_code in Ha1. rewrite (read_xiph_ok s _ fuel p prev 0 0 _ Hp Ha1) by lia. cbn [bind].
    replace (0 + 255 * Z.of_nat (Z.to_nat (zlen f / 255)) + zlen f mod 255) with (zlen f) by lia.
    rewrite u32_small by lia. replace (p + Z.of_nat (Z.to_nat (zlen f / 255)) + 1) with (p + (zlen f / 255 + 1)) by lia.
    rewrite IH by (assumption || lia || (eapply reach_le; [exact Hp|lia])). cbn [bind]. unfold xiph_codes at 3 4. cbn [map concat]. fold (xiph_codes fs).
    rewrite !zlen_app, xiph_code_len by apply zlen_nonneg. okq.
Qed.

(** ** EBML sizes *)
Lemma signed_read_ok c d rest n : signed_vint c d -> zlen c <= 4 -> zlen c <= n ->
  read_coded_size_signed (c ++ rest) n = Some (mkSz d (zlen c) (vint_reserved (zlen c))).
Proof.
  intros Hs H4 Hn. unfold signed_vint in Hs. pose proof Hs as (_ & Hl & _). rewrite (signed_read_bias _ _ _ (read_complete c _ rest n Hs Hn)). cbn [sz_val sz_len sz_unk].
  do 2 f_equal. assert (signed_bias (zlen c) = 2 ^ (7 * zlen c - 1) - 1); [|lia].
  assert (Hc : zlen c = 1 \/ zlen c = 2 \/ zlen c = 3 \/ zlen c = 4) by lia. destruct Hc as [->|[->|[->| ->]]]; reflexivity.
Qed.
Lemma read_deltas_ok l : forall pre p bs rest lbs, delta_codes 4 p l bs -> 0 <= p -> p + 0 < 2 ^ 31 -> Forall (fun d => 0 <= d) l ->
  zlen bs + fold_right Z.add 0 l <= lbs < 2 ^ 31 ->
  read_deltas (pre ++ bs ++ rest) (length l) (zlen pre) p lbs = Ok (l, lbs - zlen bs - fold_right Z.add 0 l, zlen pre + zlen bs).
Proof.
  induction l as [|d l IH]; intros pre p bs rest lbs Hd Hp0 Hp Hl Hb; inversion Hd; subst; cbn [read_deltas length fold_right].
  - change (zlen (@nil Z)) with 0. okq.
  - cbn [fold_right] in Hb. rewrite zlen_app in Hb. apply Forall_cons_iff in Hl. destruct Hl as [Hl1 Hl2].
    assert (0 <= fold_right Z.add 0 l) by (clear -Hl2; induction Hl2; cbn [fold_right]; lia).
    pose proof (zlen_nonneg c). pose proof (zlen_nonneg bs0).
    rewrite <- !app_assoc, skipn_zlen. rewrite (signed_read_ok c (d - p)) by (assumption || lia). cbn [opt_res bind sz_val sz_len].
    rewrite (s32_small (d - p)) by lia. replace (p + (d - p)) with d by lia. rewrite s32_small by lia. rewrite u32_small by lia.
    replace (zlen pre + zlen c) with (zlen (pre ++ c)) by apply zlen_app. rewrite app_assoc. rewrite IH by (assumption || lia). cbn [bind].
    rewrite !zlen_app. okq.
Qed.

(** ** The header *)
Lemma byte_bits t : 0 <= t < 128 -> Z.land (128 + t) 128 = 128 /\ Z.land (128 + t) 127 = t.
Proof.
  intros H. assert (Hb : is_byte t) by (red; lia).
  pose proof (byte_forall (fun t => (128 <=? t) || ((Z.land (128 + t) 128 =? 128) && (Z.land (128 + t) 127 =? t))) ltac:(vm_compute; reflexivity) t Hb). cbv beta in H0. lia.
Qed.
Lemma byte_bits6 t : 0 <= t < 64 -> Z.land (64 + t) 128 = 0 /\ Z.land (64 + t) 64 = 64 /\ Z.land (64 + t) 63 = t.
Proof.
  intros H. assert (Hb : is_byte t) by (red; lia).
  pose proof (byte_forall (fun t => (64 <=? t) || ((Z.land (64 + t) 128 =? 0) && (Z.land (64 + t) 64 =? 64) && (Z.land (64 + t) 63 =? t))) ltac:(vm_compute; reflexivity) t Hb). cbv beta in H0. lia.
Qed.
Lemma flags_read simple key disc invis lacing : lacing_ok lacing -> let fl := flag_code simple key disc invis lacing in
  Z.shiftr (Z.land fl 6) 1 = lacing /\ negb (Z.land fl 8 =? 0) = invis /\ (simple = true -> negb (Z.land fl 128 =? 0) = key /\ negb (Z.land fl 1 =? 0) = disc).
Proof.
  intros H. unfold flag_code, b2z. destruct H as [->|[->|[->| ->]]]; destruct simple, key, disc, invis; cbv; intuition congruence.
Qed.

(** The block read from the encoding of the frames [ps] whose header fields are those of [w]. *)
Definition parsed (b : block) (track time : Z) (key disc invis : bool) (lacing : Z) (first : Z) (sizes : list Z) : block :=
  bl_frames (bl_head (bl_set b false) track time (if b_simple b then key else b_key b) (if b_simple b then disc else b_disc b) invis lacing)
    first sizes (b_sizes_in b) (b_data b).

Lemma time_read time : -32768 <= time < 32768 -> exists t1 t2, time_code time = [t1; t2] /\ s16 (t1 * 256 + t2) = time.
Proof.
  intros H. unfold time_code. eexists _, _. split; [reflexivity|]. destruct (time <? 0) eqn:E.
  - replace ((time + 65536) / 256 * 256 + (time + 65536) mod 256) with (time + 65536) by lia. unfold s16, s_wrap. change (2 ^ (16 - 1)) with 32768. change (2 ^ 16) with 65536. lia.
  - replace (time / 256 * 256 + time mod 256) with time by lia. apply s16_small. lia.
Qed.

Lemma map_len_nonneg (fs : list (list Z)) : Forall (fun d => 0 <= d) (map zlen fs).
Proof. induction fs; constructor; [apply zlen_nonneg|assumption]. Qed.

(** What the three lacing modes read after the number of frames. *)
Lemma lace_read fuel s p lacing ps l lbs : in_reach s p -> lacing <> 0 -> lace 4 lacing ps l -> at_pos (in_data s) p (tl l ++ concat ps) ->
  Forall (fun x => zlen x / 255 < Z.of_nat fuel) ps -> lbs = zlen (tl l) + zlen (concat ps) -> lbs < 2 ^ 31 -> (lacing = 2 -> zlen ps < 256) ->
  (if lacing =? LACING_XIPH then
     do r <- read_xiph_sizes fuel s (Z.to_nat (hd 0 l)) p (hd 0 l) lbs 0;
     let '(l, lbs, len) := r in Ok (l ++ [s32 lbs], len)
   else if lacing =? LACING_EBML then
     do r <- i_read s p (hd 0 l * 4);
     let '(_, buf, _) := r in
     do z <- opt_res (read_coded_size buf lbs);
     let d := s32 (sz_val z) in
     do r <- read_deltas buf (Z.to_nat (hd 0 l - 1)) (sz_len z) d (u32 (lbs - (d + sz_len z)));
     let '(l', lbs, len) := r in
     if hd 0 l =? 0 then Bad else Ok (d :: l' ++ [s32 lbs], len)
   else if hd 0 l =? 255 then Fuel else Ok (repeat (s32 (lbs / (hd 0 l + 1))) (Z.to_nat (hd 0 l + 1)), 0)) = Ok (map zlen ps, zlen (tl l)).
Proof.
  intros Hp Hn Hl Ha Hf Hlb Hb H256. subst lbs. inversion Hl; subst; [contradiction| | |]; cbn [hd tl] in *.
  - clear H256. change (1 =? LACING_XIPH) with true. cbv iota. fold (xiph_codes fs) in *. apply at_app in Ha. destruct Ha as [Ha _].
    rewrite concat_app, zlen_app in Hb |- *. cbn [concat] in *. rewrite app_nil_r in *. pose proof (zlen_nonneg f).
    replace (Z.to_nat (zlen fs)) with (length fs) by (unfold zlen; lia).
    apply Forall_app in Hf. destruct Hf as [Hf _].
    rewrite read_xiph_sizes_ok by (assumption || lia). cbn [bind]. rewrite map_app. cbn [map]. okq. do 2 f_equal.
    rewrite s32_small by (pose proof (zlen_nonneg (xiph_codes fs)); pose proof (zlen_nonneg (concat fs)); lia). lia.
  - change (2 =? LACING_XIPH) with false. change (2 =? LACING_EBML) with false. cbv iota. change (zlen (@nil Z)) with 0.
    pose proof (zlen_nonneg fs). assert (Hsum : zlen (concat (f :: fs)) = (zlen fs + 1) * zlen f).
    { clear -H0. cbn [concat]. rewrite zlen_app. induction fs as [|g fs IH]; [change (zlen (concat [])) with 0; change (zlen (@nil (list Z))) with 0; lia|].
      apply Forall_cons_iff in H0. destruct H0 as [H1 H2]. specialize (IH H2). cbn [concat]. rewrite zlen_app, zlen_cons. lia. }
    rewrite Hsum. replace ((0 + (zlen fs + 1) * zlen f) / (zlen fs + 1)) with (zlen f). 2:{ rewrite Z.add_0_l, Z.mul_comm, Z.div_mul by lia. reflexivity. }
    specialize (H256 eq_refl). rewrite zlen_cons in H256. replace (zlen fs =? 255) with false by lia. change (zlen (@nil Z)) with 0 in Hb.
    assert (zlen f <= (zlen fs + 1) * zlen f) by (pose proof (zlen_nonneg f); nia). rewrite s32_small by (pose proof (zlen_nonneg f); lia).
    do 2 f_equal. replace (Z.to_nat (zlen fs + 1)) with (S (length fs)) by (unfold zlen; lia). cbn [repeat map]. f_equal.
    clear -H0. induction H0 as [|g fs Hg Hfs IH]; [reflexivity|]. cbn [repeat length map]. rewrite Hg, IH. reflexivity.
  - clear H256. change (3 =? LACING_XIPH) with false. change (3 =? LACING_EBML) with true. cbv iota.
    pose proof (zlen_nonneg fs). pose proof (zlen_nonneg f). pose proof (zlen_nonneg g). pose proof (zlen_nonneg bs). pose proof H0 as (_ & Hc1 & _).
    rewrite zlen_cons. cbn [concat] in *. rewrite concat_app in *. cbn [concat] in *. rewrite app_nil_r in *. rewrite !zlen_app in *. pose proof (zlen_nonneg (concat fs)).
    pose proof (delta_codes_len _ _ _ _ H2) as Hdl. rewrite zlen_map in Hdl.
    (* the bytes read *)
    assert (Hrd : exists rest e q, i_read s p ((zlen fs + 1) * 4) = Ok (e, c ++ bs ++ rest, q)).
    { unfold i_read. rewrite reach_cond by assumption. rewrite orb_false_r. replace ((zlen fs + 1) * 4 <? 0) with false by lia.
      assert (Hpre : exists rest, firstn (Z.to_nat ((zlen fs + 1) * 4)) (skipn (Z.to_nat p) (in_data s)) = c ++ bs ++ rest).
      { assert (Ha' : at_pos (in_data s) p (c ++ bs)) by (rewrite <- app_assoc in Ha; rewrite app_assoc in Ha; apply at_app in Ha; tauto).
        destruct Ha' as (Hp0 & Hpl & Hsl). rewrite zlen_app in Hpl, Hsl. unfold slice in Hsl.
        exists (firstn (Z.to_nat ((zlen fs + 1) * 4 - (zlen c + zlen bs))) (skipn (Z.to_nat (zlen c + zlen bs)) (skipn (Z.to_nat p) (in_data s)))).
        rewrite app_assoc, <- Hsl.
        replace (Z.to_nat ((zlen fs + 1) * 4)) with (Z.to_nat (zlen c + zlen bs) + Z.to_nat ((zlen fs + 1) * 4 - (zlen c + zlen bs)))%nat by lia.
        clear. generalize (skipn (Z.to_nat p) (in_data s)). intros l. generalize (Z.to_nat (zlen c + zlen bs)). intros n. generalize (Z.to_nat ((zlen fs + 1) * 4 - (zlen c + zlen bs))). intros m.
        revert l. induction n as [|n IH]; intros l; [reflexivity|]. destruct l as [|x l]; [cbn [Nat.add firstn skipn app]; rewrite firstn_nil; reflexivity|]. cbn [Nat.add firstn skipn app]. f_equal. apply IH. }
      destruct Hpre as (rest & ->). eexists _, _, _. reflexivity. }
    destruct Hrd as (rest & e & q & Hrd). rewrite Hrd. cbn [bind].
    rewrite (read_complete c _ (bs ++ rest) _ H0) by lia. cbn [opt_res bind sz_val sz_len]. rewrite s32_small by lia.
    rewrite u32_small by lia. replace (Z.to_nat (zlen fs + 1 - 1)) with (length (map (@zlen Z) fs)) by (rewrite map_length; unfold zlen; lia).
    rewrite (read_deltas_ok _ c (zlen f) bs rest) by (assumption || apply map_len_nonneg || (rewrite <- ?zlen_concat; lia)). cbn [bind].
    replace (zlen fs + 1 =? 0) with false by lia. rewrite <- zlen_concat. cbn [map]. rewrite map_app. cbn [map]. do 2 f_equal. do 2 f_equal. f_equal.
    rewrite s32_small by lia. lia.
Qed.

Lemma nth_at (bs : list Z) (x0 x1 x2 x3 x4 : Z) : bs = [x0; x1; x2; x3; x4] -> zlen bs = 5.
Proof. intros ->. reflexivity. Qed.
Lemma lace_lacing m lacing ps l : lace m lacing ps l -> lacing_ok lacing.
Proof. inversion 1; subst; red; auto. Qed.
Lemma lace_count m lacing ps l : lace m lacing ps l -> lacing <> 0 -> exists n, l = n :: tl l /\ hd 0 l = n.
Proof. inversion 1; subst; intros; [contradiction|..]; eexists; cbn; auto. Qed.

Lemma lace_0 m lacing ps l : lace m lacing ps l -> lacing = 0 -> exists f, ps = [f] /\ l = [].
Proof. inversion 1; subst; intros; try discriminate. eauto. Qed.

Lemma parse_ok fuel b s pos track time key disc invis lacing ps l :
  let out := head_code (b_simple b) track time key disc invis lacing ++ l ++ concat ps in
  0 <= track < 16384 -> -32768 <= time < 32768 -> lace 4 lacing ps l ->
  in_reach s (b_dpos b) -> at_pos (in_data s) (b_dpos b) out -> b_dpos b + 5 <= zlen (in_data s) -> b_dsize b = zlen out -> zlen out < 2 ^ 31 ->
  Forall (fun x => zlen x / 255 < Z.of_nat fuel) ps -> (lacing = 2 -> zlen ps < 256) ->
  exists q, read_parse fuel b s pos = Ok (ERR_NONE, parsed b track time key disc invis lacing (b_dpos b + zlen out - zlen (concat ps)) (map zlen ps), q).
Proof.
  intros out Ht Hm Hl Hre Ha H5 Hd Hb Hf H256. pose proof (lace_lacing _ _ _ _ Hl) as Hlo.
  destruct (flags_read (b_simple b) key disc invis lacing Hlo) as (Hfl1 & Hfl2 & Hfl3). set (fl := flag_code (b_simple b) key disc invis lacing) in *.
  destruct (time_read time Hm) as (t1 & t2 & Htc & Hts). pose proof Ha as (Hp0 & Hpl & _).
  assert (Hdp : b_dpos (bl_set b false) = b_dpos b) by reflexivity.
  unfold read_parse. cbv zeta. rewrite Hdp, seek_ok by (pose proof (zlen_nonneg (in_data s)); lia). replace (b_dpos b =? INVALID_FILEPOS) with false by (unfold INVALID_FILEPOS; lia).
  pose proof (zlen_nonneg (concat ps)) as Hcn. pose proof (zlen_nonneg l) as Hln.
  destruct (track <? 128) eqn:Et.
  - (* one byte *)
    assert (Hout : out = [128 + track; t1; t2; fl] ++ l ++ concat ps).
    { unfold out, head_code. rewrite Htc. unfold track_code. rewrite Et. reflexivity. }
    rewrite Hout in Ha, Hd, Hb, Hpl |- *. clear Hout out. assert (Hzl : zlen ([128 + track; t1; t2; fl] ++ l ++ concat ps) = 4 + zlen l + zlen (concat ps)) by (rewrite !zlen_app; change (zlen [128 + track; t1; t2; fl]) with 4; lia).
    assert (H5e : exists e, at_pos (in_data s) (b_dpos b) [128 + track; t1; t2; fl; e] /\ (lacing <> 0 -> e = hd 0 l)).
    { destruct (l ++ concat ps) as [|e r] eqn:Elc.
      - rewrite app_nil_r in Ha. destruct (at_extend _ _ _ Ha) as (e & He); [change (zlen [128 + track; t1; t2; fl]) with 4; lia|]. exists e. split; [exact He|].
        intros Hn. destruct (lace_count _ _ _ _ Hl Hn) as (n & Hn1 & _). rewrite Hn1 in Elc. discriminate.
      - exists e. split.
        + change ([128 + track; t1; t2; fl] ++ e :: r) with ([128 + track; t1; t2; fl; e] ++ r) in Ha. apply at_app in Ha. tauto.
        + intros Hn. destruct (lace_count _ _ _ _ Hl Hn) as (n & Hn1 & Hn2). rewrite Hn1 in Elc. cbn [app] in Elc. injection Elc as He _. subst e. symmetry. exact Hn2. }
    destruct H5e as (e & H5a & He). rewrite (rd s _ [128 + track; t1; t2; fl; e] 5 Hre H5a eq_refl). cbn [bind]. cbn [Z.eqb ERR_NONE negb]. cbn [nth].
    destruct (byte_bits track ltac:(lia)) as [Hb1 Hb2]. rewrite Hb1, Hb2. change (128 =? 0) with false. cbn [andb Nat.eqb Nat.add nth]. rewrite Hts, Hfl1, Hfl2. cbn [bind].
    cbn [bl_set b_simple]. 
    assert (Hk : (if b_simple b then negb (Z.land fl 128 =? 0) else b_key (bl_set b false)) = (if b_simple b then key else b_key b)).
    { destruct (b_simple b); [apply Hfl3; reflexivity|reflexivity]. }
    assert (Hk2 : (if b_simple b then negb (Z.land fl 1 =? 0) else b_disc (bl_set b false)) = (if b_simple b then disc else b_disc b)).
    { destruct (b_simple b); [apply Hfl3; reflexivity|reflexivity]. }
    cbn [bl_set b_key b_disc] in Hk, Hk2. cbn [bl_set b_simple b_key b_disc]. rewrite Hk, Hk2.
    cbn [bl_head b_dsize b_dpos bl_set]. change (Z.of_nat 1 + 3) with 4. rewrite Hd, Hzl.
    change LACING_NONE with 0. destruct (lacing =? 0) eqn:E0.
    + destruct (lace_0 _ _ _ _ Hl ltac:(lia)) as (f & -> & ->). eexists. unfold parsed. f_equal. f_equal. f_equal. change (zlen (@nil Z)) with 0. cbn [concat map]. rewrite app_nil_r.
      replace (b_dpos b + (4 + 0 + zlen f) - zlen f) with (b_dpos b + 4) by lia. assert (Hs32 : s32 (4 + 0 + zlen f - 4) = zlen f) by (rewrite s32_small; cbn [concat] in *; rewrite ?app_nil_r in *; change (zlen (@nil Z)) with 0 in *; lia). rewrite Hs32. reflexivity.
    + destruct (lace_count _ _ _ _ Hl ltac:(lia)) as (n & Hn1 & Hn2). rewrite (He ltac:(lia)).
      assert (Hlt : zlen l = zlen (tl l) + 1) by (rewrite Hn1 at 1; rewrite zlen_cons; reflexivity).
      rewrite u32_small by (pose proof (zlen_nonneg (tl l)); lia).
      assert (Hap : at_pos (in_data s) (b_dpos b + 5) (tl l ++ concat ps)).
      { rewrite Hn1 in Ha. change ([128 + track; t1; t2; fl] ++ (n :: tl l) ++ concat ps) with ([128 + track; t1; t2; fl; n] ++ tl l ++ concat ps) in Ha. apply at_app in Ha. exact (proj2 Ha). }
      change (b_dpos b + zlen [128 + track; t1; t2; fl; hd 0 l]) with (b_dpos b + 5).
      pose proof (lace_read fuel s (b_dpos b + 5) lacing ps l (4 + zlen l + zlen (concat ps) - 4 - 1)
        ltac:(eapply reach_le; [exact Hre|lia]) ltac:(lia) Hl Hap Hf ltac:(lia) ltac:(lia) H256) as HR. cbv zeta in HR. rewrite HR. clear HR.
      cbn [bind]. eexists. unfold parsed. apply f_equal. apply f_equal2; [|reflexivity]. apply f_equal2; [reflexivity|]. match goal with |- bl_frames _ ?x _ _ _ = bl_frames _ ?y _ _ _ => replace x with y by lia end. reflexivity.
  - (* two bytes *)
    assert (Hout : out = [64 + track / 256; track mod 256; t1; t2; fl] ++ l ++ concat ps).
    { unfold out, head_code. rewrite Htc. unfold track_code. rewrite Et. reflexivity. }
    rewrite Hout in Ha, Hd, Hb, Hpl |- *. clear Hout out. set (h5 := [64 + track / 256; track mod 256; t1; t2; fl]) in *.
    assert (Hzl : zlen (h5 ++ l ++ concat ps) = 5 + zlen l + zlen (concat ps)) by (rewrite !zlen_app; change (zlen h5) with 5; lia).
    pose proof Ha as Ha0. apply at_app in Ha. destruct Ha as [Ha1 Ha2]. change (zlen h5) with 5 in Ha2.
    rewrite (rd s _ h5 5 Hre Ha1 eq_refl). cbn [bind]. cbn [Z.eqb ERR_NONE negb]. 
    destruct (byte_bits6 (track / 256) ltac:(lia)) as (Hb1 & Hb2 & Hb3). change (nth 0 h5 0) with (64 + track / 256). rewrite Hb1, Hb2, Hb3. change (64 =? 0) with false. rewrite Z.eqb_refl. cbn [andb Nat.eqb Nat.add].
    change (nth 1 h5 0) with (track mod 256). change (nth 2 h5 0) with t1. change (nth 3 h5 0) with t2. change (nth 4 h5 0) with fl. rewrite Hts, Hfl1, Hfl2.
    replace (u16 (Z.shiftl (track / 256) 8 + track mod 256)) with track by (rewrite shiftl_8; unfold u16; change (2 ^ 16) with 65536; lia).
    assert (Hk : (if b_simple b then negb (Z.land fl 128 =? 0) else b_key b) = (if b_simple b then key else b_key b)).
    { destruct (b_simple b); [apply Hfl3; reflexivity|reflexivity]. }
    assert (Hk2 : (if b_simple b then negb (Z.land fl 1 =? 0) else b_disc b) = (if b_simple b then disc else b_disc b)).
    { destruct (b_simple b); [apply Hfl3; reflexivity|reflexivity]. }
    cbn [bl_set b_simple b_key b_disc]. rewrite Hk, Hk2. change (zlen h5) with 5.
    cbn [bl_head b_dsize b_dpos bl_set]. change (Z.of_nat 2 + 3) with 5. rewrite Hd, Hzl.
    change LACING_NONE with 0. destruct (lacing =? 0) eqn:E0.
    + assert (Hrb : exists r, read_byte s (b_dpos b + 5) (64 + track / 256) = Ok r).
      { unfold read_byte, i_read. rewrite reach_cond by (eapply reach_le; [exact Hre|lia]). cbn [Z.ltb Z.compare orb]. eexists. reflexivity. }
      destruct Hrb as ([num q] & ->). cbn [bind].
      destruct (lace_0 _ _ _ _ Hl ltac:(lia)) as (f & -> & ->). eexists. unfold parsed. f_equal. f_equal. f_equal. change (zlen (@nil Z)) with 0. cbn [concat map]. rewrite app_nil_r.
      replace (b_dpos b + (5 + 0 + zlen f) - zlen f) with (b_dpos b + 5) by lia. assert (Hs32 : s32 (5 + 0 + zlen f - 5) = zlen f) by (rewrite s32_small; cbn [concat] in *; rewrite ?app_nil_r in *; change (zlen (@nil Z)) with 0 in *; lia). rewrite Hs32. reflexivity.
    + destruct (lace_count _ _ _ _ Hl ltac:(lia)) as (n & Hn1 & Hn2).
      assert (Hlt : zlen l = zlen (tl l) + 1) by (rewrite Hn1 at 1; rewrite zlen_cons; reflexivity).
      assert (Hap : at_pos (in_data s) (b_dpos b + 5) [n] /\ at_pos (in_data s) (b_dpos b + 6) (tl l ++ concat ps)).
      { rewrite Hn1 in Ha2. change ((n :: tl l) ++ concat ps) with ([n] ++ tl l ++ concat ps) in Ha2. apply at_app in Ha2. change (zlen [n]) with 1 in Ha2.
        replace (b_dpos b + 6) with (b_dpos b + 5 + 1) by lia. exact Ha2. }
      rewrite (read_byte_ok s _ n) by (apply Hap || (eapply reach_le; [exact Hre|lia])). cbn [bind]. rewrite <- Hn2.
      rewrite u32_small by (pose proof (zlen_nonneg (tl l)); lia).
      replace (b_dpos b + 6) with (b_dpos b + 5 + 1) in Hap by lia.
      pose proof (lace_read fuel s (b_dpos b + 5 + 1) lacing ps l (5 + zlen l + zlen (concat ps) - 5 - 1)
        ltac:(eapply reach_le; [exact Hre|lia]) ltac:(lia) Hl (proj2 Hap) Hf ltac:(lia) ltac:(lia) H256) as HR. cbv zeta in HR. rewrite HR. clear HR.
      cbn [bind]. eexists. unfold parsed. apply f_equal. apply f_equal2; [|reflexivity]. apply f_equal2; [reflexivity|]. match goal with |- bl_frames _ ?x _ _ _ = bl_frames _ ?y _ _ _ => replace x with y by lia end. reflexivity.
Qed.

(** ** The frames *)
Lemma read_stripped_ok h s ps : forall p room, in_reach s p -> at_pos (in_data s) p (concat ps) -> fold_right Z.add 0 (map zlen (map (app h) ps)) <= room ->
  read_stripped h s p (map zlen (map (app h) ps)) room = Ok (ERR_NONE, concat (map (app h) ps), p + zlen (concat ps)).
Proof.
  induction ps as [|x ps IH]; intros p room Hp Ha Hr; cbn [map read_stripped concat fold_right] in *.
  - change (zlen (@nil Z)) with 0. okq.
  - apply at_app in Ha. destruct Ha as [Ha1 Ha2]. pose proof (zlen_nonneg x). pose proof (zlen_nonneg h).
    assert (0 <= fold_right Z.add 0 (map zlen (map (app h) ps))) by (rewrite <- zlen_concat; apply zlen_nonneg).
    rewrite zlen_app in *. replace ((zlen h + zlen x <? zlen h) || (room <? zlen h + zlen x)) with false by lia.
    rewrite (rd s p x) by (assumption || lia). cbn [bind]. cbn [Z.eqb ERR_NONE negb].
    rewrite IH by (assumption || lia || (eapply reach_le; [exact Hp|lia])). cbn [bind]. rewrite !zlen_app, <- app_assoc. okq.
Qed.

(** Reading the frames of a block whose track strips [h]: the sizes already count the header. *)
Lemma read_data_ok b t h moved s pos ps : stripped t h ->
  (forall a c d sc x, find_header a c d t = Ok (inr (Strip x, sc)) -> Z.land sc 1 <> 0) ->
  b_set b = false -> b_sizes b = map zlen (map (app h) ps) -> (b_lacing b = 0 -> exists p, ps = [p]) ->
  in_reach s (b_first b) -> at_pos (in_data s) (b_first b) (concat ps) ->
  exists b' q, read_data b t moved s pos = Ok (ERR_NONE, b', q) /\ b_set b' = true /\ holds (b_sizes b') (b_data b') (map (app h) ps) /\
    b_track b' = b_track b /\ b_time b' = b_time b /\ b_tused b' = b_tused b /\ b_key b' = b_key b /\ b_disc b' = b_disc b /\ b_invis b' = b_invis b /\ b_lacing b' = b_lacing b /\
    b_first b' = b_first b /\ (b_sizes_in b' = b_sizes_in b \/ b_sizes_in b' = b_sizes b).
Proof.
  intros Hs Hsc Hns Hsz Hl0 Hre Ha. unfold read_data. rewrite Hns.
  destruct (Hs ERR_NOT_SUPPORTED ERR_NOT_SUPPORTED ERR_INVALID_DATA) as (hd0 & scope & Hfh & Hst). rewrite Hfh. cbn [bind].
  pose proof Ha as (Hp0 & Hpl & _). pose proof (zlen_nonneg (concat ps)).
  rewrite seek_ok by lia. cbn [snd]. cbv zeta beta.
  assert (Hh : h = match hd0 with NoHeader => [] | Strip x => x end).
  { rewrite <- Hst. destruct hd0 as [|x]; [reflexivity|]. cbn [strip_of]. specialize (Hsc _ _ _ _ _ Hfh). replace (Z.land scope 1 =? 0) with false by lia. reflexivity. }
  assert (Hlac : forall b', b' = match hd0 with NoHeader => b | Strip _ => bl_frames b (b_first b) (b_sizes b) (b_sizes b) (b_data b) end ->
     b_lacing b' = b_lacing b /\ b_sizes b' = b_sizes b /\ b_first b' = b_first b /\ b_track b' = b_track b /\ b_time b' = b_time b /\ b_tused b' = b_tused b /\ b_key b' = b_key b /\ b_disc b' = b_disc b /\ b_invis b' = b_invis b /\ (b_sizes_in b' = b_sizes_in b \/ b_sizes_in b' = b_sizes b)).
  { intros b' ->. destruct hd0; repeat split; auto. }
  set (bh := match hd0 with NoHeader => b | Strip _ => bl_frames b (b_first b) (b_sizes b) (b_sizes b) (b_data b) end) in *.
  destruct (Hlac bh eq_refl) as (E1 & E2 & E3 & E4 & E5 & E6 & E7 & E8 & E9 & E10). rewrite E1, ?E2.
  assert (Hsum : fold_right Z.add 0 (b_sizes b) = zlen (concat (map (app h) ps))) by (rewrite Hsz, zlen_concat; reflexivity).
  pose proof (zlen_nonneg (concat (map (app h) ps))).
  change LACING_NONE with 0. destruct (b_lacing b =? 0) eqn:E0.
  - destruct (Hl0 ltac:(lia)) as (p & Hp). subst ps. rewrite Hsz in *. cbn [map hd concat] in *. rewrite ?app_nil_r in *. rewrite <- Hh. rewrite zlen_app.
    pose proof (zlen_nonneg h). pose proof (zlen_nonneg p). replace (zlen h + zlen p <? 0) with false by lia. replace (zlen h + zlen p <? zlen h) with false by lia.
    rewrite (rd s (b_first b) p) by (assumption || lia). cbn [bind]. cbn [Z.eqb ERR_NONE negb].
    eexists _, _. split; [reflexivity|].
    destruct moved; cbn [bl_need bl_set bl_frames b_set b_sizes b_data b_track b_time b_tused b_key b_disc b_invis b_lacing b_first b_sizes_in]; rewrite E1, ?E2; (split; [reflexivity|]);
      (split; [split; [rewrite ?E2, ?Hsz; cbn [map]; rewrite ?zlen_app; reflexivity|cbn [concat map]; rewrite app_nil_r; reflexivity]|]); repeat split; first [assumption | rewrite ?zlen_app in E10; assumption].
  - rewrite Hsum. replace (zlen (concat (map (app h) ps)) <? 0) with false by lia.
    assert (Hrd : match hd0 with NoHeader => i_read s (b_first b) (zlen (concat (map (app h) ps))) | Strip x => read_stripped x s (b_first b) (b_sizes b) (zlen (concat (map (app h) ps))) end
      = Ok (ERR_NONE, concat (map (app h) ps), b_first b + zlen (concat ps))).
    { destruct hd0 as [|x].
      - subst h. cbn [app] in *. rewrite map_id. apply rd; [assumption|assumption|reflexivity].
      - subst x. rewrite Hsz. apply read_stripped_ok; [assumption|assumption|]. rewrite <- zlen_concat. lia. }
    rewrite Hrd. cbn [bind]. cbn [Z.eqb ERR_NONE negb].
    eexists _, _. split; [reflexivity|].
    destruct moved; cbn [bl_need bl_set bl_frames b_set b_sizes b_data b_track b_time b_tused b_key b_disc b_invis b_lacing b_first b_sizes_in]; rewrite E1, ?E2; (split; [reflexivity|]);
      (split; [split; [rewrite ?E2, ?Hsz; cbn [map]; rewrite ?zlen_app; reflexivity|reflexivity]|]); repeat split; first [assumption | rewrite ?zlen_app in E10; assumption].
Qed.
