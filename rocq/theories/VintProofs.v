From Verif Require Import Base BaseProofs Vint VintSpec.

(** Complete case analysis over the 256 byte values. *)
Definition all_bytes : list Z := map Z.of_nat (seq 0 256).
Lemma byte_forall (P : Z -> bool) : forallb P all_bytes = true -> forall b, is_byte b -> P b = true.
Proof.
  intros H b Hb. rewrite forallb_forall in H. apply H.
  unfold all_bytes. apply in_map_iff. exists (Z.to_nat b). red in Hb. split; [lia|].
  apply in_seq. lia.
Qed.

Definition rcs_loop_spec (left : nat) (b0 : Z) : (Z * Z) + Z :=
  if (1 <=? b0) && (8 - Z.log2 b0 <=? Z.of_nat left)
  then inl (7 - Z.log2 b0, 2 ^ (7 * (8 - Z.log2 b0)) - 1)
  else inr (2 ^ (7 * (Z.of_nat left + 1)) - 1).

Definition sum_eqb (a b : (Z * Z) + Z) : bool :=
  match a, b with
  | inl (x, y), inl (x', y') => (x =? x') && (y =? y')
  | inr x, inr y => x =? y
  | _, _ => false
  end.
Lemma sum_eqb_eq a b : sum_eqb a b = true -> a = b.
Proof. destruct a as [[x y]|x], b as [[x' y']|x']; cbn; intros; try discriminate; f_equal; [f_equal|]; lia. Qed.

Lemma rcs_loop_ok left b0 : (left <= 8)%nat -> is_byte b0 ->
  rcs_loop left 0 b0 127 = rcs_loop_spec left b0.
Proof.
  intros Hl Hb. apply sum_eqb_eq. revert b0 Hb.
  do 9 (destruct left as [|left]; [apply byte_forall; vm_compute; reflexivity|]). lia.
Qed.

Lemma rcs_accum_ok l : bytes_ok l -> forall acc, rcs_accum acc l = be_val_from acc l.
Proof.
  unfold rcs_accum. induction 1 as [|b l Hb Hl IH]; intros acc; cbn [fold_left be_val_from]; [reflexivity|].
  rewrite shiftl_8, lor_256 by exact Hb. apply IH.
Qed.

Lemma first_byte_clear b0 : is_byte b0 -> 1 <= b0 ->
  Z.land b0 (Z.lnot (Z.shiftr 128 (7 - Z.log2 b0))) = b0 - 2 ^ Z.log2 b0.
Proof.
  intros Hb Hb1. revert Hb1.
  assert (H : (if 1 <=? b0 then
     (Z.land b0 (Z.lnot (Z.shiftr 128 (7 - Z.log2 b0))) =? b0 - 2 ^ Z.log2 b0) else true) = true).
  { revert b0 Hb. apply byte_forall. vm_compute. reflexivity. }
  intros. destruct (1 <=? b0) eqn:E; lia.
Qed.

Lemma byte_log2 b0 : is_byte b0 -> 1 <= b0 -> 0 <= Z.log2 b0 <= 7 /\ 2 ^ Z.log2 b0 <= b0 < 2 ^ (Z.log2 b0 + 1).
Proof.
  intros Hb Hb1. pose proof (Z.log2_spec b0 ltac:(lia)) as H. rewrite <- Z.add_1_r in H.
  split; [|exact H]. split; [apply Z.log2_nonneg|].
  assert (Z.log2 b0 < 8); [|lia]. apply Z.log2_lt_pow2; [lia|]. red in Hb. change (2 ^ 8) with 256. lia.
Qed.

Lemma pow_split a b : 0 <= a -> 0 <= b -> 2 ^ (a + b) = 2 ^ a * 2 ^ b.
Proof. intros; apply Z.pow_add_r; lia. Qed.
Lemma pow256_2 n : 0 <= n -> 256 ^ n = 2 ^ (8 * n).
Proof. intros. change 256 with (2 ^ 8). rewrite <- Z.pow_mul_r by lia. reflexivity. Qed.

(** The first byte of a vint determines its length. *)
Lemma vint_first_byte b0 bs v : vint_spec (b0 :: bs) v ->
  1 <= b0 /\ Z.log2 b0 = 8 - zlen (b0 :: bs).
Proof.
  intros (Hok & Hlen & Hv & Hval). inversion Hok as [|? ? Hb0 Hbs]; subst.
  rewrite be_val_cons in Hval. pose proof (be_val_bound bs Hbs) as Hbb.
  rewrite zlen_cons in *. set (m := zlen bs) in *.
  assert (Hm : 0 <= m) by (unfold m; apply zlen_nonneg).
  rewrite (pow256_2 m Hm) in *.
  replace (7 * (m + 1)) with (8 * m + (7 - m)) in * by lia.
  rewrite pow_split in * by lia.
  set (B := 2 ^ (8 * m)) in *. assert (0 < B) by (apply Z.pow_pos_nonneg; lia).
  set (Q := 2 ^ (7 - m)) in *. assert (0 < Q) by (apply Z.pow_pos_nonneg; lia).
  assert (Q <= b0) by nia. assert (b0 < 2 * Q) by nia.
  split; [lia|]. apply Z.log2_unique; [lia|].
  replace (8 - (m + 1)) with (7 - m) by lia.
  replace (Z.succ (7 - m)) with (1 + (7 - m)) by lia. rewrite pow_split by lia. fold Q. lia.
Qed.

(** Completeness: whatever is a vint at the head of the buffer is read as such. *)
Lemma read_complete bs v rest bufsize : vint_spec bs v -> zlen bs <= bufsize ->
  read_coded_size (bs ++ rest) bufsize = Some (mkSz v (zlen bs) (vint_reserved (zlen bs))).
Proof.
  intros Hs Hbuf. pose proof Hs as (Hok & Hlen & Hv & Hval).
  destruct bs as [|b0 bs]; [cbn in Hlen; lia|].
  pose proof (vint_first_byte b0 bs v Hs) as [Hb1 Hlog].
  inversion Hok as [|? ? Hb0 Hbs]; subst.
  unfold read_coded_size. cbn [app]. destruct (bufsize <=? 0) eqn:E; [lia|].
  rewrite rcs_loop_ok by (auto; lia). unfold rcs_loop_spec. rewrite Hlog.
  replace ((1 <=? b0) && (8 - (8 - zlen (b0 :: bs)) <=? Z.of_nat (Z.to_nat (Z.min bufsize 8)))) with true by lia.
  replace (7 - (8 - zlen (b0 :: bs)) + 1) with (zlen (b0 :: bs)) by lia.
  pose proof (zlen_nonneg rest).
  change (b0 :: bs ++ rest) with ((b0 :: bs) ++ rest). rewrite zlen_app.
  destruct (zlen (b0 :: bs) + zlen rest <? zlen (b0 :: bs)) eqn:E2; [lia|].
  replace (Z.to_nat (zlen (b0 :: bs))) with (length (b0 :: bs)) by (unfold zlen; lia).
  rewrite firstn_app, firstn_all, Nat.sub_diag. cbn [firstn]. rewrite app_nil_r. cbn [tl].
  replace (7 - (8 - zlen (b0 :: bs))) with (7 - Z.log2 b0) by lia.
  rewrite first_byte_clear by assumption. rewrite rcs_accum_ok by assumption.
  rewrite be_val_from_spec. unfold vint_reserved. f_equal. f_equal.
  - rewrite Hlog. rewrite be_val_cons in Hval. rewrite zlen_cons in *.
    set (m := zlen bs) in *. assert (Hm : 0 <= m) by (unfold m; apply zlen_nonneg).
    rewrite pow256_2 in * by lia.
    replace (7 * (m + 1)) with (8 * m + (8 - (m + 1))) in * by lia.
    rewrite pow_split in Hval by lia. nia.
  - f_equal. f_equal. lia.
Qed.

(** Soundness: a non-zero reported length means a vint is at the head of the buffer. *)
Lemma read_sound buf bufsize r : bytes_ok buf -> read_coded_size buf bufsize = Some r -> sz_len r <> 0 ->
  exists bs rest, buf = bs ++ rest /\ vint_spec bs (sz_val r) /\ sz_len r = zlen bs /\
    zlen bs <= bufsize /\ sz_unk r = vint_reserved (zlen bs).
Proof.
  intros Hok. unfold read_coded_size. destruct (bufsize <=? 0) eqn:E; [intros [= <-]; cbn; lia|].
  destruct buf as [|b0 buf]; [discriminate|].
  inversion Hok as [|? ? Hb0 Hbs]; subst.
  rewrite rcs_loop_ok by (auto; lia). unfold rcs_loop_spec.
  destruct ((1 <=? b0) && (8 - Z.log2 b0 <=? Z.of_nat (Z.to_nat (Z.min bufsize 8)))) eqn:Ec;
    [|intros [= <-]; cbn; lia].
  pose proof (byte_log2 b0 Hb0 ltac:(lia)) as [Hlog Hpow].
  destruct (zlen (b0 :: buf) <? 7 - Z.log2 b0 + 1) eqn:E2; [discriminate|].
  intros Hr _. apply some_inj in Hr. subst r. cbn [sz_len sz_val sz_unk].
  set (n := Z.to_nat (7 - Z.log2 b0 + 1)).
  exists (firstn n (b0 :: buf)), (skipn n (b0 :: buf)).
  assert (Hz : zlen (firstn n (b0 :: buf)) = 8 - Z.log2 b0).
  { unfold zlen in *. rewrite firstn_length_le by (unfold n; lia). unfold n. lia. }
  split; [symmetry; apply firstn_skipn|]. rewrite Hz.
  split; [|split; [lia|split; [lia|reflexivity]]].
  assert (Hn : n = S (Z.to_nat (7 - Z.log2 b0))) by lia.
  unfold vint_spec. rewrite Hz. split; [apply bytes_ok_firstn; assumption|]. split; [lia|].
  rewrite Hn in *. cbn [firstn tl]. set (bs := firstn (Z.to_nat (7 - Z.log2 b0)) buf) in *.
  assert (Hbsok : bytes_ok bs) by (apply bytes_ok_firstn; assumption).
  cbn [firstn] in Hz. rewrite zlen_cons in Hz. fold bs in Hz.
  rewrite first_byte_clear by (auto; lia). rewrite rcs_accum_ok by assumption.
  rewrite be_val_from_spec, be_val_cons. pose proof (be_val_bound bs Hbsok) as Hbb.
  set (m := zlen bs) in *. rewrite pow256_2 in * by lia.
  replace (7 * (8 - Z.log2 b0)) with (8 * m + Z.log2 b0) by lia.
  rewrite pow_split by lia. rewrite Z.pow_add_r in Hpow by lia.
  change (2 ^ 1) with 2 in Hpow. nia.
Qed.

(** Length zero exactly when no complete vint is available within [bufsize]. *)
Lemma read_none buf bufsize r : bytes_ok buf -> 0 <= bufsize <= zlen buf ->
  read_coded_size buf bufsize = Some r ->
  (sz_len r = 0 <-> ~ exists bs rest v, buf = bs ++ rest /\ vint_spec bs v /\ zlen bs <= bufsize).
Proof.
  intros Hok Hb Hr. split.
  - intros H0 (bs & rest & v & -> & Hs & Hl).
    rewrite (read_complete bs v rest bufsize Hs Hl) in Hr. injection Hr as <-. cbn in H0.
    destruct Hs as (_ & ? & _). lia.
  - intros Hne. destruct (Z.eq_dec (sz_len r) 0) as [|Hn]; [assumption|exfalso].
    destruct (read_sound buf bufsize r Hok Hr Hn) as (bs & rest & ? & ? & ? & ? & ?).
    apply Hne. exists bs, rest, (sz_val r). auto.
Qed.

(** Never outside the announced buffer. *)
Lemma read_in_bounds buf bufsize : bytes_ok buf -> 0 <= bufsize <= zlen buf ->
  read_coded_size buf bufsize <> None.
Proof.
  intros Hok Hb. unfold read_coded_size. destruct (bufsize <=? 0) eqn:E; [discriminate|].
  destruct buf as [|b0 buf]; [cbn in Hb; lia|].
  inversion Hok as [|? ? Hb0 Hbs]; subst.
  rewrite rcs_loop_ok by (auto; lia). unfold rcs_loop_spec.
  destruct ((1 <=? b0) && (8 - Z.log2 b0 <=? Z.of_nat (Z.to_nat (Z.min bufsize 8)))) eqn:Ec; [|discriminate].
  destruct (zlen (b0 :: buf) <? 7 - Z.log2 b0 + 1) eqn:E2; [lia|discriminate].
Qed.

Lemma rcs_accum_app acc a b : rcs_accum acc (a ++ b) = rcs_accum (rcs_accum acc a) b.
Proof. apply fold_left_app. Qed.

(** The result depends only on the first [bufsize] bytes. *)
Lemma read_tail_indep bs rest rest' bufsize : bytes_ok bs -> bufsize <= zlen bs ->
  read_coded_size (bs ++ rest) bufsize = read_coded_size (bs ++ rest') bufsize.
Proof.
  intros Hok Hb. unfold read_coded_size. destruct (bufsize <=? 0) eqn:E; [reflexivity|].
  destruct bs as [|b0 bs]; [cbn in Hb; lia|]. cbn [app].
  inversion Hok as [|? ? Hb0 Hbs]; subst.
  rewrite rcs_loop_ok by (auto; lia). unfold rcs_loop_spec.
  destruct ((1 <=? b0) && (8 - Z.log2 b0 <=? Z.of_nat (Z.to_nat (Z.min bufsize 8)))) eqn:Ec; [|reflexivity].
  change (b0 :: bs ++ rest) with ((b0 :: bs) ++ rest).
  change (b0 :: bs ++ rest') with ((b0 :: bs) ++ rest').
  rewrite !zlen_app. pose proof (zlen_nonneg rest). pose proof (zlen_nonneg rest').
  destruct (zlen (b0 :: bs) + zlen rest <? 7 - Z.log2 b0 + 1) eqn:E2; [lia|].
  destruct (zlen (b0 :: bs) + zlen rest' <? 7 - Z.log2 b0 + 1) eqn:E3; [lia|].
  rewrite !firstn_app.
  replace (Z.to_nat (7 - Z.log2 b0 + 1) - length (b0 :: bs))%nat with O by (unfold zlen in *; lia).
  reflexivity.
Qed.

(** ** Encoder *)
Lemma cvl_loop_ok k : forall marker len mask acc,
  cvl_loop k marker len mask acc =
  Z.lor marker (Z.land ((len / 256 ^ Z.of_nat k) mod 256) (Z.shiftr mask (Z.of_nat k)))
    :: be_bytes k len ++ acc.
Proof.
  induction k; intros; cbn [cvl_loop be_bytes].
  - rewrite land_255. change (256 ^ Z.of_nat 0) with 1. rewrite Z.div_1_r, Z.shiftr_0_r. reflexivity.
  - rewrite IHk, shiftr_8, land_255, Z.shiftr_shiftr by lia.
    rewrite <- app_assoc. cbn [app]. f_equal.
    assert (0 < 256 ^ Z.of_nat k) by (apply Z.pow_pos_nonneg; lia).
    rewrite Z.div_div by lia.
    replace (256 * 256 ^ Z.of_nat k) with (256 ^ Z.of_nat (S k)).
    2:{ replace (Z.of_nat (S k)) with (1 + Z.of_nat k) by lia. rewrite Z.pow_add_r by lia. reflexivity. }
    replace (1 + Z.of_nat k) with (Z.of_nat (S k)) by lia. reflexivity.
Qed.

Lemma mask_ok k : (k <= 7)%nat -> Z.shiftr 255 (Z.of_nat k) = Z.ones (8 - Z.of_nat k).
Proof. intros. do 8 (destruct k as [|k]; [reflexivity|]). lia. Qed.

Lemma encode_ok len n : 1 <= n <= 8 -> 0 <= len < 2 ^ (7 * n) ->
  exists bs, coded_value_length len n true = Some bs /\ vint_spec bs len /\ zlen bs = n.
Proof.
  intros Hn Hlen. unfold coded_value_length.
  replace ((1 <=? n) && (n <=? 8)) with true by lia.
  eexists; split; [reflexivity|]. rewrite cvl_loop_ok.
  set (k := Z.to_nat (n - 1)). assert (Hk : Z.of_nat k = n - 1) by lia. rewrite app_nil_r.
  rewrite mask_ok by lia. rewrite Z.land_ones by lia. rewrite Hk.
  assert (HQ : 0 < 256 ^ (n - 1)) by (apply Z.pow_pos_nonneg; lia).
  assert (Hq : 0 <= len / 256 ^ (n - 1) < 2 ^ (8 - n)).
  { split; [apply Z.div_pos; lia|]. apply Z.div_lt_upper_bound; [lia|].
    rewrite pow256_2 by lia. rewrite <- pow_split by lia.
    replace (8 * (n - 1) + (8 - n)) with (7 * n) by lia. lia. }
  assert (Hp8 : 2 ^ (8 - n) <= 128).
  { change 128 with (2 ^ 7). apply Z.pow_le_mono_r; lia. }
  assert (H9 : 2 ^ (8 - (n - 1)) = 2 * 2 ^ (8 - n)).
  { replace (8 - (n - 1)) with (1 + (8 - n)) by lia. rewrite pow_split by lia. reflexivity. }
  set (q := len / 256 ^ (n - 1)) in *.
  rewrite (Z.mod_small q 256) by lia. rewrite (Z.mod_small q) by lia.
  rewrite Z.shiftl_1_l. unfold u8. change (2 ^ 8) with 256. rewrite (Z.mod_small (2 ^ (8 - n))) by lia.
  replace (2 ^ (8 - n)) with (1 * 2 ^ (8 - n)) by lia.
  rewrite lor_add_pow2 by lia.
  assert (Hz : zlen (1 * 2 ^ (8 - n) + q :: be_bytes k len) = n).
  { rewrite zlen_cons, be_bytes_zlen. lia. }
  split; [|exact Hz]. unfold vint_spec. rewrite Hz.
  split; [constructor; [red; lia|apply be_bytes_ok]|]. split; [lia|]. split; [lia|].
  rewrite be_val_cons, be_val_be_bytes, be_bytes_zlen, Hk.
  pose proof (Z.div_mod len (256 ^ (n - 1)) ltac:(lia)) as Hdm. fold q in Hdm.
  replace (2 ^ (7 * n)) with (2 ^ (8 - n) * 256 ^ (n - 1)).
  2:{ rewrite pow256_2 by lia. rewrite <- pow_split by lia. f_equal. lia. }
  lia.
Qed.

Lemma coded_size_length_natural len : 0 <= len ->
  coded_size_length len 0 true =
  if len <? 127 then 1 else if len <? 16383 then 2 else if len <? 2097151 then 3
  else if len <? 268435455 then 4 else 5.
Proof.
  intros. unfold coded_size_length. cbn [negb Z.eqb andb]. unfold u8.
  destruct (len <? 127), (len <? 16383), (len <? 2097151), (len <? 268435455); reflexivity.
Qed.

Lemma coded_size_length_forced len sl : 0 <= len -> 0 <= sl <= 8 ->
  coded_size_length len sl true = Z.max sl (coded_size_length len 0 true).
Proof.
  intros. rewrite coded_size_length_natural by lia. unfold coded_size_length. cbn [negb].
  set (c := if len <? 127 then 1 else if len <? 16383 then 2 else if len <? 2097151 then 3
    else if len <? 268435455 then 4 else 5).
  assert (1 <= c <= 5) by (subst c; destruct (len <? 127), (len <? 16383), (len <? 2097151), (len <? 268435455); lia).
  unfold u8. change (2 ^ 8) with 256.
  destruct (sl =? 0) eqn:E; cbn [negb andb]; [|destruct (c <? sl) eqn:E2]; rewrite Z.mod_small; lia.
Qed.

Lemma coded_size_length_fits len sl : 0 <= len < 2 ^ 35 - 1 -> 0 <= sl <= 8 ->
  let n := coded_size_length len sl true in 1 <= n <= 8 /\ len < vint_reserved n.
Proof.
  intros Hlen Hsl. cbv zeta. rewrite coded_size_length_forced by lia.
  rewrite coded_size_length_natural by lia. unfold vint_reserved.
  set (c := if len <? 127 then 1 else if len <? 16383 then 2 else if len <? 2097151 then 3
    else if len <? 268435455 then 4 else 5).
  assert (Hc : 1 <= c <= 5 /\ len < 2 ^ (7 * c) - 1).
  { subst c; destruct (len <? 127) eqn:?; [cbn; lia|]. destruct (len <? 16383) eqn:?; [cbn; lia|].
    destruct (len <? 2097151) eqn:?; [cbn; lia|]. destruct (len <? 268435455) eqn:?; [cbn; lia|].
    change (2 ^ 35) with 34359738368 in Hlen. cbn; lia. }
  split; [lia|]. apply Z.lt_le_trans with (2 ^ (7 * c) - 1); [lia|].
  assert (2 ^ (7 * c) <= 2 ^ (7 * Z.max sl c)); [|lia]. apply Z.pow_le_mono_r; lia.
Qed.

(** C01 *)
Lemma size_roundtrip len sl rest : 0 <= len < 2 ^ 35 - 1 -> 0 <= sl <= 8 ->
  let n := coded_size_length len sl true in
  exists bs, coded_value_length len n true = Some bs /\ zlen bs = n /\
    forall bufsize, n <= bufsize ->
    read_coded_size (bs ++ rest) bufsize = Some (mkSz len n (vint_reserved n)) /\
    len <> vint_reserved n.
Proof.
  intros Hlen Hsl n. destruct (coded_size_length_fits len sl Hlen Hsl) as [Hn Hr]. fold n in Hn, Hr.
  destruct (encode_ok len n Hn) as (bs & He & Hs & Hz).
  { unfold vint_reserved in Hr. lia. }
  exists bs. split; [exact He|]. split; [exact Hz|]. intros bufsize Hb.
  rewrite (read_complete bs len rest bufsize Hs) by lia. rewrite Hz. split; [reflexivity|lia].
Qed.

(** C02: no shorter encoding exists. *)
Lemma size_minimal len sl : 0 <= len < 2 ^ 35 - 1 -> 0 <= sl <= 8 ->
  let n := coded_size_length len sl true in
  forall m, 1 <= m -> sl <= m -> len < vint_reserved m -> n <= m.
Proof.
  intros Hlen Hsl n m Hm Hsm Hr. unfold n. rewrite coded_size_length_forced by lia.
  apply Z.max_lub; [lia|]. rewrite coded_size_length_natural by lia. unfold vint_reserved in Hr.
  destruct (Z.lt_ge_cases m 5) as [Hm5|];
    [|destruct (len <? 127), (len <? 16383), (len <? 2097151), (len <? 268435455); lia].
  assert (m = 1 \/ m = 2 \/ m = 3 \/ m = 4) as [->|[->|[->| ->]]] by lia; cbn in Hr;
  destruct (len <? 127) eqn:?, (len <? 16383) eqn:?, (len <? 2097151) eqn:?, (len <? 268435455) eqn:?; lia.
Qed.


(** C03 *)
Lemma unknown_encode len n rest : 1 <= n <= 8 ->
  exists bs, coded_value_length len n false = Some bs /\ zlen bs = n /\
    vint_spec bs (vint_reserved n) /\
    forall bufsize, n <= bufsize ->
    read_coded_size (bs ++ rest) bufsize = Some (mkSz (vint_reserved n) n (vint_reserved n)).
Proof.
  intros Hn.
  assert (Hc : coded_value_length len n false = coded_value_length (vint_reserved n) n true).
  { assert (n = 1 \/ n = 2 \/ n = 3 \/ n = 4 \/ n = 5 \/ n = 6 \/ n = 7 \/ n = 8)
      as [->|[->|[->|[->|[->|[->|[->| ->]]]]]]] by lia; vm_compute; reflexivity. }
  rewrite Hc. assert (0 < 2 ^ (7 * n)) by (apply Z.pow_pos_nonneg; lia).
  destruct (encode_ok (vint_reserved n) n Hn) as (bs & He & Hs & Hz); [unfold vint_reserved; lia|].
  exists bs. repeat split; auto; try apply Hs.
  intros. rewrite (read_complete bs _ rest bufsize Hs) by lia. rewrite Hz. reflexivity.
Qed.

Lemma unknown_iff_ones buf bufsize r : bytes_ok buf -> read_coded_size buf bufsize = Some r ->
  sz_len r <> 0 ->
  (sz_val r = sz_unk r <->
   exists rest, buf = be_bytes (Z.to_nat (sz_len r)) (2 ^ (7 * sz_len r + 1) - 1) ++ rest).
Proof.
  intros Hok Hr Hn. destruct (read_sound buf bufsize r Hok Hr Hn) as (bs & rest & -> & Hs & Hl & Hb & Hu).
  rewrite Hl, Hu. destruct Hs as (Hbok & Hlen & Hv & Hval).
  assert (Hp : 2 ^ (7 * zlen bs + 1) = 2 * 2 ^ (7 * zlen bs)) by (rewrite pow_split by lia; lia).
  assert (Hnat : Z.to_nat (zlen bs) = length bs) by (unfold zlen; lia). rewrite Hnat.
  assert (Hpos : 0 < 2 ^ (7 * zlen bs)) by (apply Z.pow_pos_nonneg; lia).
  assert (H256 : 2 ^ (7 * zlen bs + 1) <= 256 ^ zlen bs).
  { rewrite pow256_2 by lia. apply Z.pow_le_mono_r; lia. }
  unfold vint_reserved. split.
  - intros Heq. exists rest. f_equal. apply be_val_inj; auto; [apply be_bytes_ok|rewrite be_bytes_length; reflexivity|].
    rewrite be_val_be_bytes. replace (Z.of_nat (length bs)) with (zlen bs) by reflexivity.
    rewrite Z.mod_small by lia. lia.
  - intros (rest' & Heq).
    assert (Hbs : bs = be_bytes (length bs) (2 ^ (7 * zlen bs + 1) - 1)).
    { apply (f_equal (firstn (length bs))) in Heq. rewrite !firstn_app in Heq.
      rewrite firstn_all, Nat.sub_diag, be_bytes_length, Nat.sub_diag in Heq. cbn [firstn] in Heq.
      rewrite !app_nil_r in Heq. rewrite Heq at 1. apply firstn_all2. rewrite be_bytes_length. lia. }
    apply (f_equal be_val) in Hbs. rewrite be_val_be_bytes in Hbs.
    replace (Z.of_nat (length bs)) with (zlen bs) in Hbs by reflexivity.
    rewrite Z.mod_small in Hbs by lia. lia.
Qed.

(** Failure above the 5-byte limit: without a forced length the bits above 2^35 are lost. *)
Lemma size_truncated len : 2 ^ 35 <= len < 2 ^ 63 ->
  exists bs, coded_value_length len (coded_size_length len 0 true) true = Some bs /\
  forall rest bufsize, 5 <= bufsize -> exists r, read_coded_size (bs ++ rest) bufsize = Some r /\ sz_val r <> len.
Proof.
  intros Hlen. change (2 ^ 35) with 34359738368 in Hlen.
  rewrite coded_size_length_natural by lia.
  destruct (len <? 127) eqn:?; [lia|]. destruct (len <? 16383) eqn:?; [lia|].
  destruct (len <? 2097151) eqn:?; [lia|]. destruct (len <? 268435455) eqn:?; [lia|].
  assert (Hsame : coded_value_length len 5 true = coded_value_length (len mod 2 ^ 35) 5 true).
  { unfold coded_value_length. cbn [andb Z.leb Z.compare Pos.compare Pos.compare_cont].
    f_equal. rewrite !cvl_loop_ok. change (Z.of_nat (Z.to_nat (5 - 1))) with 4.
    change (Z.shiftr 255 4) with (Z.ones 4). rewrite !Z.land_ones by lia.
    change (256 ^ 4) with 4294967296. change (2 ^ 35) with 34359738368.
    change (u8 (Z.shiftl 1 (8 - 5))) with 8. change (2 ^ 4) with 16.
    change (Z.to_nat (5 - 1)) with 4%nat. rewrite !app_nil_r.
    assert (Hb : be_bytes 4 (len mod 34359738368) = be_bytes 4 len).
    { apply be_val_inj; try apply be_bytes_ok; [rewrite !be_bytes_length; reflexivity|].
      rewrite !be_val_be_bytes. change (256 ^ Z.of_nat 4) with 4294967296. lia. }
    rewrite Hb. f_equal.
    set (t := (len / 4294967296) mod 256 mod 16).
    assert (Ht : (len mod 34359738368 / 4294967296) mod 256 mod 16 = t mod 8) by lia.
    rewrite Ht. assert (Hti : 0 <= t < 16) by lia. clearbody t. clear - Hti.
    assert (t = 0 \/ t = 1 \/ t = 2 \/ t = 3 \/ t = 4 \/ t = 5 \/ t = 6 \/ t = 7 \/ t = 8 \/ t = 9
      \/ t = 10 \/ t = 11 \/ t = 12 \/ t = 13 \/ t = 14 \/ t = 15) as Hc by lia.
    repeat (destruct Hc as [->|Hc]; [reflexivity|]). subst; reflexivity. }
  rewrite Hsame.
  destruct (encode_ok (len mod 2 ^ 35) 5 ltac:(lia)) as (bs & He & Hs & Hz).
  { change (7 * 5) with 35. apply Z.mod_pos_bound. reflexivity. }
  exists bs. split; [exact He|]. intros rest bufsize Hb.
  rewrite (read_complete bs _ rest bufsize Hs) by lia. eexists; split; [reflexivity|]. cbn [sz_val].
  change (2 ^ 35) with 34359738368. lia.
Qed.

(** 2^35-1 itself becomes the unknown marker. *)
Lemma size_limit_unknown : exists bs,
  coded_value_length (2 ^ 35 - 1) (coded_size_length (2 ^ 35 - 1) 0 true) true = Some bs /\
  read_coded_size bs 5 = Some (mkSz (2 ^ 35 - 1) 5 (2 ^ 35 - 1)).
Proof. eexists; split; vm_compute; reflexivity. Qed.

(** ** Signed codec (C05) *)
Definition signed_bias (n : Z) : Z :=
  if n =? 1 then 63 else if n =? 2 then 8191 else if n =? 3 then 1048575
  else if n =? 4 then 134217727 else 0.

Lemma signed_read_bias buf bufsize r : read_coded_size buf bufsize = Some r ->
  read_coded_size_signed buf bufsize = Some (mkSz (sz_val r - signed_bias (sz_len r)) (sz_len r) (sz_unk r)).
Proof.
  intros H. unfold read_coded_size_signed. rewrite H. unfold signed_bias.
  destruct (sz_len r =? 1), (sz_len r =? 2), (sz_len r =? 3), (sz_len r =? 4); repeat f_equal; lia.
Qed.

Definition signed_natural (len : Z) : Z :=
  if (-64 <? len) && (len <? 64) then 1
  else if (-8192 <? len) && (len <? 8192) then 2
  else if (-1048576 <? len) && (len <? 1048576) then 3
  else if (-134217728 <? len) && (len <? 134217728) then 4 else 5.

Lemma coded_size_length_signed_max len sl : 0 <= sl <= 8 ->
  coded_size_length_signed len sl = Z.max sl (signed_natural len).
Proof.
  intros. unfold coded_size_length_signed. fold (signed_natural len).
  assert (1 <= signed_natural len <= 5).
  { unfold signed_natural. destruct ((-64 <? len) && (len <? 64)), ((-8192 <? len) && (len <? 8192)),
    ((-1048576 <? len) && (len <? 1048576)), ((-134217728 <? len) && (len <? 134217728)); lia. }
  unfold u8. change (2 ^ 8) with 256.
  destruct ((0 <? sl) && (signed_natural len <? sl)) eqn:E; rewrite Z.mod_small; lia.
Qed.

Lemma coded_value_length_signed_bias len n :
  coded_value_length_signed len n = coded_value_length (len + signed_bias (signed_natural len)) n true.
Proof.
  unfold coded_value_length_signed, signed_natural.
  destruct ((-64 <? len) && (len <? 64)); [reflexivity|].
  destruct ((-8192 <? len) && (len <? 8192)); [reflexivity|].
  destruct ((-1048576 <? len) && (len <? 1048576)); [reflexivity|].
  destruct ((-134217728 <? len) && (len <? 134217728)); [reflexivity|].
  f_equal. change (signed_bias 5) with 0. lia.
Qed.

(** What is read back, for every value and every forced size. *)
Lemma signed_readback len sl rest : - 2 ^ 27 < len < 2 ^ 35 -> 0 <= sl <= 8 ->
  let n := coded_size_length_signed len sl in
  exists bs, coded_value_length_signed len n = Some bs /\ zlen bs = n /\
    forall bufsize, n <= bufsize ->
    read_coded_size_signed (bs ++ rest) bufsize =
      Some (mkSz (len + signed_bias (signed_natural len) - signed_bias n) n (vint_reserved n)).
Proof.
  intros Hlen Hsl n. change (2 ^ 27) with 134217728 in Hlen. change (2 ^ 35) with 34359738368 in Hlen.
  unfold n. rewrite coded_size_length_signed_max by lia. clear n. set (c := signed_natural len).
  set (n := Z.max sl c). rewrite coded_value_length_signed_bias. fold c.
  assert (Hr : 1 <= c <= 5 /\ 0 <= len + signed_bias c < 2 ^ (7 * c)).
  { unfold c, signed_natural.
    destruct ((-64 <? len) && (len <? 64)) eqn:?; [cbn; lia|].
    destruct ((-8192 <? len) && (len <? 8192)) eqn:?; [cbn; lia|].
    destruct ((-1048576 <? len) && (len <? 1048576)) eqn:?; [cbn; lia|].
    destruct ((-134217728 <? len) && (len <? 134217728)) eqn:?; cbn; lia. }
  destruct Hr as [Hc Hr]. assert (Hn8 : 1 <= n <= 8) by (unfold n; lia).
  assert (2 ^ (7 * c) <= 2 ^ (7 * n)) by (apply Z.pow_le_mono_r; unfold n; lia).
  destruct (encode_ok (len + signed_bias c) n Hn8 ltac:(lia)) as (bs & He & Hs & Hz).
  exists bs. split; [exact He|]. split; [exact Hz|]. intros bufsize Hb.
  rewrite (signed_read_bias _ _ _ (read_complete bs _ rest bufsize Hs ltac:(lia))). cbn [sz_val sz_len sz_unk].
  rewrite Hz. reflexivity.
Qed.

Lemma signed_roundtrip len rest : - 2 ^ 27 < len < 2 ^ 35 ->
  let n := coded_size_length_signed len 0 in
  exists bs, coded_value_length_signed len n = Some bs /\ zlen bs = n /\
    forall bufsize, n <= bufsize ->
    read_coded_size_signed (bs ++ rest) bufsize = Some (mkSz len n (vint_reserved n)).
Proof.
  intros Hlen n. destruct (signed_readback len 0 rest Hlen ltac:(lia)) as (bs & He & Hz & Hr).
  exists bs. split; [exact He|]. split; [exact Hz|]. intros bufsize Hb. fold n in Hr. rewrite Hr by exact Hb.
  unfold n. rewrite coded_size_length_signed_max by lia.
  assert (1 <= signed_natural len).
  { unfold signed_natural. destruct ((-64 <? len) && (len <? 64)), ((-8192 <? len) && (len <? 8192)),
    ((-1048576 <? len) && (len <? 1048576)), ((-134217728 <? len) && (len <? 134217728)); lia. }
  rewrite Z.max_r by lia. do 2 f_equal. lia.
Qed.

(** A forced size longer than the natural one (when that is 1..4) never reads back. *)
Lemma signed_forced_wrong len sl rest : - 2 ^ 27 < len < 2 ^ 27 -> 0 <= sl <= 8 ->
  coded_size_length_signed len 0 < sl ->
  exists bs, coded_value_length_signed len (coded_size_length_signed len sl) = Some bs /\
    forall bufsize, 8 <= bufsize -> exists r,
    read_coded_size_signed (bs ++ rest) bufsize = Some r /\ sz_val r <> len.
Proof.
  intros Hlen Hsl Hlt. assert (Hlen' : - 2 ^ 27 < len < 2 ^ 35) by (cbn in *; lia).
  destruct (signed_readback len sl rest Hlen' Hsl) as (bs & He & Hz & Hr).
  exists bs. split; [exact He|]. rewrite coded_size_length_signed_max in Hlt by lia.
  intros bufsize Hb. rewrite coded_size_length_signed_max in Hr by lia.
  eexists; split; [apply Hr; lia|]. cbn [sz_val].
  change (2 ^ 27) with 134217728 in Hlen.
  assert (Hc : 1 <= signed_natural len <= 4).
  { unfold signed_natural. destruct ((-64 <? len) && (len <? 64)) eqn:?, ((-8192 <? len) && (len <? 8192)) eqn:?,
    ((-1048576 <? len) && (len <? 1048576)) eqn:?, ((-134217728 <? len) && (len <? 134217728)) eqn:?; lia. }
  rewrite Z.max_l by lia. set (c := signed_natural len) in *. clearbody c.
  assert (signed_bias sl <> signed_bias c); [|lia].
  assert (c = 1 \/ c = 2 \/ c = 3 \/ c = 4) as [->|[->|[->| ->]]] by lia; unfold signed_bias;
  destruct (sl =? 1) eqn:?, (sl =? 2) eqn:?, (sl =? 3) eqn:?, (sl =? 4) eqn:?; cbn; lia.
Qed.

(** Differences at or below -2^27 are never read back: the reader returns a non-negative value. *)
Lemma read_signed_5_nonneg buf bufsize r : bytes_ok buf ->
  read_coded_size_signed buf bufsize = Some r -> sz_len r = 5 -> 0 <= sz_val r.
Proof.
  intros Hok. unfold read_coded_size_signed.
  destruct (read_coded_size buf bufsize) as [r0|] eqn:E; [|discriminate].
  intros H; apply some_inj in H; subst r. cbn [sz_len sz_val]. intros H5.
  rewrite H5. cbn [Z.eqb Pos.eqb].
  destruct (read_sound buf bufsize r0 Hok E ltac:(lia)) as (bs & rest & _ & (_ & _ & Hv & _) & _). lia.
Qed.

Lemma cvl_loop_zlen k marker len mask acc : zlen (cvl_loop k marker len mask acc) = Z.of_nat k + 1 + zlen acc.
Proof. rewrite cvl_loop_ok, zlen_cons, zlen_app, be_bytes_zlen. lia. Qed.

Lemma cvl_first_5 len : exists q bs, 0 <= q < 16 /\ bytes_ok bs /\ zlen bs = 4 /\
  coded_value_length len 5 true = Some (Z.lor 8 q :: bs).
Proof.
  unfold coded_value_length. cbn [andb Z.leb Z.compare Pos.compare Pos.compare_cont].
  rewrite cvl_loop_ok. change (Z.of_nat (Z.to_nat (5 - 1))) with 4.
  change (Z.shiftr 255 4) with (Z.ones 4). rewrite Z.land_ones by lia.
  do 2 eexists. split; [|split; [|split; [|reflexivity]]].
  - apply Z.mod_pos_bound. reflexivity.
  - rewrite app_nil_r. apply be_bytes_ok.
  - rewrite app_nil_r, be_bytes_zlen. reflexivity.
Qed.

Lemma signed_negative_wrong len rest : len <= - 2 ^ 27 -> bytes_ok rest ->
  exists bs, coded_value_length_signed len (coded_size_length_signed len 0) = Some bs /\
    forall bufsize, 8 <= bufsize -> exists r,
    read_coded_size_signed (bs ++ rest) bufsize = Some r /\ sz_val r <> len.
Proof.
  intros Hlen Hrest. change (2 ^ 27) with 134217728 in Hlen.
  rewrite coded_size_length_signed_max by lia.
  assert (Hc : signed_natural len = 5).
  { unfold signed_natural. destruct ((-64 <? len) && (len <? 64)) eqn:?, ((-8192 <? len) && (len <? 8192)) eqn:?,
    ((-1048576 <? len) && (len <? 1048576)) eqn:?, ((-134217728 <? len) && (len <? 134217728)) eqn:?; lia. }
  rewrite coded_value_length_signed_bias, Hc. change (signed_bias 5) with 0. change (Z.max 0 5) with 5.
  rewrite Z.add_0_r. destruct (cvl_first_5 len) as (q & bs & Hq & Hbs & Hz & ->).
  eexists; split; [reflexivity|]. intros bufsize Hb.
  assert (Hb0 : is_byte (Z.lor 8 q) /\ Z.log2 (Z.lor 8 q) = 3).
  { assert (q = 0 \/ q = 1 \/ q = 2 \/ q = 3 \/ q = 4 \/ q = 5 \/ q = 6 \/ q = 7 \/ q = 8 \/ q = 9
      \/ q = 10 \/ q = 11 \/ q = 12 \/ q = 13 \/ q = 14 \/ q = 15) as Hd by lia.
    unfold is_byte. repeat (destruct Hd as [->|Hd]; [vm_compute; intuition congruence|]). subst; vm_compute; intuition congruence. }
  destruct Hb0 as [Hb0 Hlog].
  assert (Hok : bytes_ok ((Z.lor 8 q :: bs) ++ rest)).
  { apply bytes_ok_app. split; [constructor; assumption|assumption]. }
  assert (Hr : exists r, read_coded_size_signed ((Z.lor 8 q :: bs) ++ rest) bufsize = Some r /\ sz_len r = 5).
  { unfold read_coded_size_signed, read_coded_size. destruct (bufsize <=? 0) eqn:?; [lia|]. cbn [app].
    rewrite rcs_loop_ok by (auto; lia). unfold rcs_loop_spec. rewrite Hlog.
    assert (1 <= Z.lor 8 q).
    { assert (Z.log2 (Z.lor 8 q) <> 0) by lia. destruct (Z.lt_ge_cases 0 (Z.lor 8 q)); [lia|].
      rewrite Z.log2_nonpos in * by lia. lia. }
    replace ((1 <=? Z.lor 8 q) && (8 - 3 <=? Z.of_nat (Z.to_nat (Z.min bufsize 8)))) with true by lia.
    change (7 - 3 + 1) with 5.
    destruct (zlen (Z.lor 8 q :: bs ++ rest) <? 5) eqn:E.
    - rewrite zlen_cons, zlen_app, Hz in E. pose proof (zlen_nonneg rest). lia.
    - eexists; split; [reflexivity|]. reflexivity. }
  destruct Hr as (r & Hr & H5). exists r. split; [exact Hr|].
  pose proof (read_signed_5_nonneg _ _ _ Hok Hr H5). lia.
Qed.

(** ** The length chosen for an unknown size *)
Lemma coded_size_length_unknown len sl : 0 <= sl <= 8 -> coded_size_length len sl false = Z.max 1 sl.
Proof.
  intros H. unfold coded_size_length, u8. cbn [negb].
  destruct (sl =? 0) eqn:E; cbn [negb andb].
  - replace (Z.max 1 sl) with 1 by lia. reflexivity.
  - destruct (1 <? sl) eqn:E2; lia.
Qed.
