From Verif Require Import Base BaseProofs VintProofs EbmlId EbmlIdProofs CrcTable Crc CrcSpec.

Definition is_u32 (c : Z) : Prop := 0 <= c < 2 ^ 32.

Lemma lxor_range k a b : 0 <= k -> 0 <= a < 2 ^ k -> 0 <= b < 2 ^ k -> 0 <= Z.lxor a b < 2 ^ k.
Proof.
  intros Hk Ha Hb. split; [apply Z.lxor_nonneg; lia|].
  destruct (Z.eq_dec (Z.lxor a b) 0) as [->|Hn]; [apply Z.pow_pos_nonneg; lia|].
  assert (Hp : 0 < Z.lxor a b) by (pose proof (proj2 (Z.lxor_nonneg a b) ltac:(lia)); lia).
  destruct (Z.eq_dec k 0) as [->|]; [change (2 ^ 0) with 1 in *; replace a with 0 in * by lia;
    replace b with 0 in * by lia; cbn in *; lia|].
  apply Z.log2_lt_pow2; [lia|]. eapply Z.le_lt_trans; [apply Z.log2_lxor; lia|].
  assert (H2 : forall x, 0 <= x < 2 ^ k -> Z.log2 x < k).
  { intros x Hx. destruct (Z.eq_dec x 0) as [->|]; [cbn; lia|]. apply Z.log2_lt_pow2; lia. }
  apply Z.max_lub_lt; apply H2; assumption.
Qed.

Lemma lxor_add_pow2 hi lo k : 0 <= k -> 0 <= lo < 2 ^ k -> Z.lxor (hi * 2 ^ k) lo = hi * 2 ^ k + lo.
Proof.
  intros Hk Hlo. symmetry. apply Z.add_nocarry_lxor. rewrite <- Z.shiftl_mul_pow2 by lia.
  apply Z.bits_inj'; intros n Hn. rewrite Z.land_spec, Z.bits_0.
  destruct (Z.lt_ge_cases n k).
  - rewrite Z.shiftl_spec_low by lia. reflexivity.
  - rewrite (testbit_above lo k n) by lia. apply andb_false_r.
Qed.

Lemma is_u32_lxor a b : is_u32 a -> is_u32 b -> is_u32 (Z.lxor a b).
Proof. apply lxor_range; lia. Qed.
Lemma is_u32_poly : is_u32 POLY. Proof. red. unfold POLY. lia. Qed.

Lemma odd_lxor a b : Z.odd (Z.lxor a b) = xorb (Z.odd a) (Z.odd b).
Proof. rewrite <- !Z.bit0_odd. apply Z.lxor_spec. Qed.

Lemma crc_bit_lxor a b : crc_bit (Z.lxor a b) = Z.lxor (crc_bit a) (crc_bit b).
Proof.
  unfold crc_bit. rewrite odd_lxor, Z.shiftr_lxor.
  destruct (Z.odd a), (Z.odd b); cbn [xorb]; apply Z.bits_inj'; intros n Hn;
  rewrite !Z.lxor_spec; destruct (Z.testbit (Z.shiftr a 1) n), (Z.testbit (Z.shiftr b 1) n), (Z.testbit POLY n); reflexivity.
Qed.
Lemma crc_bit_0 : crc_bit 0 = 0. Proof. reflexivity. Qed.
Lemma crc_bit_double v : crc_bit (2 * v) = v.
Proof.
  unfold crc_bit. replace (Z.odd (2 * v)) with false by (symmetry; rewrite Z.odd_mul; reflexivity).
  rewrite Z.shiftr_div_pow2 by lia. change (2 ^ 1) with 2. lia.
Qed.
Lemma crc_bit_range c : is_u32 c -> is_u32 (crc_bit c).
Proof.
  intros Hc. assert (is_u32 (Z.shiftr c 1)) by (red; red in Hc; rewrite Z.shiftr_div_pow2 by lia; change (2 ^ 1) with 2; lia).
  unfold crc_bit. destruct (Z.odd c); [apply is_u32_lxor; [assumption|apply is_u32_poly]|assumption].
Qed.
Lemma crc_bit_zero c : is_u32 c -> crc_bit c = 0 -> c = 0.
Proof.
  intros Hc. red in Hc. unfold crc_bit. rewrite Z.shiftr_div_pow2 by lia. change (2 ^ 1) with 2.
  destruct (Z.odd c) eqn:Ho.
  - intros H. apply Z.lxor_eq in H. unfold POLY in H. lia.
  - intros H. pose proof (Zmod_odd c) as Hm. rewrite Ho in Hm. lia.
Qed.

Fixpoint crcn (n : nat) (c : Z) : Z := match n with O => c | S n' => crcn n' (crc_bit c) end.
Lemma crcn_S n c : crcn (S n) c = crcn n (crc_bit c).
Proof. reflexivity. Qed.
Lemma crcn_lxor n : forall a b, crcn n (Z.lxor a b) = Z.lxor (crcn n a) (crcn n b).
Proof. induction n; intros; [reflexivity|]. rewrite !crcn_S, crc_bit_lxor. apply IHn. Qed.
Lemma crcn_range n : forall c, is_u32 c -> is_u32 (crcn n c).
Proof. induction n; intros; [assumption|]. rewrite crcn_S. apply IHn, crc_bit_range; assumption. Qed.
Lemma crcn_zero n : forall c, is_u32 c -> crcn n c = 0 -> c = 0.
Proof.
  induction n; intros c Hc; [auto|]. rewrite crcn_S. intros H. apply IHn in H; [|apply crc_bit_range; assumption].
  apply crc_bit_zero; assumption.
Qed.
Lemma crcn_inj n a b : is_u32 a -> is_u32 b -> crcn n a = crcn n b -> a = b.
Proof.
  intros Ha Hb H. apply Z.lxor_eq. apply (crcn_zero n); [apply is_u32_lxor; assumption|].
  rewrite crcn_lxor, H. apply Z.lxor_nilpotent.
Qed.
Lemma crcn_shift n : forall h, crcn n (h * 2 ^ Z.of_nat n) = h.
Proof.
  induction n; intros h; [cbn; lia|]. rewrite crcn_S.
  replace (h * 2 ^ Z.of_nat (S n)) with (2 * (h * 2 ^ Z.of_nat n)).
  - rewrite crc_bit_double. apply IHn.
  - replace (Z.of_nat (S n)) with (1 + Z.of_nat n) by lia. rewrite Z.pow_add_r by lia. ring.
Qed.

Fixpoint bits_val (l : list bool) : Z :=
  match l with [] => 0 | b :: l' => Z.b2z b + 2 * bits_val l' end.

Lemma bits_val_range l : 0 <= bits_val l < 2 ^ zlen l.
Proof.
  induction l as [|b l IH]; [cbn; lia|]. rewrite zlen_cons. pose proof (zlen_nonneg l).
  rewrite Z.pow_add_r by lia. cbn [bits_val]. destruct b; cbn [Z.b2z]; lia.
Qed.
Lemma bits_val_inj l : forall l', length l = length l' -> bits_val l = bits_val l' -> l = l'.
Proof.
  induction l as [|b l IH]; intros [|b' l'] Hlen; cbn [length] in Hlen; try discriminate; [reflexivity|].
  cbn [bits_val]. intros H. assert (b = b') by (destruct b, b'; cbn [Z.b2z] in H; try reflexivity; lia).
  subst. f_equal. apply IH; [lia|]. lia.
Qed.
Lemma bits_val_app l l' : bits_val (l ++ l') = bits_val l + 2 ^ zlen l * bits_val l'.
Proof.
  induction l as [|b l IH]; [change ([] ++ l') with l'; change (2 ^ zlen []) with 1; cbn [bits_val]; lia|].
  cbn [app bits_val]. rewrite IH, zlen_cons. pose proof (zlen_nonneg l). rewrite Z.pow_add_r by lia. ring.
Qed.

Lemma crc_bits_ok l : forall c, crc_bits c l = crcn (length l) (Z.lxor c (bits_val l)).
Proof.
  unfold crc_bits. induction l as [|b l IH]; intros c; cbn [fold_left length bits_val].
  - rewrite Z.lxor_0_r. reflexivity.
  - rewrite IH, crcn_S. f_equal.
    rewrite <- (crc_bit_double (bits_val l)) at 1. rewrite <- crc_bit_lxor. f_equal.
    rewrite Z.lxor_assoc. f_equal.
    rewrite Z.lxor_comm, (Z.mul_comm 2), (Z.add_comm (Z.b2z b)).
    change 2 with (2 ^ 1). apply lxor_add_pow2; [lia|]. destruct b; cbn; lia.
Qed.

Lemma crc_bits_range l : forall c, is_u32 c -> is_u32 (crc_bits c l).
Proof.
  unfold crc_bits. induction l as [|b l IH]; intros c Hc; cbn [fold_left]; [assumption|].
  apply IH. apply crc_bit_range. apply is_u32_lxor; [assumption|]. destruct b; red; cbn; lia.
Qed.
Lemma crc_bits_app c l l' : crc_bits c (l ++ l') = crc_bits (crc_bits c l) l'.
Proof. apply fold_left_app. Qed.
Lemma crc_bits_inj l : forall a b, is_u32 a -> is_u32 b -> crc_bits a l = crc_bits b l -> a = b.
Proof.
  unfold crc_bits. induction l as [|x l IH]; intros a b Ha Hb; cbn [fold_left]; [auto|]. intros H.
  assert (Hx : is_u32 (Z.b2z x)) by (destruct x; red; cbn; lia).
  apply IH in H; try (apply crc_bit_range, is_u32_lxor; assumption).
  apply (crcn_inj 1) in H; try (apply is_u32_lxor; assumption).
  apply (f_equal (fun t => Z.lxor t (Z.b2z x))) in H.
  rewrite !Z.lxor_assoc, Z.lxor_nilpotent, !Z.lxor_0_r in H. exact H.
Qed.

(** Burst detection at the bit level. *)
Lemma crc_burst pre x y post c : is_u32 c -> length x = length y -> (length x <= 32)%nat -> x <> y ->
  crc_bits c (pre ++ x ++ post) <> crc_bits c (pre ++ y ++ post).
Proof.
  intros Hc Hlen Hx Hne H. rewrite !crc_bits_app in H.
  assert (Hs : is_u32 (crc_bits c pre)) by (apply crc_bits_range; assumption).
  set (s := crc_bits c pre) in *. clearbody s.
  apply crc_bits_inj in H; try (apply crc_bits_range; assumption).
  rewrite !crc_bits_ok, Hlen in H.
  assert (Hr : forall l, (length l <= 32)%nat -> is_u32 (bits_val l)).
  { intros l Hl. pose proof (bits_val_range l). red.
    assert (2 ^ zlen l <= 2 ^ 32) by (apply Z.pow_le_mono_r; unfold zlen; lia). lia. }
  assert (Hxr : is_u32 (bits_val x)) by (apply Hr; assumption).
  assert (Hyr : is_u32 (bits_val y)) by (apply Hr; lia).
  apply crcn_inj in H; try (apply is_u32_lxor; assumption).
  apply (f_equal (Z.lxor s)) in H.
  rewrite <- !Z.lxor_assoc, Z.lxor_nilpotent, !Z.lxor_0_l in H.
  apply Hne, bits_val_inj; assumption.
Qed.

(** ** Little-endian build *)
Lemma byte_bits_val b : is_byte b -> bits_val (byte_bits b) = b.
Proof. intros Hb. apply Z.eqb_eq. revert b Hb. apply byte_forall. vm_compute. reflexivity. Qed.
Lemma byte_bits_len b : length (byte_bits b) = 8%nat.
Proof. reflexivity. Qed.
Lemma m_tab_le_ok i : is_byte i -> m_tab false i = crcn 8 i.
Proof. intros Hb. apply Z.eqb_eq. revert i Hb. apply byte_forall. vm_compute. reflexivity. Qed.

Lemma split_byte c : c = Z.lxor (Z.shiftr c 8 * 2 ^ 8) (Z.land c 255).
Proof.
  rewrite shiftr_8, land_255. rewrite lxor_add_pow2 by (try change (2 ^ 8) with 256; lia).
  change (2 ^ 8) with 256. lia.
Qed.

Lemma crcn8_split c b : crcn 8 (Z.lxor c b) = Z.lxor (crcn 8 (Z.lxor (Z.land c 255) b)) (Z.shiftr c 8).
Proof.
  transitivity (crcn 8 (Z.lxor (Z.lxor (Z.shiftr c 8 * 2 ^ 8) (Z.land c 255)) b)); [rewrite <- split_byte; reflexivity|].
  rewrite Z.lxor_assoc, crcn_lxor.
  change (2 ^ 8) with (2 ^ Z.of_nat 8). rewrite crcn_shift. apply Z.lxor_comm.
Qed.

Lemma crc_tstep_ok c : crc_tstep false c = crcn 8 c.
Proof.
  unfold crc_tstep, crc_index, crc_shifted.
  rewrite m_tab_le_ok by (red; rewrite land_255; lia).
  rewrite <- (Z.lxor_0_r c) at 3. rewrite crcn8_split, Z.lxor_0_r. reflexivity.
Qed.

Lemma crc_bstep_ok c b : is_byte b -> crc_bstep false c b = crcn 8 (Z.lxor c b).
Proof.
  intros Hb. unfold crc_bstep, crc_index, crc_shifted.
  rewrite m_tab_le_ok.
  - symmetry. apply crcn8_split.
  - unfold is_byte. change 256 with (2 ^ 8). apply lxor_range; [lia| |exact Hb].
    rewrite land_255. change (2 ^ 8) with 256. lia.
Qed.

Lemma crcn_add n m c : crcn (n + m) c = crcn n (crcn m c).
Proof.
  revert c. induction m; intros; [rewrite Nat.add_0_r; reflexivity|].
  rewrite Nat.add_succ_r, !crcn_S. apply IHm.
Qed.

Lemma crc_fold_bytes buf : bytes_ok buf -> forall c, fold_left (crc_bstep false) buf c = crc_bits c (msg_bits buf).
Proof.
  induction 1 as [|b l Hb Hl IH]; intros c; [reflexivity|].
  cbn [fold_left msg_bits flat_map]. rewrite crc_bits_app, IH. f_equal.
  rewrite crc_bstep_ok, crc_bits_ok, byte_bits_val by assumption. reflexivity.
Qed.

Lemma bytes_ok4 a b c d l : bytes_ok (a :: b :: c :: d :: l) ->
  is_byte a /\ is_byte b /\ is_byte c /\ is_byte d /\ bytes_ok l.
Proof.
  intros H. inversion H as [|? ? Ha H1']; subst. inversion H1' as [|? ? Hb H2']; subst.
  inversion H2' as [|? ? Hc H3']; subst. inversion H3' as [|? ? Hd H4']; subst. auto.
Qed.

Lemma crc_run_ok : forall n buf c, (length buf <= n)%nat -> bytes_ok buf ->
  crc_run false c buf = crc_bits c (msg_bits buf).
Proof.
  induction n as [|n IH]; intros buf c Hlen Hok.
  - destruct buf; [reflexivity|cbn in Hlen; lia].
  - destruct buf as [|b0 [|b1 [|b2 [|b3 rest]]]];
      try (cbn [crc_run]; apply crc_fold_bytes; assumption).
    cbn [crc_run]. cbn [length] in Hlen.
    destruct (bytes_ok4 _ _ _ _ _ Hok) as (H0 & H1 & H2 & H3 & Hok4).
    rewrite IH by (auto; lia).
    change (b0 :: b1 :: b2 :: b3 :: rest) with ([b0; b1; b2; b3] ++ rest).
    unfold msg_bits. rewrite flat_map_app, crc_bits_app. f_equal.
    rewrite crc_bits_ok. change (length (flat_map byte_bits [b0; b1; b2; b3])) with (8 + (8 + (8 + 8)))%nat.
    rewrite (crcn_add 8 (8 + (8 + 8))), (crcn_add 8 (8 + 8)), (crcn_add 8 8), !crc_tstep_ok.
    do 4 apply (f_equal (crcn 8)). apply (f_equal (Z.lxor c)).
    cbn [flat_map]. rewrite !bits_val_app. rewrite !byte_bits_val by assumption.
    unfold zlen. rewrite !byte_bits_len. cbn [bits_val load32_host]. change (2 ^ Z.of_nat 8) with 256.
    change (2 ^ 8) with 256. change (2 ^ 16) with 65536. change (2 ^ 24) with 16777216. lia.
Qed.

Lemma crc_run_spec buf c : bytes_ok buf -> crc_run false c buf = crc_bits c (msg_bits buf).
Proof. apply (crc_run_ok (length buf)). lia. Qed.

Lemma crc_chunks_fold chunks : forall c, Forall bytes_ok chunks ->
  fold_left (crc_add_buffer false) chunks c = crc_bits c (msg_bits (concat chunks)).
Proof.
  induction chunks as [|x xs IH]; intros c Hok; [reflexivity|].
  inversion Hok; subst. cbn [fold_left concat]. unfold msg_bits. rewrite flat_map_app, crc_bits_app.
  rewrite IH by assumption. f_equal. apply crc_run_spec. assumption.
Qed.

(** C09 *)
Lemma crc_chunks_ieee chunks : Forall bytes_ok chunks ->
  crc_of_chunks false chunks = crc32_ieee (concat chunks).
Proof. intros. unfold crc_of_chunks, crc_finalize, crc32_ieee. rewrite crc_chunks_fold by assumption. reflexivity. Qed.

Lemma crc_matches_iff stored buf : bytes_ok buf ->
  crc_matches false stored buf = true <-> stored = crc32_ieee buf.
Proof.
  intros Hok. unfold crc_matches, crc32_ieee, CRC32_NEGL. rewrite crc_run_spec by assumption. apply Z.eqb_eq.
Qed.

Lemma is_u32_negl : is_u32 4294967295. Proof. red; lia. Qed.
Lemma crc32_ieee_u32 buf : is_u32 (crc32_ieee buf).
Proof. unfold crc32_ieee. apply is_u32_lxor; [apply crc_bits_range|]; apply is_u32_negl. Qed.

(** C10 *)
Lemma crc_detects_burst stored buf buf' pre x y post :
  bytes_ok buf -> bytes_ok buf' ->
  msg_bits buf = pre ++ x ++ post -> msg_bits buf' = pre ++ y ++ post ->
  length x = length y -> (length x <= 32)%nat -> x <> y ->
  crc_matches false stored buf = true -> crc_matches false stored buf' = false.
Proof.
  intros Hok Hok' Hm Hm' Hlen H32 Hne Hmatch.
  apply crc_matches_iff in Hmatch; [|assumption].
  destruct (crc_matches false stored buf') eqn:E; [|reflexivity]. exfalso.
  apply crc_matches_iff in E; [|assumption]. rewrite Hmatch in E. unfold crc32_ieee in E.
  apply (f_equal (fun t => Z.lxor t 4294967295)) in E. rewrite !Z.lxor_assoc, Z.lxor_nilpotent, !Z.lxor_0_r in E.
  rewrite Hm, Hm' in E. revert E. apply crc_burst; auto. apply is_u32_negl.
Qed.

(** Corollary: any change confined to four consecutive bytes. *)
Lemma msg_bits_app a b : msg_bits (a ++ b) = msg_bits a ++ msg_bits b.
Proof. apply flat_map_app. Qed.
Lemma msg_bits_len m : length (msg_bits m) = (8 * length m)%nat.
Proof. induction m; [reflexivity|]. cbn [msg_bits flat_map]. rewrite app_length, byte_bits_len. fold (msg_bits m). cbn [length]. lia. Qed.
Lemma msg_bits_inj a : forall b, bytes_ok a -> bytes_ok b -> length a = length b -> msg_bits a = msg_bits b -> a = b.
Proof.
  induction a as [|x a IH]; intros [|y b] Ha Hb Hl; cbn [length] in Hl; try discriminate; [reflexivity|].
  inversion Ha; inversion Hb; subst. cbn [msg_bits flat_map]. intros H.
  assert (byte_bits x = byte_bits y /\ msg_bits a = msg_bits b) as [E1 E2].
  { apply app_eq_app in H. destruct H as (l & [[Hl1 Hl2]|[Hl1 Hl2]]).
    - assert (l = []) as -> by (destruct l; [reflexivity|]; apply (f_equal (@length bool)) in Hl1;
        rewrite app_length, !byte_bits_len in Hl1; cbn in Hl1; lia).
      rewrite app_nil_r in Hl1. cbn in Hl2. split; [auto|]. symmetry; exact Hl2.
    - assert (l = []) as -> by (destruct l; [reflexivity|]; apply (f_equal (@length bool)) in Hl1;
        rewrite app_length, !byte_bits_len in Hl1; cbn in Hl1; lia).
      rewrite app_nil_r in Hl1. cbn in Hl2. split; [auto|]. exact Hl2. }
  f_equal; [|apply IH; auto; lia]. rewrite <- (byte_bits_val x), <- (byte_bits_val y) by assumption. congruence.
Qed.

Lemma crc_detects_4bytes stored pre x y post :
  bytes_ok (pre ++ x ++ post) -> bytes_ok y -> length x = length y -> (length x <= 4)%nat -> x <> y ->
  crc_matches false stored (pre ++ x ++ post) = true -> crc_matches false stored (pre ++ y ++ post) = false.
Proof.
  intros Hok Hy Hlen H4 Hne. pose proof Hok as Hok0. apply bytes_ok_app in Hok as [Hp Hok]. apply bytes_ok_app in Hok as [Hx Hpost].
  apply crc_detects_burst with (msg_bits pre) (msg_bits x) (msg_bits y) (msg_bits post).
  - assumption.
  - apply bytes_ok_app; split; [assumption|]. apply bytes_ok_app; split; assumption.
  - rewrite !msg_bits_app. reflexivity.
  - rewrite !msg_bits_app. reflexivity.
  - rewrite !msg_bits_len. lia.
  - rewrite msg_bits_len. lia.
  - intros E. apply Hne. apply msg_bits_inj; assumption.
Qed.

(** ** Rendering and reading the element payload *)
Lemma crc_render_read c : is_u32 c ->
  bytes_ok (crc_render c) /\ zlen (crc_render c) = 4 /\ crc_read (crc_render c) = Some c.
Proof.
  intros Hc. unfold is_u32 in Hc. change (2 ^ 32) with 4294967296 in Hc.
  unfold crc_render, u8. change (2 ^ 8) with 256. rewrite !Z.shiftr_div_pow2 by lia.
  change (2 ^ 8) with 256. change (2 ^ 16) with 65536. change (2 ^ 24) with 16777216.
  assert (B : forall x, is_byte (x mod 256)) by (intros; red; lia).
  split; [repeat (constructor; [apply B|]); constructor|]. split; [reflexivity|].
  unfold crc_read. f_equal. fold (fourccbe (c / 16777216 mod 256) (c / 65536 mod 256) (c / 256 mod 256) (c mod 256)).
  rewrite fourccbe_ok by apply B.
  change (be_val [c / 16777216 mod 256; c / 65536 mod 256; c / 256 mod 256; c mod 256])
   with ((((0 * 256 + c / 16777216 mod 256) * 256 + c / 65536 mod 256) * 256 + c / 256 mod 256) * 256 + c mod 256).
  unfold u32. change (2 ^ 32) with 4294967296. lia.
Qed.

(** ** Big-endian build *)
Lemma bswap32_bits x : bswap32 x = Z.lxor (Z.shiftl (Z.land x 255) 24)
  (Z.lxor (Z.shiftl (Z.land (Z.shiftr x 8) 255) 16)
  (Z.lxor (Z.shiftl (Z.land (Z.shiftr x 16) 255) 8) (Z.land (Z.shiftr x 24) 255))).
Proof.
  unfold bswap32. rewrite !land_255, !Z.shiftr_div_pow2, !Z.shiftl_mul_pow2 by lia.
  assert (B : forall t, 0 <= t mod 256 < 256) by (intros; lia).
  pose proof (B x). pose proof (B (x / 2 ^ 8)). pose proof (B (x / 2 ^ 16)). pose proof (B (x / 2 ^ 24)).
  set (a := x mod 256) in *. set (b := (x / 2 ^ 8) mod 256) in *. set (c := (x / 2 ^ 16) mod 256) in *.
  set (d := (x / 2 ^ 24) mod 256) in *.
  rewrite (lxor_add_pow2 c d 8) by lia. rewrite (lxor_add_pow2 b _ 16) by lia. rewrite (lxor_add_pow2 a _ 24) by lia. lia.
Qed.

Lemma land_lxor_255 x y : Z.land (Z.lxor x y) 255 = Z.lxor (Z.land x 255) (Z.land y 255).
Proof.
  apply Z.bits_inj'; intros n Hn. rewrite !Z.land_spec, !Z.lxor_spec, !Z.land_spec.
  destruct (Z.testbit x n), (Z.testbit y n), (Z.testbit 255 n); reflexivity.
Qed.

Lemma bswap32_lxor x y : bswap32 (Z.lxor x y) = Z.lxor (bswap32 x) (bswap32 y).
Proof.
  rewrite !bswap32_bits. rewrite !Z.shiftr_lxor, !land_lxor_255, !Z.shiftl_lxor.
  generalize (Z.shiftl (Z.land x 255) 24) (Z.shiftl (Z.land y 255) 24) (Z.shiftl (Z.land (Z.shiftr x 8) 255) 16)
    (Z.shiftl (Z.land (Z.shiftr y 8) 255) 16) (Z.shiftl (Z.land (Z.shiftr x 16) 255) 8)
    (Z.shiftl (Z.land (Z.shiftr y 16) 255) 8) (Z.land (Z.shiftr x 24) 255) (Z.land (Z.shiftr y 24) 255).
  intros. apply Z.bits_inj'; intros n Hn. rewrite !Z.lxor_spec.
  repeat match goal with |- context [Z.testbit ?a ?b] => generalize (Z.testbit a b) end.
  intros [] [] [] [] [] [] [] []; reflexivity.
Qed.

Lemma bswap32_range x : is_u32 (bswap32 x).
Proof.
  unfold is_u32, bswap32. change (2 ^ 32) with 4294967296. change (2 ^ 24) with 16777216.
  change (2 ^ 16) with 65536. change (2 ^ 8) with 256. lia.
Qed.
Lemma bswap32_invol x : is_u32 x -> bswap32 (bswap32 x) = x.
Proof.
  unfold is_u32, bswap32. change (2 ^ 32) with 4294967296. change (2 ^ 24) with 16777216.
  change (2 ^ 16) with 65536. change (2 ^ 8) with 256. intros.
  set (a := x mod 256). set (b := x / 256 mod 256). set (c := x / 65536 mod 256). set (d := x / 16777216 mod 256).
  assert (0 <= a < 256) by (subst a; lia). assert (0 <= b < 256) by (subst b; lia).
  assert (0 <= c < 256) by (subst c; lia). assert (0 <= d < 256) by (subst d; lia).
  assert (x = d * 16777216 + c * 65536 + b * 256 + a) by (subst a b c d; lia).
  clearbody a b c d. subst x. set (y := a * 16777216 + b * 65536 + c * 256 + d).
  replace (y mod 256) with d by (subst y; lia). replace (y / 256 mod 256) with c by (subst y; lia).
  replace (y / 65536 mod 256) with b by (subst y; lia). replace (y / 16777216 mod 256) with a by (subst y; lia). lia.
Qed.

Lemma m_tab_be_ok i : is_byte i -> m_tab true i = bswap32 (m_tab false i).
Proof. intros Hb. apply Z.eqb_eq. revert i Hb. apply byte_forall. vm_compute. reflexivity. Qed.

Lemma be_index c : is_u32 c -> crc_index true (bswap32 c) = crc_index false c.
Proof.
  unfold crc_index, is_u32, bswap32. rewrite land_255, Z.shiftr_div_pow2 by lia. change (2 ^ 32) with 4294967296.
  change (2 ^ 24) with 16777216. change (2 ^ 16) with 65536. change (2 ^ 8) with 256. intros.
  assert (0 <= c / 256 mod 256 < 256) by lia. assert (0 <= c / 65536 mod 256 < 256) by lia.
  assert (0 <= c / 16777216 mod 256 < 256) by lia. lia.
Qed.
Lemma be_shifted c : is_u32 c -> crc_shifted true (bswap32 c) = bswap32 (crc_shifted false c).
Proof.
  unfold crc_shifted, is_u32, bswap32, u32. rewrite Z.shiftl_mul_pow2, shiftr_8 by lia. change (2 ^ 32) with 4294967296.
  change (2 ^ 24) with 16777216. change (2 ^ 16) with 65536. change (2 ^ 8) with 256. intros.
  replace (c / 256 / 256) with (c / 65536) by lia.
  replace (c / 256 / 65536) with (c / 16777216) by lia.
  replace (c / 256 / 16777216 mod 256) with 0 by lia.
  assert (0 <= c mod 256 < 256) by lia.
  assert (0 <= c / 256 mod 256 < 256) by lia. assert (0 <= c / 65536 mod 256 < 256) by lia.
  assert (0 <= c / 16777216 mod 256 < 256) by lia.
  set (a := c mod 256) in *. set (b := c / 256 mod 256) in *. set (d := c / 65536 mod 256) in *. set (e := c / 16777216 mod 256) in *.
  clearbody a b d e. lia.
Qed.
Lemma index_byte c : is_byte (crc_index false c).
Proof. unfold crc_index. rewrite land_255. red; lia. Qed.

Lemma be_tstep c : is_u32 c -> crc_tstep true (bswap32 c) = bswap32 (crc_tstep false c).
Proof.
  intros. unfold crc_tstep. rewrite be_index, be_shifted, m_tab_be_ok, bswap32_lxor by (try apply index_byte; assumption).
  reflexivity.
Qed.
Lemma be_bstep c b : is_u32 c -> is_byte b -> crc_bstep true (bswap32 c) b = bswap32 (crc_bstep false c b).
Proof.
  intros. unfold crc_bstep. rewrite be_index, be_shifted by assumption.
  rewrite m_tab_be_ok, bswap32_lxor; [reflexivity|].
  unfold is_byte. change 256 with (2 ^ 8). apply lxor_range; [lia|apply index_byte|assumption].
Qed.

Lemma load32_swap b0 b1 b2 b3 : is_byte b0 -> is_byte b1 -> is_byte b2 -> is_byte b3 ->
  load32_host true b0 b1 b2 b3 = bswap32 (load32_host false b0 b1 b2 b3) /\ is_u32 (load32_host false b0 b1 b2 b3).
Proof.
  unfold load32_host, is_byte, is_u32, bswap32. change (2 ^ 32) with 4294967296.
  change (2 ^ 24) with 16777216. change (2 ^ 16) with 65536. change (2 ^ 8) with 256. intros.
  set (x := b0 + b1 * 256 + b2 * 65536 + b3 * 16777216).
  replace (x mod 256) with b0 by (subst x; lia). replace (x / 256 mod 256) with b1 by (subst x; lia).
  replace (x / 65536 mod 256) with b2 by (subst x; lia). replace (x / 16777216 mod 256) with b3 by (subst x; lia).
  subst x. lia.
Qed.

Lemma be_fold buf : bytes_ok buf -> forall c, is_u32 c ->
  fold_left (crc_bstep true) buf (bswap32 c) = bswap32 (fold_left (crc_bstep false) buf c).
Proof.
  induction 1 as [|b l Hb Hl IH]; intros c Hc; [reflexivity|]. cbn [fold_left].
  rewrite be_bstep by assumption. apply IH. rewrite crc_bstep_ok by assumption. apply crcn_range.
  apply is_u32_lxor; [assumption|]. red; red in Hb; lia.
Qed.

Lemma be_run : forall n buf c, (length buf <= n)%nat -> bytes_ok buf -> is_u32 c ->
  crc_run true (bswap32 c) buf = bswap32 (crc_run false c buf).
Proof.
  induction n as [|n IH]; intros buf c Hlen Hok Hc.
  - destruct buf; [reflexivity|cbn in Hlen; lia].
  - destruct buf as [|b0 [|b1 [|b2 [|b3 rest]]]]; try (cbn [crc_run]; apply be_fold; assumption).
    cbn [crc_run]. cbn [length] in Hlen.
    destruct (bytes_ok4 _ _ _ _ _ Hok) as (H0 & H1 & H2 & H3 & Hok4).
    destruct (load32_swap b0 b1 b2 b3 H0 H1 H2 H3) as [-> Hw].
    rewrite <- bswap32_lxor. set (w := Z.lxor c (load32_host false b0 b1 b2 b3)).
    assert (Hww : is_u32 w) by (apply is_u32_lxor; assumption). clearbody w.
    assert (T : forall t, is_u32 t -> is_u32 (crc_tstep false t)) by (intros; rewrite crc_tstep_ok; apply crcn_range; assumption).
    rewrite be_tstep by assumption. rewrite be_tstep by (apply T; assumption).
    rewrite be_tstep by (do 2 apply T; assumption). rewrite be_tstep by (do 3 apply T; assumption).
    apply IH; [lia|assumption|do 4 apply T; assumption].
Qed.

Lemma crc_matches_big_iff stored buf : bytes_ok buf ->
  crc_matches true stored buf = true <-> stored = bswap32 (crc32_ieee buf).
Proof.
  intros Hok. unfold crc_matches, CRC32_NEGL.
  change 4294967295 with (bswap32 4294967295) at 1.
  rewrite (be_run (length buf)) by (auto using is_u32_negl). rewrite crc_run_spec by assumption.
  rewrite Z.eqb_eq. unfold crc32_ieee. rewrite bswap32_lxor. reflexivity.
Qed.

(** On a big-endian host a correct CRC element read from a file is rejected. *)
Lemma crc_big_endian_rejects : exists buf,
  bytes_ok buf /\ crc_read (crc_render (crc32_ieee buf)) = Some (crc32_ieee buf) /\
  crc_matches false (crc32_ieee buf) buf = true /\ crc_matches true (crc32_ieee buf) buf = false.
Proof.
  exists [1; 2; 3]. split; [apply bytes_ok_forallb; reflexivity|].
  split; [apply crc_render_read, crc32_ieee_u32|]. split; vm_compute; reflexivity.
Qed.

(** Table lookups stay inside the 256 entries. *)
Lemma crc_index_in_table c b : is_u32 c -> is_byte b ->
  (Z.to_nat (crc_index false c) < length m_tab_le)%nat /\ (Z.to_nat (Z.lxor (crc_index false c) b) < length m_tab_le)%nat /\
  (Z.to_nat (crc_index true c) < length m_tab_be)%nat /\ (Z.to_nat (Z.lxor (crc_index true c) b) < length m_tab_be)%nat.
Proof.
  intros Hc Hb. change (length m_tab_le) with 256%nat. change (length m_tab_be) with 256%nat.
  pose proof (index_byte c) as Hi. assert (Hj : is_byte (crc_index true c)).
  { unfold crc_index. rewrite Z.shiftr_div_pow2 by lia. red; red in Hc. change (2 ^ 24) with 16777216.
    change (2 ^ 32) with 4294967296 in Hc. lia. }
  assert (Hx : forall i, is_byte i -> is_byte (Z.lxor i b)).
  { intros. unfold is_byte. change 256 with (2 ^ 8). apply lxor_range; [lia|assumption|assumption]. }
  pose proof (Hx _ Hi) as K1. pose proof (Hx _ Hj) as K2. unfold is_byte in *. lia.
Qed.
