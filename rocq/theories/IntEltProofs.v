From Verif Require Import Base BaseProofs VintProofs IntElt IntEltSpec.

Lemma s_wrap_small bits x : 0 < bits -> - 2 ^ (bits - 1) <= x < 2 ^ (bits - 1) -> s_wrap bits x = x.
Proof.
  intros Hb Hx. unfold s_wrap.
  assert (2 ^ bits = 2 * 2 ^ (bits - 1)).
  { replace bits with (1 + (bits - 1)) at 1 by lia. rewrite Z.pow_add_r by lia. reflexivity. }
  rewrite Z.mod_small by lia. lia.
Qed.
Lemma s64_small x : is_int64 x -> s64 x = x.
Proof. intros. apply s_wrap_small; [lia|exact H]. Qed.
Lemma s64_range x : is_int64 (s64 x).
Proof.
  unfold s64, s_wrap, is_int64. change (64 - 1) with 63.
  pose proof (Z.mod_pos_bound (x + 2 ^ 63) (2 ^ 64) ltac:(lia)). change (2 ^ 64) with (2 * 2 ^ 63) in *. lia.
Qed.
Lemma s64_mod x : s64 x mod 2 ^ 64 = x mod 2 ^ 64.
Proof.
  unfold s64, s_wrap. change (64 - 1) with 63. rewrite Zminus_mod_idemp_l. f_equal. lia.
Qed.
Lemma s64_congr x y : x mod 2 ^ 64 = y mod 2 ^ 64 -> s64 x = s64 y.
Proof.
  intros H. unfold s64, s_wrap. rewrite <- (Zplus_mod_idemp_l x), <- (Zplus_mod_idemp_l y), H. reflexivity.
Qed.

Lemma render_int_loop_ok i : forall v acc, render_int_loop i v acc = be_bytes i v ++ acc.
Proof.
  induction i; intros; cbn [render_int_loop be_bytes]; [reflexivity|].
  rewrite IHi, shiftr_8, land_255, <- app_assoc. reflexivity.
Qed.

Lemma be_bytes_mod n v : be_bytes n (v mod 256 ^ Z.of_nat n) = be_bytes n v.
Proof.
  apply be_val_inj; try apply be_bytes_ok; [rewrite !be_bytes_length; reflexivity|].
  rewrite !be_val_be_bytes. apply Z.mod_mod. apply Z.pow_nonzero; lia.
Qed.
Lemma be_bytes_congr n v w : v mod 256 ^ Z.of_nat n = w mod 256 ^ Z.of_nat n -> be_bytes n v = be_bytes n w.
Proof. intros H. rewrite <- (be_bytes_mod n v), <- (be_bytes_mod n w), H. reflexivity. Qed.

Lemma be_bytes_u64 n v : (n <= 8)%nat -> be_bytes n (v mod 2 ^ 64) = be_bytes n v.
Proof.
  intros Hn. apply be_bytes_congr. rewrite pow256_2 by lia.
  replace (2 ^ 64) with (2 ^ (8 * Z.of_nat n) * 2 ^ (64 - 8 * Z.of_nat n))
    by (rewrite <- Z.pow_add_r by lia; f_equal; lia).
  assert (0 < 2 ^ (8 * Z.of_nat n)) by (apply Z.pow_pos_nonneg; lia).
  assert (0 < 2 ^ (64 - 8 * Z.of_nat n)) by (apply Z.pow_pos_nonneg; lia).
  rewrite Z.rem_mul_r by lia. rewrite (Z.mul_comm (2 ^ (8 * Z.of_nat n))), Z.mod_add by lia. apply Z.mod_mod. lia.
Qed.

Lemma be_bytes_s64 n v : (n <= 8)%nat -> be_bytes n (s64 v) = be_bytes n v.
Proof. intros Hn. rewrite <- be_bytes_u64 by exact Hn. rewrite s64_mod. apply be_bytes_u64. exact Hn. Qed.

Lemma render_data_int_ok sg v ds df : 1 <= ds <= 8 -> df <= ds ->
  render_data_int sg v ds df = Some (be_bytes (Z.to_nat ds) v).
Proof.
  intros Hds Hdf. unfold render_data_int. destruct (ds =? 0) eqn:?; [lia|]. destruct (ds <? df) eqn:?; [lia|].
  rewrite render_int_loop_ok, app_nil_r. f_equal.
  destruct sg; [apply be_bytes_s64|apply be_bytes_u64]; lia.
Qed.

Lemma fold_read_int data : bytes_ok data -> forall acc, is_int64 acc ->
  fold_left (fun v b => s64 (Z.lor (Z.shiftl v 8) (u8 b))) data acc = s64 (be_val_from acc data).
Proof.
  induction 1 as [|b l Hb Hl IH]; intros acc Hacc; cbn [fold_left be_val_from].
  - symmetry; apply s64_small; assumption.
  - rewrite IH by apply s64_range. apply s64_congr. unfold u8. change (2 ^ 8) with 256.
    rewrite (Z.mod_small b) by exact Hb. rewrite shiftl_8, lor_256 by exact Hb.
    rewrite !be_val_from_spec. rewrite <- Z.add_mod_idemp_l by lia. rewrite <- Z.mul_mod_idemp_l by lia.
    rewrite s64_mod. rewrite Z.mul_mod_idemp_l by lia. apply Z.add_mod_idemp_l. lia.
Qed.

Lemma is_int64_0 : is_int64 0. Proof. red; lia. Qed.
Lemma is_int64_m1 : is_int64 (-1). Proof. red; lia. Qed.

Lemma read_data_int_ok data : bytes_ok data -> zlen data <= 8 -> read_data_int data = Some (s64 (be_val data)).
Proof.
  intros Hok Hz. unfold read_data_int. destruct (8 <? zlen data) eqn:?; [lia|].
  f_equal. unfold read_int_loop. apply fold_read_int; [assumption|apply is_int64_0].
Qed.

(** Natural unsigned size *)
Definition unat (v : Z) : Z :=
  if v <=? 255 then 1 else if v <=? 65535 then 2 else if v <=? 16777215 then 3
    else if v <=? 4294967295 then 4 else if v <=? 1099511627775 then 5
    else if v <=? 281474976710655 then 6 else if v <=? 72057594037927935 then 7 else 8.

Lemma unat_least v : 0 <= v < 2 ^ 64 -> least_size (ufits v) (unat v).
Proof.
  intros Hv. change (2 ^ 64) with 18446744073709551616 in Hv. unfold unat, least_size, ufits.
  assert (Hm : forall m, 1 <= m < 8 -> m = 1 \/ m = 2 \/ m = 3 \/ m = 4 \/ m = 5 \/ m = 6 \/ m = 7) by lia.
  destruct (v <=? 255) eqn:?; [change (256 ^ 1) with 256; repeat split; try lia; intros m Hm1; lia|].
  destruct (v <=? 65535) eqn:?;
   [change (256 ^ 2) with 65536; repeat split; try lia; intros m Hm1;
    assert (m = 1) as -> by lia; change (256 ^ 1) with 256; lia|].
  destruct (v <=? 16777215) eqn:?;
   [change (256 ^ 3) with 16777216; repeat split; try lia; intros m Hm1;
    assert (m = 1 \/ m = 2) as [->| ->] by lia; change (256 ^ 1) with 256; change (256 ^ 2) with 65536; lia|].
  destruct (v <=? 4294967295) eqn:?;
   [change (256 ^ 4) with 4294967296; repeat split; try lia; intros m Hm1;
    assert (256 ^ m <= 256 ^ 3) by (apply Z.pow_le_mono_r; lia); change (256 ^ 3) with 16777216 in *; lia|].
  destruct (v <=? 1099511627775) eqn:?;
   [change (256 ^ 5) with 1099511627776; repeat split; try lia; intros m Hm1;
    assert (256 ^ m <= 256 ^ 4) by (apply Z.pow_le_mono_r; lia); change (256 ^ 4) with 4294967296 in *; lia|].
  destruct (v <=? 281474976710655) eqn:?;
   [change (256 ^ 6) with 281474976710656; repeat split; try lia; intros m Hm1;
    assert (256 ^ m <= 256 ^ 5) by (apply Z.pow_le_mono_r; lia); change (256 ^ 5) with 1099511627776 in *; lia|].
  destruct (v <=? 72057594037927935) eqn:?;
   [change (256 ^ 7) with 72057594037927936; repeat split; try lia; intros m Hm1;
    assert (256 ^ m <= 256 ^ 6) by (apply Z.pow_le_mono_r; lia); change (256 ^ 6) with 281474976710656 in *; lia|].
  change (256 ^ 8) with 18446744073709551616; repeat split; try lia; intros m Hm1;
    assert (256 ^ m <= 256 ^ 7) by (apply Z.pow_le_mono_r; lia); change (256 ^ 7) with 72057594037927936 in *; lia.
Qed.

Lemma update_size_uint_max v df : 0 <= df <= 8 -> update_size_uint v df = Z.max df (unat (u64 v)).
Proof.
  intros. unfold update_size_uint. fold (unat (u64 v)).
  destruct (unat (u64 v) <? df) eqn:?; lia.
Qed.

(** C07 *)
Lemma uint_minimal v df : 0 <= df <= 8 ->
  exists n, least_size (ufits (v mod 2 ^ 64)) n /\ update_size_uint v df = Z.max df n.
Proof.
  intros. exists (unat (u64 v)). split; [|apply update_size_uint_max; lia].
  apply unat_least. apply Z.mod_pos_bound. reflexivity.
Qed.

Lemma uint_roundtrip v df : is_int64 v -> 0 <= df <= 8 ->
  let ds := update_size_uint v df in
  exists bs, render_data_int false v ds df = Some bs /\ bytes_ok bs /\ zlen bs = ds /\
    be_val bs = v mod 2 ^ 64 /\ read_data_int bs = Some v.
Proof.
  intros Hv Hdf ds. unfold ds. rewrite update_size_uint_max by lia.
  assert (Hl : least_size (ufits (u64 v)) (unat (u64 v))) by (apply unat_least; apply Z.mod_pos_bound; reflexivity).
  destruct Hl as (Hr & Hf & _). set (n := Z.max df (unat (u64 v))).
  assert (Hn : 1 <= n <= 8) by lia. rewrite render_data_int_ok by lia.
  eexists; split; [reflexivity|]. split; [apply be_bytes_ok|].
  assert (Hz : zlen (be_bytes (Z.to_nat n) v) = n) by (rewrite be_bytes_zlen; lia).
  split; [exact Hz|].
  assert (Hval : be_val (be_bytes (Z.to_nat n) v) = v mod 2 ^ 64).
  { rewrite <- be_bytes_u64 by lia. rewrite be_val_be_bytes. rewrite Z2Nat.id by lia. apply Z.mod_small.
    change (v mod 2 ^ 64) with (u64 v). unfold ufits in Hf. assert (256 ^ unat (u64 v) <= 256 ^ n) by (apply Z.pow_le_mono_r; lia). lia. }
  split; [exact Hval|]. rewrite read_data_int_ok by (try apply be_bytes_ok; lia).
  f_equal. rewrite Hval. rewrite <- (s64_small v Hv) at 2. apply s64_congr. apply Z.mod_mod. lia.
Qed.

(** Natural signed size *)
Definition snat (v : Z) : Z :=
    if (v <=? 127) && (-128 <=? v) then 1
    else if (v <=? 32767) && (-32768 <=? v) then 2
    else if (v <=? 8388607) && (-8388608 <=? v) then 3
    else if (v <=? 2147483647) && (-2147483648 <=? v) then 4
    else if (v <=? 549755813887) && (-549755813888 <=? v) then 5
    else if (v <=? 140737488355327) && (-140737488355328 <=? v) then 6
    else if (v <=? 36028797018963967) && (-36028797018963968 <=? v) then 7
    else 8.

Lemma snat_least v : is_int64 v -> least_size (sfits v) (snat v).
Proof.
  intros Hv. unfold is_int64 in Hv. change (2 ^ 63) with 9223372036854775808 in Hv. unfold snat, least_size, sfits.
  destruct ((v <=? 127) && (-128 <=? v)) eqn:?; [change (256 ^ 1) with 256; repeat split; try lia; intros m Hm1; lia|].
  destruct ((v <=? 32767) && (-32768 <=? v)) eqn:?;
   [change (256 ^ 2) with 65536; repeat split; try lia; intros m Hm1;
    assert (256 ^ m <= 256 ^ 1) by (apply Z.pow_le_mono_r; lia); change (256 ^ 1) with 256 in *; lia|].
  destruct ((v <=? 8388607) && (-8388608 <=? v)) eqn:?;
   [change (256 ^ 3) with 16777216; repeat split; try lia; intros m Hm1;
    assert (256 ^ m <= 256 ^ 2) by (apply Z.pow_le_mono_r; lia); change (256 ^ 2) with 65536 in *; lia|].
  destruct ((v <=? 2147483647) && (-2147483648 <=? v)) eqn:?;
   [change (256 ^ 4) with 4294967296; repeat split; try lia; intros m Hm1;
    assert (256 ^ m <= 256 ^ 3) by (apply Z.pow_le_mono_r; lia); change (256 ^ 3) with 16777216 in *; lia|].
  destruct ((v <=? 549755813887) && (-549755813888 <=? v)) eqn:?;
   [change (256 ^ 5) with 1099511627776; repeat split; try lia; intros m Hm1;
    assert (256 ^ m <= 256 ^ 4) by (apply Z.pow_le_mono_r; lia); change (256 ^ 4) with 4294967296 in *; lia|].
  destruct ((v <=? 140737488355327) && (-140737488355328 <=? v)) eqn:?;
   [change (256 ^ 6) with 281474976710656; repeat split; try lia; intros m Hm1;
    assert (256 ^ m <= 256 ^ 5) by (apply Z.pow_le_mono_r; lia); change (256 ^ 5) with 1099511627776 in *; lia|].
  destruct ((v <=? 36028797018963967) && (-36028797018963968 <=? v)) eqn:?;
   [change (256 ^ 7) with 72057594037927936; repeat split; try lia; intros m Hm1;
    assert (256 ^ m <= 256 ^ 6) by (apply Z.pow_le_mono_r; lia); change (256 ^ 6) with 281474976710656 in *; lia|].
  change (256 ^ 8) with 18446744073709551616; repeat split; try lia; intros m Hm1;
    assert (256 ^ m <= 256 ^ 7) by (apply Z.pow_le_mono_r; lia); change (256 ^ 7) with 72057594037927936 in *; lia.
Qed.

Lemma update_size_sint_max v df : 0 <= df <= 8 -> update_size_sint v df = Z.max df (snat v).
Proof. intros. unfold update_size_sint. fold (snat v). destruct (snat v <? df) eqn:?; lia. Qed.

Lemma sint_minimal v df : is_int64 v -> 0 <= df <= 8 ->
  exists n, least_size (sfits v) n /\ update_size_sint v df = Z.max df n.
Proof. intros. exists (snat v). split; [apply snat_least; assumption|apply update_size_sint_max; lia]. Qed.

Lemma twos_val_be_bytes v n : 1 <= n <= 8 -> sfits v n -> twos_val (be_bytes (Z.to_nat n) v) = v.
Proof.
  intros Hn Hf. unfold twos_val. rewrite be_val_be_bytes, be_bytes_zlen, Z2Nat.id by lia.
  unfold sfits in Hf. set (P := 256 ^ n) in *. assert (0 < P) by (apply Z.pow_pos_nonneg; lia).
  destruct (Z.lt_ge_cases v 0).
  - replace (v mod P) with (v + P) by (apply Z.mod_unique with (-1); lia).
    destruct (2 * (v + P) <? P) eqn:?; lia.
  - rewrite Z.mod_small by lia. destruct (2 * v <? P) eqn:?; lia.
Qed.

Lemma sint_render v df : is_int64 v -> 0 <= df <= 8 ->
  let ds := update_size_sint v df in
  exists bs, render_data_int true v ds df = Some bs /\ bytes_ok bs /\ zlen bs = ds /\ 1 <= ds <= 8 /\ twos_val bs = v.
Proof.
  intros Hv Hdf ds. unfold ds. rewrite update_size_sint_max by lia.
  destruct (snat_least v Hv) as (Hr & Hf & _). set (n := Z.max df (snat v)).
  assert (Hn : 1 <= n <= 8) by lia. rewrite render_data_int_ok by lia.
  eexists; split; [reflexivity|]. split; [apply be_bytes_ok|]. split; [rewrite be_bytes_zlen; lia|].
  split; [lia|]. apply twos_val_be_bytes; [lia|]. unfold sfits in *.
  assert (256 ^ snat v <= 256 ^ n) by (apply Z.pow_le_mono_r; lia). lia.
Qed.

(** Reading with an unsigned [char]. *)
Lemma top_bit_unsigned b : is_byte b -> (Z.land b 128 =? 0) = (b <? 128).
Proof.
  intros Hb. apply eqb_prop. revert b Hb. apply byte_forall. vm_compute. reflexivity.
Qed.
Lemma top_bit_signed b : is_byte b -> (Z.land (s8 b) 128 =? 0) = (b <? 128).
Proof.
  intros Hb. apply eqb_prop. revert b Hb. apply byte_forall. vm_compute. reflexivity.
Qed.

Lemma twos_val_first b bs : bytes_ok (b :: bs) ->
  twos_val (b :: bs) = (if b <? 128 then 0 else -1) * 256 ^ zlen (b :: bs) + be_val (b :: bs).
Proof.
  intros Hok. inversion Hok as [|? ? Hb Hbs]; subst. pose proof (be_val_bound bs Hbs) as Hbb.
  unfold twos_val. rewrite be_val_cons, zlen_cons. pose proof (zlen_nonneg bs).
  rewrite Z.pow_add_r by lia. change (256 ^ 1) with 256. set (P := 256 ^ zlen bs) in *.
  destruct (b <? 128) eqn:?; destruct (2 * (b * P + be_val bs) <? P * 256) eqn:?; nia.
Qed.

Lemma twos_val_range bs : bytes_ok bs -> 1 <= zlen bs <= 8 -> is_int64 (twos_val bs).
Proof.
  intros Hok Hz. unfold twos_val, is_int64. pose proof (be_val_bound bs Hok).
  assert (256 ^ zlen bs <= 256 ^ 8) by (apply Z.pow_le_mono_r; lia). change (256 ^ 8) with (2 * 2 ^ 63) in *.
  destruct (2 * be_val bs <? 256 ^ zlen bs) eqn:?; lia.
Qed.

Lemma read_sint_unsigned_char junk bs : bytes_ok bs -> 1 <= zlen bs <= 8 ->
  read_data_sint false junk bs = Some (twos_val bs).
Proof.
  intros Hok Hz. unfold read_data_sint. destruct (8 <? zlen bs) eqn:?; [lia|].
  destruct bs as [|b bs]; [cbn in Hz; lia|]. cbn [char_val].
  inversion Hok as [|? ? Hb Hbs]; subst.
  assert (Hu : u8 b = b) by (apply Z.mod_small; exact Hb). rewrite Hu, top_bit_unsigned by exact Hb.
  f_equal. change (fold_left (fun v b => s64 (Z.lor (Z.shiftl v 8) (char_val false b)))) with
    (fold_left (fun v b => s64 (Z.lor (Z.shiftl v 8) (u8 b)))).
  rewrite fold_read_int; [|assumption|destruct (b <? 128); [apply is_int64_0|apply is_int64_m1]].
  rewrite be_val_from_spec.
  replace ((if b <? 128 then 0 else -1) * 256 ^ zlen (b :: bs) + be_val (b :: bs)) with (twos_val (b :: bs))
    by (apply twos_val_first; assumption).
  apply s64_small. apply twos_val_range; assumption.
Qed.

(** Reading with a signed [char]: a byte >= 128 overwrites everything above it with ones. *)
Lemma lor_neg_byte hi b : 128 <= b < 256 -> Z.lor (hi * 256) (s8 b) = b - 256.
Proof.
  intros Hb. assert (Hs : s8 b = b - 256) by (unfold s8, s_wrap; cbn; lia).
  rewrite Hs. apply Z.bits_inj'. intros n Hn. rewrite Z.lor_spec.
  change 256 with (2 ^ 8) at 1. rewrite <- Z.shiftl_mul_pow2 by lia.
  destruct (Z.lt_ge_cases n 8).
  - rewrite Z.shiftl_spec_low by lia. reflexivity.
  - replace (Z.testbit (b - 256) n) with true; [apply orb_true_r|].
    symmetry. apply Z.testbit_true; [lia|].
    assert (256 <= 2 ^ n) by (change 256 with (2 ^ 8); apply Z.pow_le_mono_r; lia).
    replace ((b - 256) / 2 ^ n) with (-1); [reflexivity|]. apply Z.div_unique with (b - 256 + 2 ^ n); lia.
Qed.

Definition sc_step (v b : Z) : Z := s64 (Z.lor (Z.shiftl v 8) (char_val true b)).

Lemma sc_step_low v b : 0 <= b < 128 -> sc_step v b = s64 (v * 256 + b).
Proof.
  intros Hb. unfold sc_step, char_val. replace (s8 b) with b by (unfold s8, s_wrap; cbn; lia).
  rewrite shiftl_8, lor_256 by lia. reflexivity.
Qed.
Lemma sc_step_high v b : 128 <= b < 256 -> sc_step v b = b - 256.
Proof.
  intros Hb. unfold sc_step, char_val. rewrite shiftl_8, lor_neg_byte by lia. apply s64_small. red; lia.
Qed.

Lemma fold_sc_low l : Forall (fun b => 0 <= b < 128) l -> forall acc, is_int64 acc ->
  fold_left sc_step l acc = s64 (be_val_from acc l).
Proof.
  induction 1 as [|b l Hb Hl IH]; intros acc Hacc; cbn [fold_left be_val_from].
  - symmetry; apply s64_small; assumption.
  - rewrite IH by (rewrite sc_step_low by lia; apply s64_range). apply s64_congr. rewrite sc_step_low by lia.
    rewrite !be_val_from_spec. rewrite <- Z.add_mod_idemp_l by lia. rewrite <- Z.mul_mod_idemp_l by lia.
    rewrite s64_mod. rewrite Z.mul_mod_idemp_l by lia. apply Z.add_mod_idemp_l. lia.
Qed.

(** Split at the last byte with the top bit set. *)
Lemma split_last_high l : bytes_ok l ->
  Forall (fun b => 0 <= b < 128) l \/
  exists pre b post, l = pre ++ b :: post /\ 128 <= b < 256 /\ Forall (fun b => 0 <= b < 128) post.
Proof.
  induction 1 as [|b l Hb Hl IH]; [left; constructor|]. red in Hb.
  destruct IH as [IH|(pre & c & post & -> & Hc & Hp)].
  - destruct (Z.lt_ge_cases b 128).
    + left. constructor; [lia|assumption].
    + right. exists [], b, l. cbn. repeat split; auto; lia.
  - right. exists (b :: pre), c, post. auto.
Qed.

(** With a signed char the value read is the two's complement value of the suffix starting at the
    last byte whose top bit is set (of everything when there is none). *)
Lemma read_sint_signed_char junk bs : bytes_ok bs -> 1 <= zlen bs <= 8 ->
  exists pre suf, bs = pre ++ suf /\ read_data_sint true junk bs = Some (twos_val suf) /\
   ((pre = [] /\ Forall (fun b => 0 <= b < 128) bs) \/
    exists b post, suf = b :: post /\ 128 <= b /\ Forall (fun b => 0 <= b < 128) post).
Proof.
  intros Hok Hz. unfold read_data_sint. destruct (8 <? zlen bs) eqn:?; [lia|].
  change (fold_left (fun v b => s64 (Z.lor (Z.shiftl v 8) (char_val true b)))) with (fold_left sc_step).
  destruct (split_last_high bs Hok) as [Hl|(pre & b & post & -> & Hb & Hp)].
  - exists [], bs. split; [reflexivity|]. split; [|left; split; [reflexivity|assumption]].
    destruct bs as [|b bs]; [cbn in Hz; lia|]. inversion Hok as [|? ? Hb Hbs]; subst.
    inversion Hl; subst. cbn [char_val]. rewrite top_bit_signed by exact Hb.
    replace (b <? 128) with true by lia. f_equal.
    rewrite (fold_sc_low (b :: bs) Hl 0 is_int64_0). rewrite be_val_from_spec.
    replace (0 * 256 ^ zlen (b :: bs) + be_val (b :: bs)) with (twos_val (b :: bs)).
    + apply s64_small. apply twos_val_range; assumption.
    + rewrite twos_val_first by assumption. replace (b <? 128) with true by lia. reflexivity.
  - exists pre, (b :: post). split; [reflexivity|]. apply bytes_ok_app in Hok as [Hpre Hsuf].
    split; [|right; exists b, post; repeat split; auto; lia].
    f_equal. rewrite fold_left_app. cbn [fold_left]. rewrite sc_step_high by lia.
    rewrite fold_sc_low by (try assumption; red; lia). rewrite be_val_from_spec.
    rewrite zlen_app, zlen_cons in Hz. pose proof (zlen_nonneg pre). pose proof (zlen_nonneg post).
    replace ((b - 256) * 256 ^ zlen post + be_val post) with (twos_val (b :: post)).
    + apply s64_small. apply twos_val_range; [assumption|]. rewrite zlen_cons. lia.
    + rewrite twos_val_first by assumption. replace (b <? 128) with false by lia.
      rewrite be_val_cons, zlen_cons. rewrite Z.pow_add_r by lia. change (256 ^ 1) with 256. ring.
Qed.

(** Two's complement value of pre ++ suf equals that of suf only if pre is pure sign extension. *)
Lemma read_sint_signed_ok junk bs : bytes_ok bs -> 1 <= zlen bs <= 8 ->
  (forall pre b post, bs = pre ++ b :: post -> 128 <= b -> Forall (fun c => c = 255) pre) ->
  read_data_sint true junk bs = Some (twos_val bs).
Proof.
  intros Hok Hz Hpre. destruct (read_sint_signed_char junk bs Hok Hz) as (pre & suf & -> & Hread & Hc).
  rewrite Hread. f_equal. destruct Hc as [[-> _]|(b & post & -> & Hb & Hp)]; [reflexivity|].
  specialize (Hpre pre b post eq_refl Hb). apply bytes_ok_app in Hok as [Hpok Hsok]. clear - Hpre Hpok Hsok Hb.
  induction Hpre as [|c pre Hc Hpre IH]; [reflexivity|]. subst c. cbn [app].
  inversion Hpok as [|? ? Hc2 Hpok']; subst. rewrite IH by assumption.
  assert (Hok2 : bytes_ok (pre ++ b :: post)) by (apply bytes_ok_app; auto).
  rewrite twos_val_first by (constructor; [red; lia|assumption]). change (255 <? 128) with false.
  assert (exists c cs, pre ++ b :: post = c :: cs /\ 128 <= c < 256) as (c & cs & Heq & Hcc).
  { destruct pre as [|c' pre']; cbn [app].
    - exists b, post. split; [reflexivity|]. inversion Hsok as [|? ? Hx _]; red in Hx; lia.
    - inversion Hpre; subst. exists 255, (pre' ++ b :: post). split; [reflexivity|lia]. }
  rewrite Heq in *. rewrite twos_val_first by assumption. replace (c <? 128) with false by lia.
  rewrite (be_val_cons 255), (zlen_cons 255). pose proof (zlen_nonneg (c :: cs)).
  rewrite Z.pow_add_r by lia. change (256 ^ 1) with 256. ring.
Qed.

Lemma sint_signed_char_exact v df junk : is_int64 v -> 0 <= df <= 8 ->
  exists bs, render_data_int true v (update_size_sint v df) df = Some bs /\
    read_data_sint false junk bs = Some v /\
    ((forall pre b post, bs = pre ++ b :: post -> 128 <= b -> Forall (fun c => c = 255) pre) ->
     read_data_sint true junk bs = Some v).
Proof.
  intros Hv Hdf. destruct (sint_render v df Hv Hdf) as (bs & Hr & Hok & Hz & Hds & Ht).
  exists bs. split; [exact Hr|]. split; [rewrite read_sint_unsigned_char by (auto; lia); congruence|].
  intros Hpre. rewrite read_sint_signed_ok by (auto; lia). congruence.
Qed.

(** 128 needs two bytes and is read as -128. *)
Lemma sint_signed_char_wrong : exists v bs,
  is_int64 v /\ render_data_int true v (update_size_sint v 1) 1 = Some bs /\
  forall junk, read_data_sint true junk bs = Some (-128) /\ v = 128.
Proof.
  exists 128, [0; 128]. split; [red; lia|]. split; [vm_compute; reflexivity|]. intros; split; reflexivity.
Qed.

(** Zero-length data: result decided by an uninitialised byte. *)
Lemma sint_empty_indeterminate cs :
  read_data_sint cs 0 [] = Some 0 /\ read_data_sint cs 128 [] = Some (-1).
Proof. destruct cs; split; reflexivity. Qed.

(** ** Floats *)
Lemma load_be_ok m : bytes_ok m -> load_be m = be_val m.
Proof.
  induction 1 as [|b m Hb Hm IH]; [reflexivity|]. cbn [load_be]. rewrite IH, be_val_cons.
  pose proof (zlen_nonneg m). rewrite Z.shiftl_mul_pow2 by lia.
  rewrite pow256_2 by lia. apply lor_add_pow2; [lia|]. rewrite <- pow256_2 by lia. apply be_val_bound; assumption.
Qed.

Lemma mem_of_ok little n v : bytes_ok (mem_of little n v).
Proof. destruct little; cbn; [apply Forall_rev|]; apply be_bytes_ok. Qed.

Lemma render_float_bytes little ds bits : (ds = 8 \/ ds = 4) -> 0 <= bits < 256 ^ ds ->
  render_data_float little ds bits = be_bytes (Z.to_nat ds) bits.
Proof.
  intros Hds Hb. unfold render_data_float.
  assert (Hn : (if ds =? 8 then 8%nat else 4%nat) = Z.to_nat ds) by (destruct Hds; subst; reflexivity).
  rewrite Hn. rewrite load_be_ok by apply mem_of_ok. destruct little; cbn [mem_of].
  - set (m := rev (be_bytes (Z.to_nat ds) bits)).
    assert (Hm : length m = Z.to_nat ds) by (unfold m; rewrite rev_length, be_bytes_length; reflexivity).
    rewrite <- Hm. rewrite be_bytes_be_val by (apply Forall_rev, be_bytes_ok).
    rewrite Hm. unfold m. apply rev_involutive.
  - rewrite be_val_be_bytes. rewrite Z2Nat.id by lia. rewrite Z.mod_small by lia. reflexivity.
Qed.

(** The stored bytes are the big-endian IEEE pattern and are read back to the same pattern, on
    both endiannesses. *)
Lemma float_roundtrip little ds bits : (ds = 8 \/ ds = 4) -> 0 <= bits < 256 ^ ds ->
  let bs := render_data_float little ds bits in
  bytes_ok bs /\ zlen bs = ds /\ be_val bs = bits /\ read_data_float bs = Some bits.
Proof.
  intros Hds Hb bs. unfold bs. rewrite render_float_bytes by assumption.
  assert (Hz : zlen (be_bytes (Z.to_nat ds) bits) = ds) by (rewrite be_bytes_zlen; lia).
  assert (Hv : be_val (be_bytes (Z.to_nat ds) bits) = bits).
  { rewrite be_val_be_bytes, Z2Nat.id by lia. apply Z.mod_small; lia. }
  split; [apply be_bytes_ok|]. split; [exact Hz|]. split; [exact Hv|].
  unfold read_data_float. rewrite Hz. replace ((ds =? 8) || (ds =? 4)) with true by lia.
  rewrite load_be_ok by apply be_bytes_ok. rewrite Hv. reflexivity.
Qed.
