From Verif Require Import Base BaseProofs VintProofs EbmlId EbmlIdSpec.

Lemma land_high_mask id k : 0 <= id < 2 ^ 32 -> 0 <= k <= 32 ->
  (Z.land id (2 ^ 32 - 2 ^ k) = 0 <-> id < 2 ^ k).
Proof.
  intros Hid Hk.
  assert (Hm : 2 ^ 32 - 2 ^ k = Z.shiftl (Z.ones (32 - k)) k).
  { rewrite Z.shiftl_mul_pow2, Z.ones_equiv by lia.
    rewrite Z.mul_pred_l, <- Z.pow_add_r by lia. f_equal. f_equal. lia. }
  assert (Hp : 0 < 2 ^ k) by (apply Z.pow_pos_nonneg; lia).
  assert (He : Z.land id (2 ^ 32 - 2 ^ k) = id / 2 ^ k * 2 ^ k).
  { rewrite Hm. apply Z.bits_inj'. intros n Hn. rewrite Z.land_spec.
    rewrite <- Z.shiftl_mul_pow2 by lia. rewrite !Z.shiftl_spec by lia.
    destruct (Z.lt_ge_cases n k).
    - rewrite !(Z.testbit_neg_r _ (n - k)) by lia. apply andb_false_r.
    - rewrite <- Z.shiftr_div_pow2 by lia. rewrite Z.shiftr_spec by lia.
      replace (n - k + k) with n by lia.
      destruct (Z.lt_ge_cases (n - k) (32 - k)).
      + rewrite Z.ones_spec_low by lia. apply andb_true_r.
      + rewrite Z.ones_spec_high by lia. rewrite (testbit_above id 32 n) by lia. reflexivity. }
  rewrite He. split; intros H.
  - assert (id / 2 ^ k = 0) by nia. apply Z.div_small_iff in H0; lia.
  - rewrite Z.div_small by lia. lia.
Qed.

Lemma get_id_length_ok id n : valid_id_len id n -> get_id_length id = n.
Proof.
  intros [Hn Hid]. unfold get_id_length.
  assert (H32 : 0 <= id < 2 ^ 32).
  { assert (0 < 2 ^ (7 * n)) by (apply Z.pow_pos_nonneg; lia).
    assert (2 ^ (7 * n + 1) <= 2 ^ 32) by (apply Z.pow_le_mono_r; lia). lia. }
  pose proof (land_high_mask id 8 H32 ltac:(lia)) as H8.
  pose proof (land_high_mask id 16 H32 ltac:(lia)) as H16.
  pose proof (land_high_mask id 24 H32 ltac:(lia)) as H24.
  change (2 ^ 32 - 2 ^ 8) with 4294967040 in H8. change (2 ^ 32 - 2 ^ 16) with 4294901760 in H16.
  change (2 ^ 32 - 2 ^ 24) with 4278190080 in H24.
  change (2 ^ 8) with 256 in H8. change (2 ^ 16) with 65536 in H16. change (2 ^ 24) with 16777216 in H24.
  assert (n = 1 \/ n = 2 \/ n = 3 \/ n = 4) as [->|[->|[->| ->]]] by lia; cbn in Hid;
  destruct (Z.land id 4294967040 =? 0) eqn:?, (Z.land id 4294901760 =? 0) eqn:?,
    (Z.land id 4278190080 =? 0) eqn:?; lia.
Qed.

Lemma fill_id_loop_ok n : forall i id acc, fill_id_loop i n id acc = be_bytes n (id / 256 ^ Z.of_nat i) ++ acc.
Proof.
  induction n; intros; cbn [fill_id_loop be_bytes]; [reflexivity|].
  rewrite IHn, <- app_assoc. cbn [app].
  assert (0 < 256 ^ Z.of_nat i) by (apply Z.pow_pos_nonneg; lia).
  f_equal.
  - f_equal. replace (Z.of_nat (S i)) with (Z.of_nat i + 1) by lia.
    rewrite Z.pow_add_r by lia. rewrite Z.div_div by lia. reflexivity.
  - f_equal. unfold u8. change (2 ^ 8) with 256. rewrite Z.shiftl_mul_pow2 by lia. change (2 ^ 3) with 8.
    rewrite Z.shiftr_div_pow2 by lia. rewrite pow256_2 by lia. f_equal. f_equal. f_equal. lia.
Qed.

Lemma fill_buffer_id_ok id n bufsize : valid_id_len id n -> n <= bufsize ->
  id_encodes (fill_buffer_id bufsize id) id /\ zlen (fill_buffer_id bufsize id) = n.
Proof.
  intros Hv Hb. pose proof Hv as [Hn Hid]. unfold fill_buffer_id. rewrite (get_id_length_ok id n Hv).
  destruct (bufsize <? n) eqn:E; [lia|]. rewrite fill_id_loop_ok, app_nil_r.
  change (256 ^ Z.of_nat 0) with 1. rewrite Z.div_1_r.
  assert (Hz : zlen (be_bytes (Z.to_nat n) id) = n) by (rewrite be_bytes_zlen; lia).
  split; [|exact Hz]. unfold id_encodes. rewrite Hz.
  split; [apply be_bytes_ok|]. split; [exact Hv|]. rewrite be_val_be_bytes.
  rewrite Z2Nat.id by lia. apply Z.mod_small.
  assert (0 < 2 ^ (7 * n)) by (apply Z.pow_pos_nonneg; lia).
  rewrite pow256_2 by lia. assert (2 ^ (7 * n + 1) <= 2 ^ (8 * n)) by (apply Z.pow_le_mono_r; lia). lia.
Qed.

Lemma id_first_byte b0 bs id : id_encodes (b0 :: bs) id ->
  2 ^ (8 - zlen (b0 :: bs)) <= b0 < 2 ^ (9 - zlen (b0 :: bs)).
Proof.
  intros (Hok & (Hn & Hid) & Hval). inversion Hok as [|? ? Hb0 Hbs]; subst.
  rewrite be_val_cons in Hid. pose proof (be_val_bound bs Hbs) as Hbb. rewrite zlen_cons in *.
  pose proof (zlen_nonneg bs). set (m := zlen bs) in *. rewrite pow256_2 in * by lia.
  replace (7 * (m + 1) + 1) with (8 * m + (9 - (m + 1))) in Hid by lia.
  replace (7 * (m + 1)) with (8 * m + (8 - (m + 1))) in Hid by lia.
  rewrite !pow_split in Hid by lia. set (B := 2 ^ (8 * m)) in *.
  assert (0 < B) by (apply Z.pow_pos_nonneg; lia). nia.
Qed.

Lemma byte_bits b0 : is_byte b0 ->
  (Z.land b0 128 =? 0) = (b0 <? 128) /\
  (b0 < 128 -> (Z.land b0 64 =? 0) = (b0 <? 64)) /\
  (b0 < 64 -> (Z.land b0 32 =? 0) = (b0 <? 32)) /\
  (b0 < 32 -> (Z.land b0 16 =? 0) = (b0 <? 16)).
Proof.
  intros Hb.
  assert (H : (Bool.eqb (Z.land b0 128 =? 0) (b0 <? 128) &&
    (if b0 <? 128 then Bool.eqb (Z.land b0 64 =? 0) (b0 <? 64) else true) &&
    (if b0 <? 64 then Bool.eqb (Z.land b0 32 =? 0) (b0 <? 32) else true) &&
    (if b0 <? 32 then Bool.eqb (Z.land b0 16 =? 0) (b0 <? 16) else true)) = true).
  { revert b0 Hb. apply byte_forall. vm_compute. reflexivity. }
  apply andb_prop in H as [H H4]. apply andb_prop in H as [H H3]. apply andb_prop in H as [H1 H2].
  apply eqb_prop in H1. repeat split; intros; auto.
  - replace (b0 <? 128) with true in H2 by lia. apply eqb_prop; exact H2.
  - replace (b0 <? 64) with true in H3 by lia. apply eqb_prop; exact H3.
  - replace (b0 <? 32) with true in H4 by lia. apply eqb_prop; exact H4.
Qed.

Lemma fourccbe_ok a b c d : is_byte a -> is_byte b -> is_byte c -> is_byte d ->
  fourccbe a b c d = be_val [a; b; c; d].
Proof.
  intros Ha Hb Hc Hd. unfold fourccbe, is_byte in *.
  rewrite !Z.shiftl_mul_pow2 by lia.
  rewrite (lor_add_pow2 a (b * 2 ^ 16) 24) by lia.
  replace (a * 2 ^ 24 + b * 2 ^ 16) with ((a * 256 + b) * 2 ^ 16) by ring.
  rewrite (lor_add_pow2 (a * 256 + b) (c * 2 ^ 8) 16) by lia.
  replace ((a * 256 + b) * 2 ^ 16 + c * 2 ^ 8) with (((a * 256 + b) * 256 + c) * 2 ^ 8) by ring.
  rewrite (lor_add_pow2 _ d 8) by lia.
  change (be_val [a; b; c; d]) with ((((0 * 256 + a) * 256 + b) * 256 + c) * 256 + d). ring.
Qed.

Lemma id_list_cases bs id : id_encodes bs id ->
  (exists a, bs = [a]) \/ (exists a b, bs = [a; b]) \/ (exists a b c, bs = [a; b; c]) \/
  (exists a b c d, bs = [a; b; c; d]).
Proof.
  intros (_ & (Hn & _) & _). unfold zlen in Hn.
  destruct bs as [|a [|b [|c [|d [|e bs]]]]]; cbn [length] in Hn; try lia; eauto 10.
Qed.

Lemma byte0 : is_byte 0. Proof. red; lia. Qed.

Lemma id_from_buffer_ok bs id rest : id_encodes bs id -> id_from_buffer (bs ++ rest) (zlen bs) = Some id.
Proof.
  intros H. pose proof H as (Hok & _ & <-). pose proof byte0 as H0.
  destruct (id_list_cases _ _ H) as [[a ->]|[[a [b ->]]|[[a [b [c ->]]]|[a [b [c [d ->]]]]]]];
  unfold id_from_buffer; cbn [app rd nth_error zlen length Z.of_nat Pos.of_succ_nat Pos.succ Z.eqb Pos.eqb];
  repeat match goal with H : bytes_ok _ |- _ => inversion H; clear H; subst
    | H : Forall _ (_ :: _) |- _ => inversion H; clear H; subst end;
  rewrite fourccbe_ok by assumption; reflexivity.
Qed.

Lemma buffer_to_id_ok bs id rest : id_encodes bs id -> buffer_to_id (bs ++ rest) = Some id.
Proof.
  intros H. pose proof H as (Hok & (Hn & Hv) & <-).
  assert (H32 : be_val bs < 2 ^ 32).
  { assert (2 ^ (7 * zlen bs + 1) <= 2 ^ 32) by (apply Z.pow_le_mono_r; lia). lia. }
  assert (Hpos : 0 <= be_val bs) by (apply be_val_bound; assumption).
  destruct (id_list_cases _ _ H) as [[a ->]|[[a [b ->]]|[[a [b [c ->]]]|[a [b [c [d ->]]]]]]];
  pose proof (id_first_byte _ _ _ H) as Hf; cbn in Hf;
  assert (Ha : is_byte a) by (inversion Hok; assumption);
  destruct (byte_bits a Ha) as (B1 & B2 & B3 & B4);
  unfold buffer_to_id; cbn [app rd nth_error].
  - rewrite B1. replace (a <? 128) with false by lia. cbn [negb]. f_equal. unfold u32.
    change (be_val [a]) with (0 * 256 + a) in *. rewrite Z.mod_small; lia.
  - rewrite B1. replace (a <? 128) with true by lia. cbn [negb]. rewrite B2 by lia.
    replace (a <? 64) with false by lia. cbn [negb]. f_equal. rewrite Z.shiftl_mul_pow2 by lia. unfold u32.
    change (be_val [a; b]) with ((0 * 256 + a) * 256 + b) in *. change (2 ^ 8) with 256. rewrite Z.mod_small; lia.
  - rewrite B1. replace (a <? 128) with true by lia. cbn [negb]. rewrite B2 by lia.
    replace (a <? 64) with true by lia. cbn [negb]. rewrite B3 by lia. replace (a <? 32) with false by lia.
    cbn [negb]. f_equal. rewrite !Z.shiftl_mul_pow2 by lia. unfold u32.
    change (be_val [a; b; c]) with (((0 * 256 + a) * 256 + b) * 256 + c) in *.
    change (2 ^ 8) with 256. change (2 ^ 16) with 65536. rewrite Z.mod_small; lia.
  - rewrite B1. replace (a <? 128) with true by lia. cbn [negb]. rewrite B2 by lia.
    replace (a <? 64) with true by lia. cbn [negb]. rewrite B3 by lia. replace (a <? 32) with true by lia.
    cbn [negb]. rewrite B4 by lia. replace (a <? 16) with false by lia. cbn [negb].
    f_equal. rewrite !Z.shiftl_mul_pow2 by lia. unfold u32.
    change (be_val [a; b; c; d]) with ((((0 * 256 + a) * 256 + b) * 256 + c) * 256 + d) in *.
    change (2 ^ 8) with 256. change (2 ^ 16) with 65536. change (2 ^ 24) with 16777216.
    rewrite Z.mod_small; lia.
Qed.

(** Two ID encodings, one a prefix of the other's continuation, are the same. *)
Lemma id_prefix_free bs bs' id id' rest rest' : id_encodes bs id -> id_encodes bs' id' ->
  bs ++ rest = bs' ++ rest' -> bs = bs' /\ id = id'.
Proof.
  intros H H' Heq.
  pose proof (buffer_to_id_ok bs id rest H) as E1. pose proof (buffer_to_id_ok bs' id' rest' H') as E2.
  rewrite Heq, E2 in E1. apply some_inj in E1. split; [|auto].
  destruct H as (Hok & Hv & Hb), H' as (Hok' & Hv' & Hb').
  apply be_val_inj; auto; [|congruence].
  pose proof (get_id_length_ok _ _ Hv) as L1. pose proof (get_id_length_ok _ _ Hv') as L2.
  rewrite E1, L1 in L2. unfold zlen in L2. lia.
Qed.

Lemma id_roundtrip id n bufsize rest : valid_id_len id n -> n <= bufsize ->
  let bs := fill_buffer_id bufsize id in
  zlen bs = n /\ get_id_length id = n /\ buffer_to_id (bs ++ rest) = Some id /\
  id_from_buffer (bs ++ rest) n = Some id.
Proof.
  intros Hv Hb bs. destruct (fill_buffer_id_ok id n bufsize Hv Hb) as [He Hz]. fold bs in He, Hz.
  split; [exact Hz|]. split; [apply get_id_length_ok; exact Hv|]. split; [apply buffer_to_id_ok; exact He|].
  rewrite <- Hz. apply id_from_buffer_ok. exact He.
Qed.
