(** Lemmas about Base. *)
From Verif Require Import Base.

Lemma zlen_nil {A} : zlen (@nil A) = 0. Proof. reflexivity. Qed.
Lemma zlen_cons {A} (x : A) l : zlen (x :: l) = zlen l + 1.
Proof. unfold zlen; cbn [length]; lia. Qed.
Lemma zlen_app {A} (l l' : list A) : zlen (l ++ l') = zlen l + zlen l'.
Proof. unfold zlen; rewrite app_length; lia. Qed.
Lemma zlen_nonneg {A} (l : list A) : 0 <= zlen l.
Proof. unfold zlen; lia. Qed.
Lemma zlen_rev {A} (l : list A) : zlen (rev l) = zlen l.
Proof. unfold zlen; rewrite rev_length; reflexivity. Qed.
Lemma zlen_map {A B} (f : A -> B) l : zlen (map f l) = zlen l.
Proof. unfold zlen; rewrite map_length; reflexivity. Qed.
Lemma zlen_repeat {A} (x : A) n : zlen (repeat x n) = Z.of_nat n.
Proof. unfold zlen; rewrite repeat_length; reflexivity. Qed.
Lemma zlen_zero {A} (l : list A) : zlen l = 0 -> l = [].
Proof. destruct l; [reflexivity|]. rewrite zlen_cons. pose proof (zlen_nonneg l). lia. Qed.

Lemma land_255 x : Z.land x 255 = x mod 256.
Proof. change 255 with (Z.ones 8). rewrite Z.land_ones by lia. reflexivity. Qed.
Lemma shiftr_8 x : Z.shiftr x 8 = x / 256.
Proof. rewrite Z.shiftr_div_pow2 by lia. reflexivity. Qed.
Lemma shiftl_8 x : Z.shiftl x 8 = x * 256.
Proof. rewrite Z.shiftl_mul_pow2 by lia. reflexivity. Qed.

(** OR of disjoint parts is addition. *)
Lemma testbit_above lo k n : 0 <= lo < 2 ^ k -> k <= n -> Z.testbit lo n = false.
Proof.
  intros Hlo Hn. destruct (Z.lt_ge_cases k 0).
  - rewrite Z.pow_neg_r in Hlo by lia. lia.
  - rewrite Z.testbit_false by lia. rewrite Z.div_small; [reflexivity|].
    split; [lia|]. apply Z.lt_le_trans with (2 ^ k); [lia|]. apply Z.pow_le_mono_r; lia.
Qed.

Lemma lor_add_pow2 hi lo k : 0 <= k -> 0 <= lo < 2 ^ k ->
  Z.lor (hi * 2 ^ k) lo = hi * 2 ^ k + lo.
Proof.
  intros Hk Hlo. rewrite <- Z.shiftl_mul_pow2 by lia.
  assert (H : Z.land (Z.shiftl hi k) lo = 0).
  { apply Z.bits_inj'; intros n Hn. rewrite Z.land_spec, Z.bits_0.
    destruct (Z.lt_ge_cases n k).
    - rewrite Z.shiftl_spec_low by lia. reflexivity.
    - rewrite (testbit_above lo k n) by lia. apply andb_false_r. }
  rewrite Z.add_nocarry_lxor by exact H. symmetry. apply Z.lxor_lor. exact H.
Qed.

Lemma lor_256 hi lo : 0 <= lo < 256 -> Z.lor (hi * 256) lo = hi * 256 + lo.
Proof. intros. change 256 with (2 ^ 8). apply lor_add_pow2; lia. Qed.

Lemma be_val_from_app acc l l' :
  be_val_from acc (l ++ l') = be_val_from (be_val_from acc l) l'.
Proof. revert acc; induction l as [|b l IH]; intros; cbn; auto. Qed.

Lemma be_val_from_spec l : forall acc,
  be_val_from acc l = acc * 256 ^ zlen l + be_val l.
Proof.
  induction l as [|b l IH]; intros; cbn [be_val_from].
  - rewrite zlen_nil. change (256 ^ 0) with 1. change (be_val []) with 0. lia.
  - change (be_val (b :: l)) with (be_val_from (0 * 256 + b) l).
    rewrite (IH (acc * 256 + b)), (IH (0 * 256 + b)). rewrite zlen_cons.
    rewrite Z.pow_add_r by (pose proof (zlen_nonneg l); lia). change (256 ^ 1) with 256. ring.
Qed.

Lemma be_val_nil : be_val [] = 0. Proof. reflexivity. Qed.
Lemma be_val_cons b l : be_val (b :: l) = b * 256 ^ zlen l + be_val l.
Proof. unfold be_val at 1; cbn [be_val_from]. rewrite be_val_from_spec. lia. Qed.
Lemma be_val_app l l' : be_val (l ++ l') = be_val l * 256 ^ zlen l' + be_val l'.
Proof. unfold be_val at 1. rewrite be_val_from_app. apply be_val_from_spec. Qed.
Lemma be_val_snoc l b : be_val (l ++ [b]) = be_val l * 256 + b.
Proof. rewrite be_val_app. unfold be_val at 2. cbn. reflexivity. Qed.

Lemma pow256_pos n : 0 < 256 ^ zlen (A:=Z) n.
Proof. apply Z.pow_pos_nonneg; [lia|apply zlen_nonneg]. Qed.

Lemma be_val_bound l : bytes_ok l -> 0 <= be_val l < 256 ^ zlen l.
Proof.
  induction 1 as [|b l Hb Hl IH].
  - cbn. lia.
  - rewrite be_val_cons, zlen_cons. rewrite Z.pow_add_r by (pose proof (zlen_nonneg l); lia).
    unfold is_byte in Hb. nia.
Qed.

Lemma be_bytes_length n v : length (be_bytes n v) = n.
Proof. revert v; induction n; intros; cbn; [reflexivity|]. rewrite app_length, IHn. cbn. lia. Qed.
Lemma be_bytes_zlen n v : zlen (be_bytes n v) = Z.of_nat n.
Proof. unfold zlen. rewrite be_bytes_length. reflexivity. Qed.

Lemma be_bytes_ok n v : bytes_ok (be_bytes n v).
Proof.
  revert v; induction n; intros; cbn; [constructor|].
  apply Forall_app; split; [apply IHn|]. constructor; [red; lia|constructor].
Qed.

Lemma be_val_be_bytes n : forall v, be_val (be_bytes n v) = v mod 256 ^ Z.of_nat n.
Proof.
  induction n; intros v; cbn [be_bytes].
  - rewrite Z.mod_1_r. reflexivity.
  - rewrite be_val_snoc, IHn.
    replace (Z.of_nat (S n)) with (Z.of_nat n + 1) by lia.
    assert (Hp : 0 < 256 ^ Z.of_nat n) by (apply Z.pow_pos_nonneg; lia).
    rewrite Z.pow_add_r by lia. change (256 ^ 1) with 256.
    rewrite (Z.mul_comm (256 ^ Z.of_nat n) 256), Z.rem_mul_r by lia. ring.
Qed.

Lemma be_bytes_be_val l : bytes_ok l -> be_bytes (length l) (be_val l) = l.
Proof.
  induction l as [|b l IH] using rev_ind; intros Hok; [reflexivity|].
  apply Forall_app in Hok as [Hl Hb]. inversion Hb as [|? ? Hb' _]; subst.
  rewrite app_length. cbn [length]. replace (length l + 1)%nat with (S (length l)) by lia.
  cbn [be_bytes]. rewrite be_val_snoc. red in Hb'.
  replace ((be_val l * 256 + b) / 256) with (be_val l) by lia.
  replace ((be_val l * 256 + b) mod 256) with b by lia.
  rewrite IH; auto.
Qed.

Lemma be_val_inj l l' : bytes_ok l -> bytes_ok l' -> length l = length l' ->
  be_val l = be_val l' -> l = l'.
Proof.
  intros H H' Hlen Hv. rewrite <- (be_bytes_be_val l H), <- (be_bytes_be_val l' H').
  rewrite Hlen, Hv. reflexivity.
Qed.

Lemma is_byteb_spec b : is_byteb b = true <-> is_byte b.
Proof. unfold is_byteb, is_byte. lia. Qed.

Lemma bytes_ok_app l l' : bytes_ok (l ++ l') <-> bytes_ok l /\ bytes_ok l'.
Proof. unfold bytes_ok. apply Forall_app. Qed.
Lemma bytes_ok_firstn n l : bytes_ok l -> bytes_ok (firstn n l).
Proof. intros H. rewrite <- (firstn_skipn n l) in H. apply bytes_ok_app in H. tauto. Qed.
Lemma bytes_ok_skipn n l : bytes_ok l -> bytes_ok (skipn n l).
Proof. intros H. rewrite <- (firstn_skipn n l) in H. apply bytes_ok_app in H. tauto. Qed.

Lemma bytes_ok_forallb l : forallb is_byteb l = true -> bytes_ok l.
Proof.
  intros H. apply Forall_forall. intros x Hx. apply is_byteb_spec.
  rewrite forallb_forall in H. auto.
Qed.

Lemma some_inj {A} (x y : A) : Some x = Some y -> x = y.
Proof. congruence. Qed.
