(** Proofs about formatted printing: directives and digits. *)
From Verif Require Import Base BaseProofs VintProofs Tree Arr Str StrSpec StrProofs StrProofs2 StrProofs3 Printf PrintfSpec.

(** ** Numerals *)
Lemma numeral_nonnil fuel q n : numeral (S fuel) q n <> [].
Proof. cbn [numeral]. destruct (n <? q); [discriminate|]. destruct (numeral fuel q (n / q)); discriminate. Qed.
Lemma value_snoc q ds d : value q (ds ++ [d]) = value q ds * q + d.
Proof. unfold value. rewrite fold_left_app. reflexivity. Qed.
(** The digits stand for the number, without leading zeros. *)
Lemma numeral_ok q : 1 < q -> forall fuel n, 0 <= n < q ^ Z.of_nat fuel -> value q (numeral fuel q n) = n /\ Forall (fun d => 0 <= d < q) (numeral fuel q n) /\ (1 <= n -> 1 <= hd 0 (numeral fuel q n)).
Proof.
  intros Hq. induction fuel as [|fuel IH]; intros n Hn; [change (Z.of_nat 0) with 0 in Hn; rewrite Z.pow_0_r in Hn; cbn [numeral]; split; [unfold value; cbn [fold_left]; lia|split; [constructor|lia]]|]. cbn [numeral]. destruct (Z.ltb_spec n q).
  - unfold value. cbn [fold_left hd]. split; [lia|]. split; [repeat constructor; lia|lia].
  - rewrite Nat2Z.inj_succ, Z.pow_succ_r in Hn by lia. assert (D : 0 <= n / q < q ^ Z.of_nat fuel) by (split; [apply Z.div_pos; lia|apply Z.div_lt_upper_bound; lia]).
    destruct (IH (n / q) D) as (I1 & I2 & I3). rewrite value_snoc, I1. pose proof (Z.div_mod n q ltac:(lia)). pose proof (Z.mod_pos_bound n q ltac:(lia)). split; [lia|]. split; [apply Forall_app; split; [exact I2|repeat constructor; lia]|].
    intros _. assert (1 <= n / q) by (apply Z.div_le_lower_bound; lia). specialize (I3 ltac:(lia)). destruct (numeral fuel q (n / q)); [cbn in I3; lia|exact I3].
Qed.
(** k digits, with leading zeros. *)
Fixpoint fixed (q : Z) (k : nat) (n : Z) : list Z :=
  match k with O => [] | S k => n / q ^ Z.of_nat k :: fixed q k (n mod q ^ Z.of_nat k) end.
Lemma fixed_length q k : forall n, length (fixed q k n) = k.
Proof. induction k as [|k IH]; intros n; [reflexivity|]. cbn [fixed length]. rewrite IH. reflexivity. Qed.
Lemma fixed_snoc q : 1 < q -> forall k n, 0 <= n < q ^ Z.of_nat (S k) -> fixed q (S k) n = fixed q k (n / q) ++ [n mod q].
Proof.
  intros Hq. induction k as [|k IH]; intros n Hn.
  - cbn [fixed app Z.of_nat]. change (Z.of_nat 1) with 1 in Hn. rewrite Z.pow_1_r in Hn. rewrite Z.pow_0_r, Z.div_1_r, Z.mod_small by lia. reflexivity.
  - change (fixed q (S (S k)) n) with (n / q ^ Z.of_nat (S k) :: fixed q (S k) (n mod q ^ Z.of_nat (S k))). change (fixed q (S k) (n / q)) with (n / q / q ^ Z.of_nat k :: fixed q k ((n / q) mod q ^ Z.of_nat k)).
    assert (P : 0 < q ^ Z.of_nat k) by (apply Z.pow_pos_nonneg; lia).
    assert (S' : q ^ Z.of_nat (S k) = q * q ^ Z.of_nat k) by (rewrite Nat2Z.inj_succ, Z.pow_succ_r by lia; reflexivity).
    rewrite IH by (apply Z.mod_pos_bound; apply Z.pow_pos_nonneg; lia). cbn [app]. rewrite S', Z.div_div, Z.rem_mul_r by lia.
    pose proof (Z.mod_pos_bound n q ltac:(lia)). set (u := n mod q) in *. set (v := (n / q) mod q ^ Z.of_nat k). do 2 f_equal.
    + f_equal. rewrite Z.mul_comm, Z.div_add by lia. rewrite Z.div_small by lia. reflexivity.
    + f_equal. rewrite Z.mul_comm, Z.mod_add by lia. apply Z.mod_small. lia.
Qed.
Lemma numeral_fixed q : 1 < q -> forall fuel n, 0 <= n < q ^ Z.of_nat (S fuel) -> exists j, numeral (S fuel) q n = fixed q (S j) n /\ n < q ^ Z.of_nat (S j) /\ (j = O \/ q ^ Z.of_nat j <= n).
Proof.
  intros Hq. induction fuel as [|fuel IH]; intros n Hn.
  - exists O. change (Z.of_nat 1) with 1 in *. rewrite Z.pow_1_r in *. cbn [numeral fixed Z.of_nat]. replace (n <? q) with true by lia. rewrite Z.pow_0_r, Z.div_1_r. split; [reflexivity|]. split; [lia|left; reflexivity].
  - change (numeral (S (S fuel)) q n) with (if n <? q then [n] else numeral (S fuel) q (n / q) ++ [n mod q]). destruct (Z.ltb_spec n q).
    + exists O. cbn [fixed Z.of_nat]. change (Z.of_nat 1) with 1 in *. rewrite Z.pow_1_r, Z.pow_0_r, Z.div_1_r. split; [reflexivity|]. split; [lia|left; reflexivity].
    + rewrite Nat2Z.inj_succ, Z.pow_succ_r in Hn by lia. assert (D : 0 <= n / q < q ^ Z.of_nat (S fuel)) by (split; [apply Z.div_pos; lia|apply Z.div_lt_upper_bound; lia]).
      destruct (IH (n / q) D) as (j & E & H1 & H2). exists (S j). rewrite E.
      assert (S1 : forall j, q ^ Z.of_nat (S j) = q * q ^ Z.of_nat j) by (intros; rewrite Nat2Z.inj_succ, Z.pow_succ_r by lia; reflexivity).
      assert (U : n < q ^ Z.of_nat (S (S j))). { rewrite S1. pose proof (Z.div_mod n q ltac:(lia)). pose proof (Z.mod_pos_bound n q ltac:(lia)). nia. }
      split; [symmetry; apply fixed_snoc; lia|]. split; [exact U|]. right. destruct H2 as [->|H2]; [change (Z.of_nat 1) with 1; rewrite Z.pow_1_r; lia|]. rewrite S1. pose proof (Z.div_mod n q ltac:(lia)). pose proof (Z.mod_pos_bound n q ltac:(lia)). nia.
Qed.
Lemma fixed_zeros q : 1 < q -> forall k j n, 0 <= n < q ^ Z.of_nat j -> fixed q (k + j) n = repeat 0 k ++ fixed q j n.
Proof.
  intros Hq. induction k as [|k IH]; intros j n Hn; [reflexivity|]. cbn [Nat.add fixed repeat app].
  assert (L : q ^ Z.of_nat j <= q ^ Z.of_nat (k + j)) by (apply Z.pow_le_mono_r; lia). rewrite Z.div_small, Z.mod_small by lia. f_equal. apply IH. exact Hn.
Qed.

(** ** Emission *)
Definition room (cap : Z) (s : pst) : Prop := p_len s = cap - zlen (p_out s) /\ 1 <= p_len s < 2 ^ 64.
(** Writing what fits. *)
Definition emit (s : pst) (cs : list Z) : pst := let k := firstn (Z.to_nat (p_len s - 1)) cs in Pst (p_out s ++ k) (p_len s - zlen k).
Lemma emit_room cap s cs : room cap s -> room cap (emit s cs).
Proof. intros [H1 H2]. unfold room, emit. cbn [p_out p_len]. rewrite zlen_app. assert (zlen (firstn (Z.to_nat (p_len s - 1)) cs) <= p_len s - 1) by (unfold zlen; rewrite firstn_length; lia). pose proof (zlen_nonneg (firstn (Z.to_nat (p_len s - 1)) cs)). lia. Qed.
Lemma emit_nil s : emit s [] = s.
Proof. unfold emit. rewrite firstn_nil, app_nil_r. change (zlen (@nil Z)) with 0. rewrite Z.sub_0_r. destruct s; reflexivity. Qed.
Lemma emit_app s a b : 1 <= p_len s -> emit (emit s a) b = emit s (a ++ b).
Proof.
  intros H. unfold emit. cbn [p_out p_len]. set (n := Z.to_nat (p_len s - 1)). rewrite firstn_app.
  replace (Z.to_nat (p_len s - zlen (firstn n a) - 1)) with (n - length a)%nat by (unfold zlen, n; rewrite firstn_length; lia). rewrite <- app_assoc, zlen_app. f_equal. lia.
Qed.
Lemma emit_cut s a : p_len s = 1 -> emit s a = s.
Proof. intros H. unfold emit. rewrite H. cbn [Z.to_nat Z.sub firstn]. change (Z.to_nat (1 - 1)) with O. cbn [firstn]. rewrite app_nil_r. change (zlen (@nil Z)) with 0. rewrite <- H, Z.sub_0_r. destruct s; reflexivity. Qed.
Lemma puts_ok cap s cs : room cap s -> zlen cs < p_len s -> puts cap s cs = Ok (emit s cs).
Proof.
  intros [H1 H2] L. unfold puts, emit. replace (zlen (p_out s) + zlen cs <=? cap) with true by lia. rewrite firstn_all2 by (unfold zlen in *; lia). do 2 f_equal. unfold u64. pose proof (zlen_nonneg cs). apply Z.mod_small. lia.
Qed.
Lemma puts1 cap s c : room cap s -> 1 < p_len s -> puts cap s [c] = Ok (emit s [c]).
Proof. intros. apply puts_ok; [assumption|]. change (zlen [c]) with 1. lia. Qed.
Lemma firstn_repeat {A} (x : A) n : forall k, firstn n (repeat x k) = repeat x (Nat.min n k).
Proof. induction n as [|n IH]; intros [|k]; cbn [repeat firstn Nat.min]; [reflexivity..|]. rewrite IH. reflexivity. Qed.
Lemma blanks_ok cap w s : room cap s -> blanks cap w s = Ok (emit s (blank w)).
Proof.
  intros R. unfold blanks. rewrite puts_ok.
  - unfold emit, blank. rewrite !firstn_repeat. replace (Nat.min (Z.to_nat (p_len s - 1)) (Z.to_nat (Z.min w (p_len s - 1)))) with (Nat.min (Z.to_nat (p_len s - 1)) (Z.to_nat w)) by lia. reflexivity.
  - exact R.
  - destruct R as [_ R]. unfold zlen. rewrite repeat_length. lia.
Qed.

(** ** Digits *)
(** What the loop writes when there is room. *)
Fixpoint dstr (q : Z) (up : bool) (k : nat) (v : Z) (sign zf : bool) : list Z :=
  match k with
  | O => []
  | S k =>
      let i := v / q ^ Z.of_nat k in
      let minus := sign && ((match k with O => true | _ => false end) || zf || (0 <? i)) in
      (if minus then [45] else []) ++
      (if (i =? 0) && negb zf && negb (match k with O => true | _ => false end) then 32 :: dstr q up k (v mod q ^ Z.of_nat k) (sign && negb minus) false
       else digit_char up i :: dstr q up k (v mod q ^ Z.of_nat k) (sign && negb minus) true)
  end.
Lemma dchar_ok (up : bool) i : 0 <= i < 16 -> u8 (if 10 <=? i then i + (if up then 55 else 87) else i + 48) = digit_char up i.
Proof. intros H. unfold digit_char, u8. destruct up, (Z.leb_spec 10 i), (Z.ltb_spec i 10); try lia; rewrite Z.mod_small by lia; lia. Qed.
Definition wwof (q : Z) (k : nat) : Z := match k with O => 0 | S k => q ^ Z.of_nat k end.
Lemma digits_full cap q (up : bool) : 1 < q <= 16 -> forall k fuel v (sign zf : bool) s, (k < fuel)%nat -> 0 <= v < q ^ Z.of_nat k -> q ^ Z.of_nat k < 2 ^ 62 -> room cap s ->
  digits fuel cap q up (wwof q k) v sign zf s = Ok (emit s (dstr q up k v sign zf)).
Proof.
  intros Hq. induction k as [|k IH]; intros fuel v sign zf s Hf Hv Hb R; (destruct fuel as [|fuel]; [lia|]).
  - cbn [digits wwof dstr]. rewrite emit_nil. reflexivity.
  - cbn [digits wwof]. set (ww := q ^ Z.of_nat k) in *.
    assert (S1 : q ^ Z.of_nat (S k) = q * ww) by (unfold ww; rewrite Nat2Z.inj_succ, Z.pow_succ_r by lia; reflexivity). rewrite S1 in *.
    assert (Pw : 0 < ww) by (apply Z.pow_pos_nonneg; lia). replace (0 <? ww) with true by lia.
    assert (Hi : 0 <= v / ww < q) by (split; [apply Z.div_pos; lia|apply Z.div_lt_upper_bound; lia]).
    rewrite Z.quot_div_nonneg by lia. unfold u32. rewrite (Z.mod_small (v / ww)) by lia.
    assert (Hm : v - v / ww * ww = v mod ww) by (pose proof (Z.div_mod v ww ltac:(lia)); lia). rewrite Hm. pose proof (Z.mod_pos_bound v ww Pw) as Hmb.
    assert (Es : s64 (v mod ww) = v mod ww) by (unfold s64, s_wrap; rewrite Z.mod_small by (change (2 ^ (64 - 1)) with (2 * 2 ^ 62); change (2 ^ 64) with (4 * 2 ^ 62); nia); lia). rewrite Es.
    assert (Eq1 : Z.quot ww q = wwof q k). { unfold ww. destruct k as [|k']; cbn [wwof]; [rewrite Z.pow_0_r; apply Z.quot_small; lia|]. rewrite Nat2Z.inj_succ, Z.pow_succ_r by lia. rewrite Z.mul_comm, Z.quot_mul by lia. reflexivity. }
    assert (Ew : (ww =? 1) = match k with O => true | _ => false end). { unfold ww. destruct k as [|k']; [reflexivity|]. apply Z.eqb_neq. assert (q ^ 1 <= q ^ Z.of_nat (S k')) by (apply Z.pow_le_mono_r; lia). rewrite Z.pow_1_r in H. lia. }
    rewrite Eq1, Ew. cbn [dstr]. fold ww. set (i := v / ww) in *. set (k0 := match k with O => true | _ => false end).
    pose proof R as [R1 R2].
    assert (STEP : forall sg z t, room cap t -> digits fuel cap q up (wwof q k) (v mod ww) sg z t = Ok (emit t (dstr q up k (v mod ww) sg z))).
    { intros sg z t Rt. apply IH; [lia|exact Hmb|nia|exact Rt]. }
    set (want := sign && (k0 || zf || (0 <? i))).
    destruct (Z.ltb_spec 1 (p_len s)) as [L|L].
    + replace (true && sign && (k0 || zf || (0 <? i))) with want by (unfold want; destruct sign; reflexivity).
      assert (E1 : (if want then puts cap s [45] else Ok s) = Ok (emit s (if want then [45] else []))) by (destruct want; [apply puts1; assumption|rewrite emit_nil; reflexivity]).
      rewrite E1. cbn [bind]. set (s1 := emit s (if want then [45] else [])). assert (R' : room cap s1) by (apply emit_room; exact R).
      destruct (Z.ltb_spec 1 (p_len s1)) as [L1|L1].
      * destruct ((i =? 0) && negb zf && negb k0) eqn:B.
        -- rewrite puts1 by assumption. cbn [bind fst snd]. rewrite STEP by (apply emit_room; exact R'). f_equal. replace zf with false by (destruct zf; [rewrite andb_comm in B; cbn in B; rewrite ?andb_false_r in B; discriminate|reflexivity]).
           unfold s1. rewrite !emit_app by (destruct R'; unfold s1 in *; lia || (cbn; lia)). try rewrite <- app_assoc. reflexivity.
        -- rewrite dchar_ok by lia. rewrite puts1 by assumption. cbn [bind fst snd]. rewrite STEP by (apply emit_room; exact R'). f_equal. unfold s1. rewrite !emit_app by (destruct R'; unfold s1 in *; lia). try rewrite <- app_assoc. reflexivity.
      * cbn [bind fst snd]. rewrite STEP by exact R'. f_equal. destruct R' as [_ R']. assert (C : p_len s1 = 1) by lia. rewrite emit_cut by exact C. rewrite <- (emit_app s) by lia. fold s1. rewrite emit_cut by exact C. reflexivity.
    + cbn [andb]. cbn [bind]. replace (1 <? p_len s) with false by lia. cbn [bind fst snd]. rewrite STEP by exact R. f_equal. rewrite !emit_cut by lia. reflexivity.
Qed.
