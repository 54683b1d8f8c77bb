(** Proofs about fractions in text. *)
From Verif Require Import Base BaseProofs IntEltProofs Tree Arr Str StrSpec StrProofs Printf PrintfSpec PrintfProofs PrintfProofs3 Scan ScanSpec ScanProofs ScanProofs2 Expr ExprSpec ExprProofs ExprProofs2.

Lemma euclid_ok : forall k n a b, (2 * k <= n)%nat -> 0 <= a < b -> b < 2 ^ Z.of_nat k -> euclid n a b = (Z.gcd a b, true).
Proof.
  induction k as [|k IH]; intros n a b Hn Hab Hb; [change (2 ^ Z.of_nat 0) with 1 in Hb; lia|]. destruct n as [|[|n]]; [lia|lia|]. cbn [euclid]. destruct (Z.ltb_spec 0 a) as [Ha|Ha].
  - replace (0 <? b) with true by lia. cbn [andb]. rewrite Z.rem_mod_nonneg by lia. rewrite <- (Z.gcd_mod b a) by lia. rewrite (Z.gcd_comm (b mod a) a). pose proof (Z.mod_pos_bound b a Ha) as M.
    replace (0 <? a) with true by lia. rewrite Bool.andb_true_r. destruct (Z.ltb_spec 0 (b mod a)) as [H|H].
    + rewrite Z.rem_mod_nonneg by lia. rewrite IH; [|lia|apply Z.mod_pos_bound; exact H|].
      * f_equal. rewrite (Z.gcd_mod a (b mod a)) by lia. apply Z.gcd_comm.
      * assert (2 * (b mod a) < b). { assert (b = a * (b / a) + b mod a) by (apply Z.div_mod; lia). assert (1 <= b / a) by (apply Z.div_le_lower_bound; lia). nia. } replace (2 ^ Z.of_nat (S k)) with (2 * 2 ^ Z.of_nat k) in Hb by (rewrite Nat2Z.inj_succ, Z.pow_succ_r by lia; reflexivity). lia.
    + assert (b mod a = 0) as -> by lia. rewrite Z.gcd_0_r_nonneg by lia. reflexivity.
  - cbn [andb]. assert (a = 0) as -> by lia. rewrite Z.gcd_0_l_nonneg by lia. reflexivity.
Qed.
Lemma euclid_S n a b : euclid (S n) a b = if (0 <? a) && (0 <? b) then euclid n (Z.rem b a) a else (b, true).
Proof. reflexivity. Qed.
Lemma euclid_all a b : 0 <= a < 2 ^ 63 -> 0 < b < 2 ^ 63 -> euclid 127 a b = (Z.gcd a b, true).
Proof.
  intros Ha Hb. destruct (Z.lt_ge_cases a b) as [L|L]; [apply (euclid_ok 63); [lia|lia|exact (proj2 Hb)]|]. change 127%nat with (S 126). rewrite euclid_S. replace (0 <? a) with true by lia. replace (0 <? b) with true by lia. cbn [andb]. rewrite Z.rem_mod_nonneg by lia.
  rewrite (euclid_ok 63); [|lia|apply Z.mod_pos_bound; lia|exact (proj2 Ha)]. f_equal. rewrite (Z.gcd_mod b a) by lia. reflexivity.
Qed.
Lemma halve_ok : forall f n d, 0 <= n < 2 ^ (31 + Z.of_nat f) -> 0 <= d < 2 ^ (31 + Z.of_nat f) -> exists k, fits_after k n d /\ halve f n d = Ok (n / 2 ^ Z.of_nat k, d / 2 ^ Z.of_nat k).
Proof.
  induction f as [|f IH]; intros n d Hn Hd.
  - change (31 + Z.of_nat 0) with 31 in *. exists 0%nat. unfold fits_after. change (2 ^ Z.of_nat 0) with 1. rewrite !Z.div_1_r. split; [split; [lia|split; [lia|intros j Hj; lia]]|]. cbn [halve]. replace (2 ^ 31 - 1 <? n) with false by lia. replace (2 ^ 31 - 1 <? d) with false by lia. reflexivity.
  - replace (2 ^ (31 + Z.of_nat (S f))) with (2 * 2 ^ (31 + Z.of_nat f)) in * by (rewrite <- Z.pow_succ_r by lia; f_equal; lia). cbn [halve]. destruct (_ || _) eqn:B.
    + rewrite !Z.shiftr_div_pow2 by lia. change (2 ^ 1) with 2. destruct (IH (n / 2) (d / 2) ltac:(lia) ltac:(lia)) as (k & (F1 & F2 & F3) & E). rewrite E. exists (S k).
      assert (P : forall x j, x / 2 ^ Z.of_nat (S j) = x / 2 / 2 ^ Z.of_nat j). { intros x j. rewrite Nat2Z.inj_succ, Z.pow_succ_r by lia. rewrite Z.div_div by lia. reflexivity. }
      rewrite !P. split; [|reflexivity]. unfold fits_after. rewrite !P. split; [exact F1|]. split; [exact F2|]. intros [|j] Hj; [change (2 ^ Z.of_nat 0) with 1; rewrite !Z.div_1_r; lia|]. rewrite !P. apply F3. lia.
    + exists 0%nat. unfold fits_after. change (2 ^ Z.of_nat 0) with 1. rewrite !Z.div_1_r. split; [split; [lia|split; [lia|intros j Hj; lia]]|reflexivity].
Qed.
Lemma s32_id x : - 2 ^ 31 <= x < 2 ^ 31 -> s32 x = x.
Proof. intros H. unfold s32. apply s_wrap_small; [lia|]. change (2 ^ (32 - 1)) with (2 ^ 31). lia. Qed.
Lemma reduced_range num den n d : den <> 0 -> reduced num den n d -> 0 <= n <= Z.abs num /\ 0 < d <= Z.abs den /\ n * Z.abs den = Z.abs num * d.
Proof.
  intros Hd R. unfold reduced in R. destruct (_ || _).
  - destruct R as [-> ->]. pose proof (Z.gcd_nonneg num den). assert (G : 0 < Z.gcd num den) by (assert (Z.gcd num den <> 0) by (rewrite Z.gcd_eq_0; lia); lia).
    destruct (Z.gcd_divide_l num den) as (p & Hp). destruct (Z.gcd_divide_r num den) as (q & Hq). set (g := Z.gcd num den) in *. assert (Ap : Z.abs num = Z.abs p * g) by (rewrite Hp, Z.abs_mul; f_equal; lia). assert (Aq : Z.abs den = Z.abs q * g) by (rewrite Hq, Z.abs_mul; f_equal; lia).
    rewrite Ap, Aq, !Z.div_mul by lia. clear -G Aq Hd. assert (Z.abs q <> 0) by (intros E; rewrite E in Aq; lia). nia.
  - rewrite !Z.div_1_r in R. destruct R as [-> ->]. lia.
Qed.
Lemma simplify_ok num den n d : - 2 ^ 63 < num < 2 ^ 63 -> - 2 ^ 63 < den < 2 ^ 63 -> den <> 0 -> reduced num den n d ->
  exists k, fits_after k n d /\ simplify_frac num den = Ok (signed (negb (Bool.eqb (num <? 0) (den <? 0))) (n / 2 ^ Z.of_nat k), d / 2 ^ Z.of_nat k).
Proof.
  intros Hn Hd D0 R. pose proof (reduced_range num den n d D0 R) as RR. unfold simplify_frac. rewrite !chk64_ok by lia. cbn [bind].
  assert (S : exists k, fits_after k n d /\ (if (2 ^ 31 - 1 <? Z.abs num) || (2 ^ 31 - 1 <? Z.abs den) then let '(g, fin) := euclid 127 (Z.abs num) (Z.abs den) in let '(n, d) := if fin && (1 <? g) then (Z.abs num / g, Z.abs den / g) else (Z.abs num, Z.abs den) in halve 64 n d else Ok (Z.abs num, Z.abs den)) = Ok (n / 2 ^ Z.of_nat k, d / 2 ^ Z.of_nat k)).
  { unfold reduced in R. destruct (_ || _) eqn:B.
    - rewrite euclid_all by lia. rewrite Z.gcd_abs_l, Z.gcd_abs_r. cbn [andb]. destruct (halve_ok 64 n d) as (k & F & E); [change (31 + Z.of_nat 64) with 95; split; [lia|apply Z.lt_trans with (2 ^ 63); [lia|reflexivity]]|change (31 + Z.of_nat 64) with 95; split; [lia|apply Z.lt_trans with (2 ^ 63); [lia|reflexivity]]|]. exists k. split; [exact F|]. rewrite <- E.
      destruct R as [-> ->]. destruct (Z.ltb_spec 1 (Z.gcd num den)); [reflexivity|]. pose proof (Z.gcd_nonneg num den). assert (Z.gcd num den <> 0) by (rewrite Z.gcd_eq_0; lia). replace (Z.gcd num den) with 1 by lia. rewrite !Z.div_1_r. reflexivity.
    - rewrite !Z.div_1_r in R. destruct R as [-> ->]. exists 0%nat. unfold fits_after. change (2 ^ Z.of_nat 0) with 1. rewrite !Z.div_1_r. split; [split; [lia|split; [lia|intros j Hj; lia]]|reflexivity]. }
  destruct S as (k & F & E). rewrite E. exists k. split; [exact F|]. cbn [bind fst snd]. destruct F as (F1 & F2 & _). assert (0 <= n / 2 ^ Z.of_nat k) by (apply Z.div_pos; lia). assert (0 <= d / 2 ^ Z.of_nat k) by (apply Z.div_pos; lia).
  rewrite (s32_id (d / _)) by lia. destruct (negb _); cbn [signed]; rewrite s32_id by lia; reflexivity.
Qed.
Lemma fits_0 k n d : fits_after k n d -> n <= 2 ^ 31 - 1 -> d <= 2 ^ 31 - 1 -> k = 0%nat.
Proof. intros (_ & _ & F) H1 H2. destruct k; [reflexivity|]. specialize (F 0%nat ltac:(lia)). change (2 ^ Z.of_nat 0) with 1 in F. rewrite !Z.div_1_r in F. lia. Qed.
Lemma simplify_exact num den n d : - 2 ^ 63 < num < 2 ^ 63 -> - 2 ^ 63 < den < 2 ^ 63 -> den <> 0 -> reduced num den n d -> n <= 2 ^ 31 - 1 -> d <= 2 ^ 31 - 1 ->
  simplify_frac num den = Ok (signed (negb (Bool.eqb (num <? 0) (den <? 0))) n, d).
Proof.
  intros H1 H2 H3 R Fn Fd. destruct (simplify_ok num den n d H1 H2 H3 R) as (k & F & E). rewrite (fits_0 k n d F Fn Fd) in E. change (2 ^ Z.of_nat 0) with 1 in E. rewrite !Z.div_1_r in E. exact E.
Qed.
(** Decimals. *)
Lemma fold_pow b ds : forall v, fold_left (fun a d => a * b + d) ds v = v * b ^ zlen ds + fold_left (fun a d => a * b + d) ds 0.
Proof.
  induction ds as [|d ds IH]; intros v; cbn [fold_left]; [change (zlen (@nil Z)) with 0; rewrite Z.pow_0_r; lia|]. rewrite zlen_cons, Z.pow_add_r by (pose proof (zlen_nonneg ds); lia). rewrite Z.pow_1_r. rewrite (IH (v * b + d)), (IH (0 * b + d)). ring.
Qed.
Lemma digits_lt cs ds : digits_of 10 cs ds -> fold_left (fun a d => a * 10 + d) ds 0 < 10 ^ zlen ds.
Proof.
  induction 1 as [|c d cs ds Hd _ IH]; [vm_compute; reflexivity|]. cbn [fold_left]. rewrite fold_pow, zlen_cons, Z.pow_add_r by (pose proof (zlen_nonneg ds); lia). rewrite Z.pow_1_r.
  destruct (digit_val_of 10 c d (or_intror (or_introl eq_refl)) Hd) as (_ & B & _). pose proof (Z.pow_pos_nonneg 10 (zlen ds) ltac:(lia) (zlen_nonneg ds)). nia.
Qed.
Lemma decimals_ok rest : no_digit 10 rest -> forall fs es num den, digits_of 10 fs es -> 0 <= num -> 0 < den -> fold_left (fun a d => a * 10 + d) es num < 2 ^ 63 -> den * 10 ^ zlen es < 2 ^ 63 ->
  decimals (fs ++ rest) num den = Ok (fold_left (fun a d => a * 10 + d) es num, den * 10 ^ zlen es, rest).
Proof.
  assert (K : known 10) by (right; left; reflexivity). intros (c0 & r0 & -> & H0). induction fs as [|c fs IH]; intros es num den D Hn Hd Fn Fd; inversion D as [|? d ? ds' Hdd D']; subst.
  - cbn [app fold_left decimals] in *. pose proof (digit_val_none 10 c0 K H0) as E. unfold digit_val in E. change (10 =? 16) with false in E. change (10 =? 10) with true in E. cbv iota in E. destruct (is_digit c0) eqn:Ed; [unfold is_digit in Ed; lia|]. change (zlen (@nil Z)) with 0. rewrite Z.pow_0_r, Z.mul_1_r. reflexivity.
  - destruct (digit_val_of 10 c d K Hdd) as (E1 & E2 & _). unfold digit_val in E1. change (10 =? 16) with false in E1. change (10 =? 10) with true in E1. cbv iota in E1.
    cbn [app fold_left decimals] in *. destruct (is_digit c); [|lia]. assert (V : 0 <= num * 10 + d) by lia. pose proof (fold_ge 10 ds' ltac:(lia) (digits_nonneg 10 K _ _ D') _ V) as G.
    rewrite zlen_cons, Z.pow_add_r in * by (pose proof (zlen_nonneg ds'); lia). rewrite Z.pow_1_r in *. pose proof (Z.pow_pos_nonneg 10 (zlen ds') ltac:(lia) (zlen_nonneg ds')) as P. assert (den * 10 < 2 ^ 63) by nia.
    rewrite E1. rewrite (chk64_ok (num * 10)) by lia. cbn [bind]. rewrite (chk64_ok (num * 10 + d)) by lia. cbn [bind]. rewrite (chk64_ok (den * 10)) by lia. cbn [bind]. rewrite (IH ds'); [|exact D'|exact V|lia|exact Fn|nia]. replace (den * 10 * 10 ^ zlen ds') with (den * (10 ^ zlen ds' * 10)) by ring. reflexivity.
Qed.
Lemma digit10 c d : digit_of 10 c d -> 48 <= c <= 57.
Proof. intros H. destruct H; lia. Qed.
Lemma frac_text sg cs ds sep fs es rest : sg = [] \/ sg = [43] -> digits_of 10 cs ds -> cs <> [] -> sep = 46 \/ sep = 44 -> digits_of 10 fs es -> no_digit 10 rest -> value 10 (ds ++ es) < 2 ^ 63 -> 10 ^ zlen es < 2 ^ 63 ->
  is_frac (sg ++ cs ++ sep :: fs ++ rest) = (do f <- simplify_frac (value 10 (ds ++ es)) (10 ^ zlen es); Ok (Some (fst f, snd f, rest))).
Proof.
  intros S D N Hs De R V P. assert (K : known 10) by (right; left; reflexivity). unfold is_frac. unfold value in V. rewrite fold_left_app in V. pose proof (value_nonneg 10 cs ds K D) as V0. unfold value in V0. pose proof (fold_ge 10 es ltac:(lia) (digits_nonneg 10 K _ _ De) _ V0) as G.
  rewrite (int_ok sg false cs ds); [|right; split; [exact S|reflexivity]|exact D|exact N|unfold value; lia|exists sep, (fs ++ rest); split; [reflexivity|intros d Hd; apply digit10 in Hd; lia]].
  cbn [bind cur signed tl]. replace ((sep =? 46) || (sep =? 44)) with true by (destruct Hs as [->| ->]; reflexivity). rewrite (decimals_ok rest R fs es) by (assumption || (rewrite Z.mul_1_l; exact P) || lia). cbn [bind]. rewrite Z.mul_1_l. unfold value. rewrite fold_left_app. reflexivity.
Qed.
Lemma frac_whole sg cs ds rest : sg = [] \/ sg = [43] \/ sg = [45] -> digits_of 10 cs ds -> cs <> [] -> no_digit 10 rest -> hd 0 rest <> 46 -> hd 0 rest <> 44 -> value 10 ds < 2 ^ 63 ->
  is_frac (sg ++ cs ++ rest) = (do f <- simplify_frac (signed (match sg with 45 :: _ => true | _ => false end) (value 10 ds)) 1; Ok (Some (fst f, snd f, rest))).
Proof.
  intros S D N R R1 R2 V. unfold is_frac. rewrite (int_ok sg (match sg with 45 :: _ => true | _ => false end) cs ds rest); [|destruct S as [->|[->| ->]]; unfold signed_text; auto|exact D|exact N|exact V|exact R]. cbn [bind]. destruct R as (c & r & -> & R). cbn [hd] in *. cbn [cur bind].
  replace (c =? 46) with false by lia. replace (c =? 44) with false by lia. reflexivity.
Qed.
(** Doubles. *)
Lemma double_bits e f : -10 <= e <= 52 -> 0 <= f < 2 ^ 52 -> double_to_frac ((e + 1023) * 2 ^ 52 + f) = simplify_frac (2 ^ 52 + f) (2 ^ (52 - e)).
Proof.
  intros He Hf. unfold double_to_frac. set (v := (e + 1023) * 2 ^ 52 + f). assert (V : 0 < v) by lia. replace (v =? 0) with false by lia. rewrite Z.shiftr_div_pow2 by lia. replace (v / 2 ^ 52) with (e + 1023) by (unfold v; lia).
  change 4095 with (Z.ones 12). rewrite Z.land_ones by lia. change (2 ^ 12) with 4096. rewrite Z.mod_small by lia. replace (e + 1023 - 1023) with e by lia. replace ((52 - e <? 0) || (62 <? 52 - e)) with false by lia.
  change (2 ^ 52 - 1) with (Z.ones 52). rewrite Z.land_ones by lia. replace (v mod 2 ^ 52) with f by (unfold v; rewrite Z.add_comm, Z.mod_add by lia; symmetry; apply Z.mod_small; lia).
  replace (Z.lor f (2 ^ 52)) with (2 ^ 52 + f). 2:{ rewrite Z.lor_comm, <- (Z.mul_1_l (2 ^ 52)). symmetry. apply lor_add_pow2; lia. }
  replace (v <? 0) with false by lia. destruct (simplify_frac _ _) as [| | |[a b]]; reflexivity.
Qed.
Lemma double_neg v : - 2 ^ 63 <= v < 0 -> double_to_frac v = Bad.
Proof.
  intros Hv. unfold double_to_frac. replace (v =? 0) with false by lia. rewrite Z.shiftr_div_pow2 by lia. change 4095 with (Z.ones 12). rewrite Z.land_ones by lia. change (2 ^ 12) with 4096.
  assert (2048 <= (v / 2 ^ 52) mod 4096). { assert (-2048 <= v / 2 ^ 52 < 0) by lia. rewrite <- (Z.mod_add _ 1) by lia. rewrite Z.mod_small by lia. lia. } replace ((52 - ((v / 2 ^ 52) mod 4096 - 1023) <? 0) || _) with true by lia. reflexivity.
Qed.
Lemma double_far e f : (-1023 <= e < -10 \/ 52 < e <= 1024) -> 0 <= f < 2 ^ 52 -> (e = -1023 -> f <> 0) -> double_to_frac ((e + 1023) * 2 ^ 52 + f) = Bad.
Proof.
  intros He Hf Hz. unfold double_to_frac. set (v := (e + 1023) * 2 ^ 52 + f). replace (v =? 0) with false by (unfold v; destruct (Z.eq_dec e (-1023)); lia). rewrite Z.shiftr_div_pow2 by lia. replace (v / 2 ^ 52) with (e + 1023) by (unfold v; lia).
  change 4095 with (Z.ones 12). rewrite Z.land_ones by lia. change (2 ^ 12) with 4096. rewrite Z.mod_small by lia. replace (e + 1023 - 1023) with e by lia. replace ((52 - e <? 0) || (62 <? 52 - e)) with true by lia. reflexivity.
Qed.

(** FractionToString. *)
Lemma power_ok : forall k b, 0 < b -> b * 10 ^ Z.of_nat k < 2 ^ 31 -> ten_power k b = Ok (b * 10 ^ Z.of_nat k).
Proof.
  induction k as [|k IH]; intros b Hb H; [change (10 ^ Z.of_nat 0) with 1; rewrite Z.mul_1_r; reflexivity|]. rewrite Nat2Z.inj_succ, Z.pow_succ_r in * by lia. pose proof (Z.pow_pos_nonneg 10 (Z.of_nat k) ltac:(lia) ltac:(lia)). cbn [ten_power]. unfold chk32. assert (b * 10 < 2 ^ 31) by nia.
  replace ((- 2 ^ 31 <=? b * 10) && (b * 10 <? 2 ^ 31)) with true by lia. cbn [bind]. rewrite IH by lia. f_equal. ring.
Qed.
Lemma p10_le k : (k <= 9)%nat -> 1 <= 10 ^ Z.of_nat k <= 10 ^ 9.
Proof. intros H. split; [pose proof (Z.pow_pos_nonneg 10 (Z.of_nat k) ltac:(lia) ltac:(lia)); lia|apply Z.pow_le_mono_r; lia]. Qed.
Definition rounded (p num den : Z) : Z := (if 0 <? num then num + den / (2 * p) else num) * p / den.
Lemma parts_ok num den k : 0 <= num -> 0 < den < 2 ^ 31 -> (k <= 9)%nat -> num + den / (2 * 10 ^ Z.of_nat k) < 2 ^ 31 - 1 ->
  fraction_parts num den false k = Ok (rounded (10 ^ Z.of_nat k) num den / 10 ^ Z.of_nat k, rounded (10 ^ Z.of_nat k) num den mod 10 ^ Z.of_nat k).
Proof.
  intros Hn Hd Hk Hr. pose proof (p10_le k Hk) as P. unfold fraction_parts. cbn [bind]. replace (den =? 0) with false by lia. replace (den <? 0) with false by lia. rewrite power_ok by lia. rewrite Z.mul_1_l. cbn [bind]. set (p := 10 ^ Z.of_nat k) in *. unfold rounded.
  assert (Q : (do num0 <- (if 0 <? num then do b2 <- chk32 (2 * p); (let r := Z.quot den b2 in Ok (if num <? 2 ^ 31 - 1 - r then num + r else 2 ^ 31 - 1)) else Ok num); Ok num0) = Ok (if 0 <? num then num + den / (2 * p) else num)).
  { destruct (0 <? num); [|reflexivity]. unfold chk32. change (10 ^ 9) with 1000000000 in P. replace ((- 2 ^ 31 <=? 2 * p) && (2 * p <? 2 ^ 31)) with true by lia. cbn [bind]. rewrite Z.quot_div_nonneg by lia. replace (num <? _) with true by lia. reflexivity. }
  destruct (if 0 <? num then _ else _) as [| | |m]; try discriminate. cbn [bind] in *. assert (m = (if 0 <? num then num + den / (2 * p) else num)) as -> by congruence. clear Q. pose proof (Z.div_pos den (2 * p) ltac:(lia) ltac:(lia)) as R0. revert Hr R0. generalize (den / (2 * p)). intros r0 Hr R0. set (m := if 0 <? num then _ else _). assert (M : 0 <= m < 2 ^ 31 - 1) by (unfold m; destruct (0 <? num); lia). clearbody m. clear Hn Hr.
  rewrite Z.quot_div_nonneg by lia. assert (A : 0 <= m / den <= m) by (split; [apply Z.div_pos; lia|apply Z.div_le_upper_bound; nia]). rewrite s32_id by lia. replace (m - m / den * den) with (m mod den) by (pose proof (Z.div_mod m den ltac:(lia)); lia). pose proof (Z.mod_pos_bound m den ltac:(lia)) as B.
  assert (C : 0 <= m mod den * p < 2 ^ 63). { split; [nia|]. apply Z.le_lt_trans with (2 ^ 31 * 10 ^ 9); [nia|reflexivity]. } rewrite chk64_ok by lia. cbn [bind]. rewrite Z.quot_div_nonneg by lia.
  assert (E : m * p / den = m / den * p + m mod den * p / den). { rewrite <- Z.div_add_l by lia. f_equal. pose proof (Z.div_mod m den ltac:(lia)). nia. }
  assert (F : 0 <= m mod den * p / den < p) by (split; [apply Z.div_pos; lia|apply Z.div_lt_upper_bound; nia]). rewrite E. rewrite Z.div_add_l by lia. rewrite (Z.div_small (m mod den * p / den)) by lia. rewrite Z.add_0_r. rewrite Z.add_comm, Z.mod_add by lia. rewrite (Z.mod_small (m mod den * p / den)) by lia.
  rewrite s32_id; [reflexivity|]. change (10 ^ 9) with 1000000000 in P. lia.
Qed.
Lemma rounded_near p num den : 0 < p -> 0 <= num -> 0 < den -> near p num den (rounded p num den).
Proof.
  intros Hp Hn Hd. unfold near, rounded. set (r := den / (2 * p)). assert (R : 2 * p * r <= den < 2 * p * r + 2 * p) by (unfold r; pose proof (Z.div_mod den (2 * p) ltac:(lia)); pose proof (Z.mod_pos_bound den (2 * p) ltac:(lia)); lia).
  destruct (Z.ltb_spec 0 num); [|assert (num = 0) as -> by lia; rewrite Z.mul_0_l, Z.div_0_l by lia; lia].
  pose proof (Z.div_mod ((num + r) * p) den ltac:(lia)) as D. pose proof (Z.mod_pos_bound ((num + r) * p) den Hd) as B. set (t := (num + r) * p / den) in *. clearbody t r. nia.
Qed.
Lemma rounded_half_up p num den : 0 < p -> 0 < num -> 0 < den -> den mod (2 * p) = 0 -> rounded p num den = (2 * (num * p) + den) / (2 * den).
Proof.
  intros Hp Hn Hd Hm. unfold rounded. replace (0 <? num) with true by lia. pose proof (Z.div_mod den (2 * p) ltac:(lia)) as D. rewrite Hm in D. set (r := den / (2 * p)) in *. rewrite <- (Z.div_mul_cancel_l _ _ 2) by lia. f_equal. rewrite Z.add_0_r in D. clearbody r. rewrite D. ring.
Qed.
Lemma rounded_range p num den : 0 < p <= 10 ^ 9 -> 0 <= num -> 0 < den < 2 ^ 31 -> num + den / (2 * p) < 2 ^ 31 - 1 -> 0 <= rounded p num den /\ rounded p num den / p < 2 ^ 31.
Proof.
  intros Hp Hn Hd Hr. unfold rounded. set (m := if 0 <? num then _ else _). assert (M : 0 <= m < 2 ^ 31 - 1) by (unfold m; pose proof (Z.div_pos den (2 * p) ltac:(lia) ltac:(lia)); destruct (0 <? num); lia). split; [apply Z.div_pos; nia|].
  apply Z.div_lt_upper_bound; [lia|]. apply Z.div_lt_upper_bound; [lia|]. clearbody m. nia.
Qed.

Lemma filled_digits k b : (1 <= k <= 40)%nat -> 0 <= b < 10 ^ Z.of_nat k -> exists es, digits_of 10 (num_field true (Z.of_nat k) false (shown 10 false b)) es /\ value 10 es = b /\ zlen es = Z.of_nat k.
Proof.
  intros Hk Hb. assert (B : 0 <= b < 10 ^ 40) by (split; [lia|]; eapply Z.lt_le_trans; [apply Hb|apply Z.pow_le_mono_r; lia]). destruct (shown_digits 10 false b ltac:(lia) B) as (D & V & _). pose proof (numeral_len 10 b k ltac:(lia) Hb Hk) as L.
  exists (repeat 0 (k - length (numeral 40 10 b)) ++ numeral 40 10 b). split; [|split; [rewrite value_zeros; exact V|unfold zlen; rewrite app_length, repeat_length; lia]].
  unfold num_field. cbn [app]. change (zlen (@nil Z)) with 0. rewrite Z.sub_0_r. replace (Z.to_nat (Z.of_nat k - zlen (shown 10 false b))) with (k - length (numeral 40 10 b))%nat by (unfold zlen, shown; rewrite map_length; lia).
  apply Forall2_app; [|exact D]. induction (k - length (numeral 40 10 b))%nat as [|j IH]; cbn [repeat]; constructor; [apply (D_dec 10 0); lia|exact IH].
Qed.
Lemma value_app q a b : value q (a ++ b) = value q a * q ^ zlen b + value q b.
Proof. unfold value. rewrite fold_left_app. apply fold_pow. Qed.
Lemma decimal_digits n : 0 <= n < 2 ^ 31 -> digits_of 10 (decimal n) (numeral 40 10 n) /\ value 10 (numeral 40 10 n) = n /\ decimal n <> [].
Proof.
  intros H. unfold decimal. replace (n <? 0) with false by lia. rewrite Z.abs_eq by lia. cbn [app]. apply shown_digits; [lia|]. split; [lia|]. apply Z.lt_trans with (2 ^ 31); [lia|reflexivity].
Qed.
Lemma p10_range k : (k <= 9)%nat -> 0 < 10 ^ Z.of_nat k < 2 ^ 31.
Proof. intros H. pose proof (p10_le k H) as P. change (10 ^ 9) with 1000000000 in P. lia. Qed.
Lemma frac_back k t rest : (k <= 9)%nat -> 0 <= t < 2 ^ 31 -> no_digit 10 rest -> hd 0 rest <> 46 -> hd 0 rest <> 44 -> is_frac (fixed_point k t ++ rest) = Ok (Some (t, 10 ^ Z.of_nat k, rest)).
Proof.
  intros Hk Ht R R1 R2. pose proof (p10_range k Hk) as P. unfold fixed_point. set (p := 10 ^ Z.of_nat k) in *. assert (Tp : 0 <= t / p < 2 ^ 31) by (split; [apply Z.div_pos; lia|apply Z.div_lt_upper_bound; nia]). destruct (decimal_digits (t / p) Tp) as (D & V & N). rewrite <- app_assoc.
  assert (S : forall d, 0 < d < 2 ^ 31 -> simplify_frac t d = Ok (t, d)).
  { intros d Hd. rewrite (simplify_exact t d t d); try lia; [replace (t <? 0) with false by lia; replace (d <? 0) with false by lia; reflexivity|]. unfold reduced. replace ((2 ^ 31 - 1 <? Z.abs t) || (2 ^ 31 - 1 <? Z.abs d)) with false by lia. rewrite !Z.div_1_r. lia. }
  destruct (Nat.eqb_spec k 0) as [K|K].
  - subst k. change p with 1 in *. rewrite Z.div_1_r in *. rewrite app_nil_l. change (decimal t ++ rest) with ([] ++ decimal t ++ rest). rewrite (frac_whole [] (decimal t) (numeral 40 10 t) rest); auto; [|rewrite V; lia]. rewrite V. cbn [signed]. rewrite S by lia. reflexivity.
  - assert (M : 0 <= t mod p < p) by (apply Z.mod_pos_bound; lia). destruct (filled_digits k (t mod p) ltac:(lia) M) as (es & De & Ve & Le). rewrite <- app_assoc. change ([46] ++ ?x) with (46 :: x). change (decimal (t / p) ++ 46 :: ?x) with ([] ++ decimal (t / p) ++ 46 :: x).
    assert (Vt : value 10 (numeral 40 10 (t / p) ++ es) = t). { rewrite value_app, V, Ve, Le. fold p. pose proof (Z.div_mod t p ltac:(lia)). lia. }
    rewrite (frac_text [] (decimal (t / p)) (numeral 40 10 (t / p)) 46 _ es rest); auto; [|rewrite Vt; lia|rewrite Le; fold p; lia]. rewrite Vt, Le. fold p. rewrite S by lia. reflexivity.
Qed.
Lemma fraction_text len num den k : 1 <= len < 2 ^ 64 -> 0 <= num -> 0 < den < 2 ^ 31 -> (k <= 9)%nat -> num + den / (2 * 10 ^ Z.of_nat k) < 2 ^ 31 - 1 ->
  fraction_to_string len num den 0 k = Ok (fit len (fixed_point k (rounded (10 ^ Z.of_nat k) num den)) ++ [0]).
Proof.
  intros Hl Hn Hd Hk Hr. unfold fraction_to_string. change (negb (0 =? 0)) with false. rewrite parts_ok by assumption. pose proof (p10_range k Hk) as P. destruct (rounded_range (10 ^ Z.of_nat k) num den) as [R1 R2]; [pose proof (p10_le k Hk); lia|assumption|assumption|assumption|]. unfold fixed_point. set (p := 10 ^ Z.of_nat k) in *. set (t := rounded p num den) in *. clearbody t.
  assert (M : 0 <= t mod p < p) by (apply Z.mod_pos_bound; lia). assert (A : 0 <= t / p) by (apply Z.div_pos; lia). cbn [bind fst snd]. change (0 <? 0) with false. cbv iota. destruct (Nat.eqb_spec k 0) as [K|K].
  - rewrite app_nil_r. rewrite <- int_dec by lia. unfold int_to_string. destruct (vstprintf _ _ _ _); reflexivity.
  - pose proof (vstprintf_ok false len [Num false WNone false 100 (t / p); Lit 46; Num true (WArg (Z.of_nat k)) false 100 (t mod p)] [] Hl) as H. cbn [map concat] in H. rewrite num_text in H. cbn [text_of width_of] in H. replace (t mod p <? 0) with false in H by lia. rewrite (Z.abs_eq (t mod p)) in H by lia. rewrite !app_nil_r in H.
    change (fit len (decimal (t / p) ++ [46] ++ ?x)) with (fit len (decimal (t / p) ++ [46] ++ x)). cbn [app] in H |- *. rewrite <- H; [match goal with |- _ = ?x => change x with (vstprintf false len [37; 100; 46; 37; 48; 42; 100; 0] [AInt (t / p); AInt (Z.of_nat k); AInt (t mod p)]) end; destruct (vstprintf _ _ _ _); reflexivity| |].
    + constructor; [cbn [piece_ok width_ok]; lia|]. constructor; [cbn [piece_ok]; lia|]. constructor; [|constructor]. cbn [piece_ok width_ok]. lia.
    + cbn [rooms room_for]. auto.
Qed.
Lemma percent_parts num den k : 0 <= num <= 21474836 -> fraction_parts num den true k = fraction_parts (num * 100) den false k.
Proof.
  intros H. unfold fraction_parts. assert (L : percent_loop 64 num den = Ok (num, den)). { change 64%nat with (S 63). cbn [percent_loop]. change ((2 ^ 31 - 1) / 100) with 21474836. replace (21474836 <? Z.abs num) with false by lia. reflexivity. } rewrite L. reflexivity.
Qed.
