(** Proofs about formatted printing: pieces and formats. *)
From Verif Require Import Base BaseProofs VintProofs IntEltProofs Tree Arr Str StrSpec StrProofs StrProofs2 StrProofs3 Printf PrintfSpec PrintfProofs.

Lemma dstr_zeros q (up : bool) : forall k v, dstr q up k v false true = map (digit_char up) (fixed q k v).
Proof. induction k as [|k IH]; intros v; [reflexivity|]. cbn [dstr fixed map andb negb app]. rewrite andb_false_r. cbn [andb]. rewrite IH. reflexivity. Qed.
Lemma dstr_zeros_sign q (up sign : bool) k v : dstr q up (S k) v sign true = (if sign then [45] else []) ++ map (digit_char up) (fixed q (S k) v).
Proof. cbn [dstr fixed map negb]. rewrite orb_true_r, andb_false_r. cbn [orb andb]. rewrite andb_true_r. destruct sign; cbn [andb negb app]; rewrite dstr_zeros; reflexivity. Qed.
Lemma dstr_blanks q (up sign : bool) j v : 1 < q -> 0 <= v < q ^ Z.of_nat (S j) -> j = O \/ q ^ Z.of_nat j <= v -> forall m,
  dstr q up (m + S j) v sign false = repeat 32 m ++ (if sign then [45] else []) ++ map (digit_char up) (fixed q (S j) v).
Proof.
  intros Hq Hv Hj. assert (P : 0 < q ^ Z.of_nat j) by (apply Z.pow_pos_nonneg; lia). induction m as [|m IH].
  - cbn [Nat.add repeat app dstr fixed map].
    assert (C : (match j with O => true | _ => false end || false || (0 <? v / q ^ Z.of_nat j)) = true). { destruct Hj as [->|Hj]; [reflexivity|]. rewrite orb_true_iff. right. apply Z.ltb_lt. apply Z.div_str_pos. lia. }
    rewrite C, andb_true_r.
    assert (D : (v / q ^ Z.of_nat j =? 0) && negb false && negb match j with O => true | _ => false end = false). { destruct j as [|j]; [apply andb_false_r|]. cbn [orb] in C. apply Z.ltb_lt in C. replace (_ =? 0) with false by lia. reflexivity. }
    rewrite D. replace (sign && negb sign) with false by (destruct sign; reflexivity). rewrite dstr_zeros. reflexivity.
  - cbn [Nat.add repeat app dstr]. assert (L : q ^ Z.of_nat (S j) <= q ^ Z.of_nat (m + S j)) by (apply Z.pow_le_mono_r; lia). rewrite Z.div_small, Z.mod_small by lia.
    replace (match (m + S j)%nat with O => true | _ => false end) with false by (rewrite Nat.add_succ_r; reflexivity). cbn [orb andb negb Z.eqb Z.ltb Z.compare]. rewrite andb_false_r. cbn [andb negb app]. rewrite andb_true_r, IH. reflexivity.
Qed.
Lemma map_zeros up m : map (digit_char up) (repeat 0 m) = repeat 48 m.
Proof. induction m as [|m IH]; [reflexivity|]. cbn [repeat map]. rewrite IH. reflexivity. Qed.
Lemma reduce_ok q vl j e : 1 < q -> vl < q ^ Z.of_nat (S j) -> j = O \/ q ^ Z.of_nat j <= vl -> forall d fuel, (d < fuel)%nat ->
  reduce fuel q (q ^ Z.of_nat e) vl (q ^ Z.of_nat (d + Nat.max e j)) = Ok (q ^ Z.of_nat (Nat.max e j)).
Proof.
  intros Hq Hv Hj. induction d as [|d IH]; intros fuel Hf; (destruct fuel as [|fuel]; [lia|]); cbn [reduce Nat.add].
  - destruct (Nat.max_spec e j) as [[H ->]|[H ->]].
    + destruct Hj as [->|Hj]; [lia|]. replace (vl <? q ^ Z.of_nat j) with false by lia. reflexivity.
    + rewrite Z.ltb_irrefl, andb_false_r. reflexivity.
  - set (n := (d + Nat.max e j)%nat) in *. assert (Hn : (Nat.max e j <= n)%nat) by lia.
    assert (A : q ^ Z.of_nat (S j) <= q ^ Z.of_nat (S n)) by (apply Z.pow_le_mono_r; lia). assert (B : q ^ Z.of_nat e < q ^ Z.of_nat (S n)) by (apply Z.pow_lt_mono_r; lia).
    replace (vl <? q ^ Z.of_nat (S n)) with true by lia. replace (q ^ Z.of_nat e <? q ^ Z.of_nat (S n)) with true by lia. cbn [andb].
    replace (Z.quot (q ^ Z.of_nat (S n)) q) with (q ^ Z.of_nat n) by (rewrite Nat2Z.inj_succ, Z.pow_succ_r by lia; rewrite Z.mul_comm, Z.quot_mul by lia; reflexivity). apply IH. lia.
Qed.
(** A number is written in its field. *)
Lemma int_gen cap q (up sign zf : bool) (K : nat) w vl s : 1 < q <= 16 -> 0 <= vl < q ^ Z.of_nat (S K) -> (K <= 18)%nat -> q ^ Z.of_nat (S K) < 2 ^ 62 -> w <= Z.of_nat (S K) -> q ^ (w - 1) < 2 ^ 32 -> room cap s ->
  (do ww <- reduce 20 q (if 1 <? w then u32 (q ^ (w - 1)) else 1) vl (q ^ Z.of_nat K); digits 20 cap q up ww vl sign zf s) = Ok (emit s (num_field zf (w + (if sign then 1 else 0)) sign (shown q up vl))).
Proof.
  intros Hq Hv HK HKb Hw Hw0 R.
  assert (NB : 0 <= vl < q ^ Z.of_nat 40) by (split; [lia|]; eapply Z.lt_le_trans; [apply Hv|]; apply Z.pow_le_mono_r; lia).
  destruct (numeral_fixed q ltac:(lia) 39 vl NB) as (j & Ej & Hj1 & Hj2).
  assert (JK : (j <= K)%nat). { destruct Hj2 as [->|Hj2]; [lia|]. destruct (Nat.le_gt_cases j K); [assumption|]. assert (q ^ Z.of_nat (S K) <= q ^ Z.of_nat j) by (apply Z.pow_le_mono_r; lia). lia. }
  set (e := Z.to_nat (w - 1)).
  assert (E0 : (if 1 <? w then u32 (q ^ (w - 1)) else 1) = q ^ Z.of_nat e).
  { unfold e. destruct (Z.ltb_spec 1 w); [|replace (Z.of_nat (Z.to_nat (w - 1))) with 0 by lia; rewrite Z.pow_0_r; reflexivity]. rewrite Z2Nat.id by lia. unfold u32. apply Z.mod_small. split; [apply Z.pow_nonneg; lia|exact Hw0]. }
  rewrite E0. set (k := Nat.max e j). assert (kK : (k <= K)%nat) by (unfold k, e; lia).
  replace (q ^ Z.of_nat K) with (q ^ Z.of_nat ((K - k) + Nat.max e j)) by (do 2 f_equal; fold k; lia). rewrite (reduce_ok q vl j e ltac:(lia) Hj1 Hj2 (K - k) 20) by lia. cbn [bind]. fold k.
  change (q ^ Z.of_nat k) with (wwof q (S k)).
  assert (Lk : q ^ Z.of_nat (S j) <= q ^ Z.of_nat (S k)) by (apply Z.pow_le_mono_r; lia). assert (Lk2 : q ^ Z.of_nat (S k) <= q ^ Z.of_nat (S K)) by (apply Z.pow_le_mono_r; lia).
  rewrite digits_full by (try assumption; lia). do 2 f_equal. unfold num_field, shown. rewrite Ej.
  assert (Ls : zlen (map (digit_char up) (fixed q (S j) vl)) = Z.of_nat (S j)) by (unfold zlen; rewrite map_length, fixed_length; reflexivity). rewrite Ls.
  assert (Lg : zlen (if sign then [45] else []) = (if sign then 1 else 0)) by (destruct sign; reflexivity). rewrite Lg.
  assert (Lm : Z.to_nat (w + (if sign then 1 else 0) - (if sign then 1 else 0) - Z.of_nat (S j)) = (k - j)%nat) by (unfold k, e; destruct sign; lia).
  unfold blank. rewrite Lm. destruct zf.
  - rewrite dstr_zeros_sign. do 2 f_equal. replace (S k) with ((k - j) + S j)%nat by lia. rewrite fixed_zeros by lia. rewrite map_app, map_zeros. reflexivity.
  - replace (S k) with ((k - j) + S j)%nat by lia. apply dstr_blanks; [lia|lia|exact Hj2].
Qed.

(** ** The directive *)
Definition letter (c : Z) : Prop := c = 100 \/ c = 105 \/ c = 120 \/ c = 88 \/ c = 115 \/ c = 99 \/ c = 112.
Definition width_arg (w : width) : list arg := match w with WArg n => [AInt n] | _ => [] end.
Definition width_val (w : width) : Z := match w with WNone => -1 | WLit ds => value 10 ds | WArg n => n end.
Lemma number_ok : forall ds acc c r, Forall (fun d => 0 <= d < 10) ds -> is_digit c = false -> number acc (map (fun d => 48 + d) ds ++ c :: r) = Ok (fold_left (fun a d => a * 10 + d) ds acc, c :: r).
Proof.
  induction ds as [|d ds IH]; intros acc c r H Hc; cbn [map app number fold_left]; [rewrite Hc; reflexivity|]. apply Forall_cons_iff in H. destruct H as [Hd H].
  replace (is_digit (48 + d)) with true by (unfold is_digit; lia). replace (48 + d - 48) with d by lia. apply IH; assumption.
Qed.
Lemma parse_ok lf zero w long c r args : letter c -> width_ok (2 ^ 31 - 1) w ->
  parse_dir (tl (dir_fmt lf zero w long c) ++ r) (width_arg w ++ args) = Ok (Dir lf zero (width_val w) long false, c :: r, args).
Proof.
  intros Hc Hw. unfold dir_fmt. cbn [app tl].
  assert (D : forall x, (x = 108 /\ long = true \/ x = c /\ long = false) -> is_digit x = false /\ (x =? 45) = false /\ (x =? 48) = false /\ (x =? 46) = false /\ (x =? 42) = false).
  { intros x [[-> _]|[-> _]]; unfold is_digit; repeat split; unfold letter in Hc; lia. }
  assert (T : exists x t, (if long then [108] else []) ++ c :: r = x :: t /\ (x = 108 /\ long = true \/ x = c /\ long = false)) by (destruct long; do 2 eexists; (split; [reflexivity|]); [left|right]; split; reflexivity).
  destruct T as (x & t & Et & Hx). destruct (D x Hx) as (D1 & D2 & D3 & D4 & D5).
  (* what follows the width *)
  assert (TAIL : forall dd (ar : list arg) l z, (do g <- longs false (x :: t); do i6 <- match snd g with [] => Bad | 73 :: 54 :: 52 :: r => Ok (true, r) | 73 :: [] => Bad | 73 :: 54 :: [] => Bad | r => Ok (fst g, r) end;
      do u <- flag 117 (snd i6); Ok (Dir l z dd (fst i6) (fst u), snd u, ar)) = Ok (Dir l z dd long false, c :: r, ar)).
  { intros dd ar l z. rewrite <- Et. assert (N108 : (c =? 108) = false) by (unfold letter in Hc; lia). assert (N117 : (c =? 117) = false) by (unfold letter in Hc; lia).
    assert (I6 : forall b : bool, (match c :: r with [] => Bad | 73 :: 54 :: 52 :: r => Ok (true, r) | 73 :: [] => Bad | 73 :: 54 :: [] => Bad | r => Ok (b, r) end) = Ok (b, c :: r)) by (intros b; unfold letter in Hc; decompose [or] Hc; subst c; reflexivity).
    destruct long; cbn [app longs Z.eqb Pos.eqb]; rewrite N108; cbn [bind snd fst]; rewrite I6; cbn [bind snd fst flag cur]; unfold flag; cbn [cur bind]; rewrite N117; reflexivity. }
  assert (Ew : (if long then [108] else []) ++ c :: r = x :: t) by exact Et.
  unfold parse_dir.
  assert (FL : forall y m, flag y m = (do v <- cur m; Ok (if v =? y then (true, tl m) else (false, m)))) by reflexivity.
  (* the flags *)
  assert (HEAD : exists y m', width_fmt w ++ (if long then [108] else []) ++ c :: r = y :: m' /\ (y =? 45) = false /\ (y =? 48) = false).
  { destruct w as [|ds|n]; cbn [width_fmt app].
    - rewrite Et. exists x, t. repeat split; assumption.
    - destruct Hw as (H1 & H2 & _). destruct ds as [|d ds]; [contradiction H2; reflexivity|]. cbn [map app]. cbn [hd] in H2. apply Forall_cons_iff in H1. do 2 eexists. split; [reflexivity|]. lia.
    - do 2 eexists. split; [reflexivity|]. split; reflexivity. }
  replace ((if lf then [45] else []) ++ (if zero then [48] else []) ++ width_fmt w ++ (if long then [108] else []) ++ [c]) with ((if lf then [45] else []) ++ (if zero then [48] else []) ++ (width_fmt w ++ (if long then [108] else []) ++ [c])) by reflexivity.
  rewrite <- !app_assoc. cbn [app]. destruct HEAD as (y & m' & Ey & Y1 & Y2).
  assert (F1 : flag 45 ((if lf then [45] else []) ++ (if zero then [48] else []) ++ width_fmt w ++ (if long then [108] else []) ++ c :: r) = Ok (lf, (if zero then [48] else []) ++ width_fmt w ++ (if long then [108] else []) ++ c :: r)).
  { rewrite Ey. destruct lf; [reflexivity|]. destruct zero; cbn [app]; unfold flag; cbn [cur bind]; [reflexivity|]. rewrite Y1. reflexivity. }
  rewrite F1. cbn [bind snd fst].
  assert (F2 : flag 48 ((if zero then [48] else []) ++ width_fmt w ++ (if long then [108] else []) ++ c :: r) = Ok (zero, width_fmt w ++ (if long then [108] else []) ++ c :: r)).
  { rewrite Ey. destruct zero; [reflexivity|]. cbn [app]. unfold flag. cbn [cur bind]. rewrite Y2. reflexivity. }
  rewrite F2. cbn [bind snd fst]. rewrite Et. clear F1 F2 Ey.
  destruct w as [|ds|n]; cbn [width_fmt app width_arg width_val].
  - cbn [cur bind]. rewrite D1. cbn [bind snd fst]. unfold flag at 1. cbn [cur bind]. rewrite D4. cbn [bind snd fst]. unfold flag at 1. cbn [cur bind]. rewrite D5. cbn [bind snd fst]. apply TAIL.
  - destruct Hw as (H1 & H2 & H3). destruct ds as [|d ds]; [contradiction H2; reflexivity|]. cbn [map app cur bind]. pose proof H1 as H1'. apply Forall_cons_iff in H1'. replace (is_digit (48 + d)) with true by (unfold is_digit; lia).
    change (48 + d :: map (fun d => 48 + d) ds ++ x :: t) with (map (fun d => 48 + d) (d :: ds) ++ x :: t). rewrite number_ok by assumption. cbn [bind snd fst]. unfold flag at 1. cbn [cur bind]. rewrite D4. cbn [bind snd fst]. unfold flag at 1. cbn [cur bind]. rewrite D5. cbn [bind snd fst]. apply TAIL.
  - cbn [cur bind is_digit Z.leb Z.compare andb]. change (is_digit 42) with false. cbn [bind snd fst]. unfold flag at 1. cbn [cur bind Z.eqb Pos.eqb snd fst]. unfold flag at 1. cbn [cur bind Z.eqb Pos.eqb snd fst tl].
    cbn [width_ok] in Hw. replace (s32 n) with n by (symmetry; unfold s32; apply s_wrap_small; change (2 ^ (32 - 1)) with (2 ^ 31); lia). apply TAIL.
Qed.
