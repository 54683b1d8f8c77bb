(** The parts of the LZO decoder. *)
From Verif Require Import Base BaseProofs VintProofs Tree Lzo LzoSpec.

Lemma ok_inj {A} (x y : A) : Ok x = Ok y -> x = y.
Proof. intros H. injection H as H. exact H. Qed.

Lemma lits_ok cap ls rest out : zlen out + zlen ls <= cap -> lits cap (length ls) (ls ++ rest) out = Ok (rest, out ++ ls).
Proof.
  revert out. induction ls as [|b ls IH]; intros out H; cbn [lits length app]; [rewrite app_nil_r; reflexivity|].
  rewrite zlen_cons in H. pose proof (zlen_nonneg ls). rewrite (proj2 (Z.ltb_lt _ _)) by lia.
  rewrite IH by (rewrite zlen_app; change (zlen [b]) with 1; lia). rewrite <- app_assoc. reflexivity.
Qed.
Lemma lits_inv cap n rest out : 0 <= n <= zlen rest -> zlen out + n <= cap -> exists ls rest', rest = ls ++ rest' /\ zlen ls = n /\ lits cap (Z.to_nat n) rest out = Ok (rest', out ++ ls).
Proof.
  intros H Hc. exists (firstn (Z.to_nat n) rest), (skipn (Z.to_nat n) rest). unfold zlen in *.
  assert (Hl : length (firstn (Z.to_nat n) rest) = Z.to_nat n) by (rewrite firstn_length; lia).
  split; [symmetry; apply firstn_skipn|]. split; [lia|].
  rewrite <- (firstn_skipn (Z.to_nat n) rest) at 1. rewrite <- Hl at 1. apply lits_ok. unfold zlen. lia.
Qed.

(** The bytes of a copy are determined. *)
Lemma back_ok cap w : forall lb out, 0 <= lb < zlen out -> zlen out + zlen w <= cap ->
  (forall i, 0 <= i < zlen w -> nth (Z.to_nat (zlen out + i)) (out ++ w) 0 = nth (Z.to_nat (lb + i)) (out ++ w) 0) ->
  back cap (length w) lb out = Ok (out ++ w).
Proof.
  induction w as [|x w IH]; intros lb out Hlb Hc Hw; cbn [back length]; [rewrite app_nil_r; reflexivity|].
  rewrite zlen_cons in *. pose proof (zlen_nonneg w). rewrite (proj2 (Z.leb_le _ _)), (proj2 (Z.ltb_lt lb _)), (proj2 (Z.ltb_lt (zlen out) _)) by lia. cbn [andb].
  assert (Hx : nth (Z.to_nat lb) out 0 = x).
  { specialize (Hw 0 ltac:(lia)). rewrite !Z.add_0_r in Hw. rewrite app_nth2 in Hw by (unfold zlen; lia).
    replace (Z.to_nat (zlen out) - length out)%nat with O in Hw by (unfold zlen; lia). cbn [nth] in Hw. rewrite app_nth1 in Hw by (unfold zlen in *; lia). auto. }
  rewrite Hx. replace (out ++ x :: w) with ((out ++ [x]) ++ w) by (rewrite <- app_assoc; reflexivity).
  assert (Hz : zlen (out ++ [x]) = zlen out + 1) by (rewrite zlen_app; reflexivity).
  apply IH; [lia|lia|]. intros i Hi. rewrite Hz. specialize (Hw (i + 1) ltac:(lia)). rewrite <- app_assoc. cbn [app].
  replace (zlen out + 1 + i) with (zlen out + (i + 1)) by lia. replace (lb + 1 + i) with (lb + (i + 1)) by lia. exact Hw.
Qed.
Lemma back_ex cap k : forall lb out, 0 <= lb < zlen out -> zlen out + Z.of_nat k <= cap ->
  exists w, back cap k lb out = Ok (out ++ w) /\ zlen w = Z.of_nat k /\
    forall i, 0 <= i < zlen w -> nth (Z.to_nat (zlen out + i)) (out ++ w) 0 = nth (Z.to_nat (lb + i)) (out ++ w) 0.
Proof.
  induction k as [|k IH]; intros lb out Hlb Hc.
  - exists []. cbn [back]. rewrite app_nil_r. split; [reflexivity|]. split; [reflexivity|]. intros i Hi. change (zlen (@nil Z)) with 0 in Hi. lia.
  - cbn [back]. rewrite (proj2 (Z.leb_le _ _)), (proj2 (Z.ltb_lt lb _)), (proj2 (Z.ltb_lt (zlen out) _)) by lia. cbn [andb].
    set (x := nth (Z.to_nat lb) out 0). assert (Hz : zlen (out ++ [x]) = zlen out + 1) by (rewrite zlen_app; reflexivity).
    destruct (IH (lb + 1) (out ++ [x])) as (w & E & L & W); [lia|lia|]. exists (x :: w). rewrite E, <- app_assoc. cbn [app]. split; [reflexivity|].
    rewrite zlen_cons. split; [lia|]. intros i Hi. destruct (Z.eq_dec i 0) as [->|Hn].
    + rewrite !Z.add_0_r. rewrite app_nth2 by (unfold zlen; lia). replace (Z.to_nat (zlen out) - length out)%nat with O by (unfold zlen; lia). cbn [nth].
      rewrite app_nth1 by (unfold zlen in *; lia). reflexivity.
    + specialize (W (i - 1) ltac:(lia)). rewrite Hz, <- app_assoc in W. cbn [app] in W. replace (zlen out + 1 + (i - 1)) with (zlen out + i) in W by lia.
      replace (lb + 1 + (i - 1)) with (lb + i) in W by lia. exact W.
Qed.

Lemma copy_lits_ok cap ls rest out st : zlen (out ++ ls) <= cap -> copy_lits cap (ls ++ rest) out (zlen ls) st = Ok (Go rest (out ++ ls) st).
Proof.
  intros H. rewrite zlen_app in H. unfold copy_lits. pose proof (zlen_nonneg rest). rewrite zlen_app. rewrite (proj2 (Z.ltb_ge _ _)) by lia. rewrite (proj2 (Z.ltb_ge _ _)) by lia.
  replace (Z.to_nat (zlen ls)) with (length ls) by (unfold zlen; lia). rewrite lits_ok by lia. reflexivity.
Qed.
Lemma copy_lits_over cap ls rest out st : cap < zlen (out ++ ls) -> copy_lits cap (ls ++ rest) out (zlen ls) st = Ok (Stop L_OUT out).
Proof.
  intros H. rewrite zlen_app in H. unfold copy_lits. pose proof (zlen_nonneg rest). rewrite zlen_app. rewrite (proj2 (Z.ltb_ge _ _)) by lia. rewrite (proj2 (Z.ltb_lt _ _)) by lia. reflexivity.
Qed.
(** What a piece of the decoder may do: fail with the output so far, or go on. *)
Definition fails (code : Z) : Prop := code <> L_SUCCESS /\ code <> L_NOT_CONSUMED.
Lemma copy_lits_inv cap rest out n st : 0 <= n ->
  (exists code, copy_lits cap rest out n st = Ok (Stop code out) /\ fails code) \/
  (exists ls rest', rest = ls ++ rest' /\ zlen ls = n /\ zlen (out ++ ls) <= cap /\ copy_lits cap rest out n st = Ok (Go rest' (out ++ ls) st)).
Proof.
  intros H. destruct (Z.lt_ge_cases (zlen rest) n) as [H1|H1].
  { left. exists L_IN. unfold copy_lits. rewrite (proj2 (Z.ltb_lt _ _)) by lia. split; [reflexivity|split; discriminate]. }
  destruct (lits_inv (zlen out + n) n rest out) as (ls & rest' & -> & L & _); [lia|lia|].
  destruct (Z.lt_ge_cases cap (zlen (out ++ ls))) as [H2|H2].
  - left. exists L_OUT. rewrite <- L, copy_lits_over by exact H2. split; [reflexivity|split; discriminate].
  - right. exists ls, rest'. split; [reflexivity|]. split; [exact L|]. split; [exact H2|]. rewrite <- L. apply copy_lits_ok, H2.
Qed.

Lemma copied_len out len dist ls out' : copied out len dist ls out' -> zlen out' = zlen out + len + zlen ls.
Proof. intros (_ & w & -> & L & _). rewrite !zlen_app. lia. Qed.
Lemma copy_match_ok cap rest out len dist ls out' : copied out len dist ls out' -> zlen out' <= cap ->
  copy_match cap (ls ++ rest) out len (zlen out - dist) (zlen ls) = Ok (Go rest out' (zlen ls)).
Proof.
  intros C H. rewrite (copied_len _ _ _ _ _ C) in H. destruct C as (Hd & w & -> & <- & W). unfold copy_match. pose proof (zlen_nonneg rest). pose proof (zlen_nonneg ls). pose proof (zlen_nonneg w).
  rewrite (proj2 (Z.ltb_ge _ _)) by lia. rewrite zlen_app. rewrite (proj2 (Z.ltb_ge _ _)) by lia. rewrite (proj2 (Z.ltb_ge _ _)) by lia.
  replace (Z.to_nat (zlen w)) with (length w) by (unfold zlen; lia). rewrite back_ok; [|lia|lia|].
  - cbn [bind]. replace (Z.to_nat (zlen ls)) with (length ls) by (unfold zlen; lia). rewrite lits_ok by (rewrite zlen_app; lia). rewrite <- app_assoc. reflexivity.
  - intros i Hi. rewrite W by exact Hi. f_equal. f_equal. lia.
Qed.
Lemma copy_match_over cap rest out len dist ls out' : copied out len dist ls out' -> cap < zlen out' ->
  copy_match cap (ls ++ rest) out len (zlen out - dist) (zlen ls) = Ok (Stop L_OUT out).
Proof.
  intros C H. rewrite (copied_len _ _ _ _ _ C) in H. destruct C as (Hd & w & -> & <- & W). unfold copy_match. pose proof (zlen_nonneg rest). pose proof (zlen_nonneg ls).
  rewrite (proj2 (Z.ltb_ge _ _)) by lia. rewrite zlen_app. rewrite (proj2 (Z.ltb_ge _ _)) by lia. rewrite (proj2 (Z.ltb_lt _ _)) by lia. reflexivity.
Qed.
Lemma copy_match_inv cap rest out len dist n : 1 <= dist -> 0 <= len -> 0 <= n ->
  (exists code, copy_match cap rest out len (zlen out - dist) n = Ok (Stop code out) /\ fails code) \/
  (exists ls rest' out', rest = ls ++ rest' /\ zlen ls = n /\ zlen out' <= cap /\ copied out len dist ls out' /\ copy_match cap rest out len (zlen out - dist) n = Ok (Go rest' out' n)).
Proof.
  intros Hd Hl Hn. destruct (Z.lt_ge_cases (zlen out) dist) as [H0|H0].
  { left. exists L_LOOK. unfold copy_match. rewrite (proj2 (Z.ltb_lt _ _)) by lia. split; [reflexivity|split; discriminate]. }
  destruct (Z.lt_ge_cases (zlen rest) n) as [H1|H1].
  { left. exists L_IN. unfold copy_match. rewrite (proj2 (Z.ltb_ge _ _)) by lia. rewrite (proj2 (Z.ltb_lt _ _)) by lia. split; [reflexivity|split; discriminate]. }
  destruct (lits_inv (zlen out + n) n rest out) as (ls & rest' & -> & L & _); [lia|lia|].
  destruct (back_ex (zlen out + len) (Z.to_nat len) (zlen out - dist) out) as (w & _ & Lw & W); [lia|lia|].
  assert (C : copied out len dist ls (out ++ w ++ ls)).
  { split; [lia|]. exists w. split; [reflexivity|]. split; [lia|]. intros i Hi. rewrite W by lia. f_equal. f_equal. lia. }
  destruct (Z.lt_ge_cases cap (zlen (out ++ w ++ ls))) as [H2|H2].
  - left. exists L_OUT. rewrite <- L. rewrite (copy_match_over _ _ _ _ _ _ _ C H2). split; [reflexivity|split; discriminate].
  - right. exists ls, rest', (out ++ w ++ ls). split; [reflexivity|]. split; [exact L|]. split; [exact H2|]. split; [exact C|]. rewrite <- L. exact (copy_match_ok _ _ _ _ _ _ _ C H2).
Qed.

(** Zero bytes. *)
Lemma zero_run_zeros n z b rest : b <> 0 -> zero_run n (repeat 0 z ++ b :: rest) = Some (n + Z.of_nat z, b :: rest).
Proof.
  intros Hb. revert n. induction z as [|z IH]; intros n; cbn [zero_run repeat app]; [rewrite (proj2 (Z.eqb_neq _ _) Hb); f_equal; f_equal; lia|].
  change (0 =? 0) with true. cbn iota. rewrite IH. f_equal. f_equal. lia.
Qed.
Lemma zero_run_inv l : forall n, (zero_run n l = None /\ l = repeat 0 (length l)) \/ exists z b rest, l = repeat 0 z ++ b :: rest /\ b <> 0 /\ zero_run n l = Some (n + Z.of_nat z, b :: rest).
Proof.
  induction l as [|b l IH]; intros n; [left; auto|]. cbn [zero_run]. destruct (Z.eqb_spec b 0) as [->|Hb].
  - destruct (IH (n + 1)) as [[E L]|(z & c & rest & -> & Hc & E)]; [left; split; [exact E|cbn; f_equal; exact L]|].
    right. exists (S z), c, rest. split; [reflexivity|]. split; [exact Hc|]. rewrite E. f_equal. f_equal. lia.
  - right. exists O, b, l. split; [reflexivity|]. split; [exact Hb|]. f_equal. f_equal. lia.
Qed.
Lemma extend_ok tail out (k : Z -> list Z -> res outcome) rest z b : 0 <= z <= MAX255 -> 1 <= b <= 255 ->
  extend tail (repeat 0 (Z.to_nat z) ++ b :: rest) out k = k (z * 255 + b) rest.
Proof.
  intros Hz Hb. unfold extend. rewrite zero_run_zeros by lia. rewrite Z.add_0_l, Z2Nat.id by lia. rewrite (proj2 (Z.ltb_ge _ _)) by lia. reflexivity.
Qed.
(** [tail] stops the scan. *)
Definition stops (tail : list Z) : Prop := Exists (fun b => b <> 0) tail.
Lemma extend_inv tail rest out k : bytes_ok rest ->
  (extend tail rest out k = Bad /\ ~ stops tail) \/
  (exists code, extend tail rest out k = Ok (Stop code out) /\ fails code) \/
  (exists z b rest', rest = repeat 0 (Z.to_nat z) ++ b :: rest' /\ 0 <= z <= MAX255 /\ 1 <= b <= 255 /\ extend tail rest out k = k (z * 255 + b) rest').
Proof.
  intros Hb. unfold extend. destruct (zero_run_inv rest 0) as [[E L]|(z & b & rest' & -> & Hn & E)].
  - rewrite E. destruct (zero_run_inv tail (zlen rest)) as [[E' L']|(z & b & rest' & -> & Hn & E')]; rewrite E'.
    + left. split; [reflexivity|]. rewrite L'. clear. unfold stops. intros H. apply Exists_exists in H. destruct H as (b & Hi & Hb). apply repeat_spec in Hi. auto.
    + right. left. destruct (_ <? _); eexists; split; try reflexivity; split; discriminate.
  - rewrite E. rewrite Z.add_0_l. destruct (Z.ltb_spec MAX255 (Z.of_nat z)); [right; left; eexists; split; [reflexivity|split; discriminate]|].
    right. right. exists (Z.of_nat z), b, rest'. rewrite Nat2Z.id. split; [reflexivity|]. split; [lia|]. split; [|reflexivity].
    unfold bytes_ok in Hb. rewrite Forall_app in Hb. destruct Hb as [_ Hb]. apply Forall_cons_iff in Hb. destruct Hb as [Hb _]. unfold is_byte in Hb. lia.
Qed.
