From Verif Require Import Base BaseProofs Tree BlockTime Arr Str StrSpec StrProofs StrProofs3 Printf PrintfSpec PrintfProofs PrintfProofs3 Scan ScanSpec ScanProofs ScanProofs2 Expr ExprSpec ExprProofs ExprProofs2 ExprProofs3 BlockProofs2 BlockTimeProofs PropStr PropPrintf PropExpr Rates RatesSpec.

Definition clean (s : list Z) : Prop := Forall (fun b => b <> 0) s.
Lemma digits_clean cs ds : digits_of 10 cs ds -> clean cs.
Proof. induction 1 as [|c d cs ds Hc _ IH]; constructor; [apply digit10 in Hc; lia|exact IH]. Qed.
Lemma decimal_clean p : - 2 ^ 31 < p < 2 ^ 31 -> clean (decimal p).
Proof.
  intros H. destruct (decimal_digits (Z.abs p)) as (D & _ & _); [lia|]. pose proof (digits_clean _ _ D) as C. unfold decimal in *. replace (Z.abs p <? 0) with false in C by lia. rewrite Z.abs_eq with (n := Z.abs p) in C by lia. cbn [app] in C.
  apply Forall_app. split; [destruct (p <? 0); repeat constructor; discriminate|exact C].
Qed.
Lemma fixed_clean k t : (0 < k <= 9)%nat -> 0 <= t < 2 ^ 31 -> clean (fixed_point k t).
Proof.
  intros Hk Ht. pose proof (p10_range k ltac:(lia)) as P. unfold fixed_point.
  destruct (decimal_digits (t / 10 ^ Z.of_nat k)) as (D & _ & _); [split; [apply Z.div_pos; lia|apply Z.le_lt_trans with t; [apply Z.div_le_upper_bound; nia|lia]]|].
  apply Forall_app. split; [exact (digits_clean _ _ D)|]. destruct (Nat.eqb_spec k 0); [lia|]. constructor; [discriminate|].
  destruct (filled_digits k (t mod 10 ^ Z.of_nat k)) as (es & De & _); [lia|apply Z.mod_pos_bound; lia|]. exact (digits_clean _ _ De).
Qed.
Lemma fit_fit len x s : 1 <= len -> fit len (fit len x ++ s) = fit len (x ++ s).
Proof.
  intros H. unfold fit. rewrite !firstn_app, firstn_firstn, Nat.min_id, firstn_length. f_equal. destruct (Nat.le_gt_cases (length x) (Z.to_nat (len - 1))) as [L|L]; [do 2 f_equal; lia|].
  replace (Z.to_nat (len - 1) - length x)%nat with 0%nat by lia. replace (Z.to_nat (len - 1) - _)%nat with 0%nat by lia. reflexivity.
Qed.
(** Printing, then appending. *)
Lemma over_append out len x s : 1 <= len <= zlen out -> clean x -> clean s ->
  exists o, tcscat_s (over out (fit len x ++ [0])) len (s ++ [0]) = Ok o /\ holds o (fit len (x ++ s)) /\ zlen o = zlen out /\ skipn (Z.to_nat len) o = skipn (Z.to_nat len) out.
Proof.
  intros Hl Hx Hs. set (b := over out (fit len x ++ [0])). pose proof (zlen_fit len x ltac:(lia)) as F.
  assert (L : (length (fit len x ++ [0%Z]) <= Z.to_nat len)%nat) by (rewrite app_length; cbn [length]; unfold zlen in *; lia).
  assert (B : zlen b = zlen out) by (unfold b, over, zlen in *; rewrite app_length, skipn_length; lia).
  destruct (C40_append b len (s ++ [0]) (fit len x) s) as (o & Eo & Ho & Hz & Hk).
  - unfold zlen in *. lia.
  - exists (skipn (length (fit len x ++ [0])) out). unfold b, over. rewrite <- app_assoc. split; [reflexivity|]. apply forall_firstn. exact Hx.
  - exists []. split; [reflexivity|exact Hs].
  - exists o. rewrite fit_fit in Ho by lia. split; [exact Eo|]. split; [exact Ho|]. split; [congruence|]. rewrite Hk. unfold b, over.
    rewrite skipn_app. rewrite skipn_all2 by lia. cbn [app]. set (j := length (fit len x ++ [0])) in *. clearbody j. clear - L. 
    replace (Z.to_nat len) with (j + (Z.to_nat len - j))%nat at 2 by lia. generalize (Z.to_nat len - j)%nat as i. intros i. revert out. induction j as [|j IH]; intros out; [reflexivity|]. destruct out; [destruct i; reflexivity|]. apply IH. lia.
Qed.
Lemma kilo rate : - 2 ^ 31 <= rate < 2 ^ 31 -> scale32 rate 8 1000 = Ok (Z.quot (rate * 8) 1000) /\ - 2 ^ 25 < Z.quot (rate * 8) 1000 < 2 ^ 25.
Proof.
  intros H. unfold scale32, scale64. change (1000 =? 0) with false. change (1000 =? -1) with false. rewrite andb_false_r. cbv iota. cbn [bind].
  assert (Q : - 2 ^ 25 < Z.quot (rate * 8) 1000 < 2 ^ 25). { split; [apply Z.lt_le_trans with (-17179870); [lia|]; apply Z.quot_le_lower_bound; lia|]. apply Z.le_lt_trans with 17179870; [apply Z.quot_le_upper_bound; lia|lia]. }
  split; [|exact Q]. rewrite s64_small by lia. f_equal. apply s32_small. lia.
Qed.
