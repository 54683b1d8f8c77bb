(** Sorting with a comparison that is wrong only when an item is compared with itself: one such item is
    harmless, the pivot is never it. *)
From Coq Require Import Permutation Sorted.
From Verif Require Import Base BaseProofs Arr ArrSpec ArrProofs ArrProofs2 ArrProofs3.

Section Get.
Context {A : Type}.
Implicit Types (a : list A) (x y : A).
Lemma upd_same a n x y : nth_error a n = Some y -> nth_error (upd a n x) n = Some x.
Proof. revert n. induction a as [|z a IH]; intros [|n] H; cbn in *; try discriminate; [reflexivity|]. exact (IH n H). Qed.
Lemma upd_other a n m x : n <> m -> nth_error (upd a n x) m = nth_error a m.
Proof. revert n m. induction a as [|z a IH]; intros [|n] [|m] H; cbn; try reflexivity; try congruence. apply IH. congruence. Qed.
Lemma aset_get a i x a' : aset a i x = Some a' -> aget a' i = Some x /\ forall j, j <> i -> aget a' j = aget a j.
Proof.
  unfold aset. destruct ((i <? 0) || (zlen a <=? i)) eqn:Hi; [discriminate|]. intros H. apply some_inj in H. subst a'. unfold zlen in Hi. unfold aget. split.
  - replace (i <? 0) with false by lia. destruct (nth_error a (Z.to_nat i)) as [y|] eqn:Ey; [exact (upd_same _ _ _ _ Ey)|]. apply nth_error_None in Ey. lia.
  - intros j Hj. destruct (Z.ltb_spec j 0); [reflexivity|]. apply upd_other. lia.
Qed.
Lemma aswap_get a i j a' : aswap a i j = Some a' -> aget a' i = aget a j /\ forall k, k <> i -> k <> j -> aget a' k = aget a k.
Proof.
  unfold aswap. destruct (aget a i) as [x|] eqn:Ei; [|discriminate]. destruct (aget a j) as [y|] eqn:Ej; [|discriminate].
  destruct (aset a i y) as [a1|] eqn:E1; [|discriminate]. intros E2. destruct (aset_get _ _ _ _ E1) as [H1 H2]. destruct (aset_get _ _ _ _ E2) as [H3 H4]. split.
  - destruct (Z.eq_dec i j) as [->|Hn]; [rewrite H3; congruence|]. rewrite (H4 i Hn). exact H1.
  - intros k Hi Hj. rewrite (H4 k Hj). exact (H2 k Hi).
Qed.
End Get.

Section Agree.
Context {A : Type} (cmp cmp' : A -> A -> Z) (bad : A -> bool).
Context (Hsame : forall x y, bad x && bad y = false -> cmp x y = cmp' x y).
Context (Hrefl : forall x, 0 <= cmp' x x).
Context (Hlow : forall x y, bad x = true -> bad y = false -> cmp' x y < 0).
Context (Hhigh : forall x y, bad x = false -> bad y = true -> 0 < cmp' x y).
Implicit Types (a : list A) (x y : A).

Definition one_bad a : Prop := (length (filter bad a) <= 1)%nat.
Lemma one_bad_perm a a' : Permutation a a' -> one_bad a -> one_bad a'.
Proof. intros H. unfold one_bad. assert (Permutation (filter bad a) (filter bad a')) as Hf; [|rewrite (Permutation_length Hf); auto].
  induction H; cbn; try reflexivity.
  - destruct (bad x); [constructor|]; exact IHPermutation.
  - destruct (bad x), (bad y); try reflexivity. constructor.
  - etransitivity; eassumption.
Qed.
Lemma one_bad_pos a i j x y : one_bad a -> aget a i = Some x -> aget a j = Some y -> i <> j -> bad x && bad y = false.
Proof.
  intros H Hi Hj Hn. destruct (bad x) eqn:Bx; [|reflexivity]. destruct (bad y) eqn:By; [|reflexivity]. exfalso.
  assert (G : forall i j x y, 0 <= i < j -> aget a i = Some x -> aget a j = Some y -> bad x = true -> bad y = true -> False).
  { clear -H. intros i j x y Hij Hi Hj Bx By. unfold aget in *. replace (i <? 0) with false in Hi by lia. replace (j <? 0) with false in Hj by lia.
    destruct (nth_error_split _ _ Hi) as (p & s & -> & Hp). rewrite nth_error_app2 in Hj by lia. destruct (Z.to_nat j - length p)%nat as [|n] eqn:En; [lia|].
    cbn [nth_error] in Hj. apply nth_error_In in Hj. unfold one_bad in H. rewrite filter_app in H. cbn [filter] in H. rewrite Bx, app_length in H. cbn [length] in H.
    destruct (filter bad s) as [|z f] eqn:Ef; [|cbn in H; lia]. assert (In y (filter bad s)) by (apply filter_In; auto). rewrite Ef in H0. destruct H0. }
  assert (0 <= i < zlen a) by (apply aget_some_iff; eauto). assert (0 <= j < zlen a) by (apply aget_some_iff; eauto).
  destruct (Z.lt_ge_cases i j); [eapply (G i j); eauto; lia|eapply (G j i); eauto; lia].
Qed.
Lemma acmp_agree a i j : one_bad a -> i <> j -> acmp cmp a i j = acmp cmp' a i j.
Proof.
  intros H Hn. unfold acmp. destruct (aget a i) as [x|] eqn:Ei; [|reflexivity]. destruct (aget a j) as [y|] eqn:Ej; [|reflexivity].
  rewrite (Hsame x y); [reflexivity|]. eapply one_bad_pos; eauto.
Qed.
(** The item at First is sound. *)
Definition sound_at a i : Prop := exists x, aget a i = Some x /\ bad x = false.
Lemma acmp_sound a i j : sound_at a i -> acmp cmp a i j = acmp cmp' a i j.
Proof. intros (x & Hx & Bx). unfold acmp. rewrite Hx. destruct (aget a j) as [y|]; [|reflexivity]. rewrite (Hsame x y); [reflexivity|]. rewrite Bx. reflexivity. Qed.
Lemma qs_left_agree n a p q l : sound_at a p -> qs_left cmp n a p q l = qs_left cmp' n a p q l.
Proof. intros H. revert l. induction n as [|n IH]; intros l; cbn [qs_left]; [reflexivity|]. rewrite (acmp_sound a p) by exact H. destruct (_ <? _); [|reflexivity]. destruct (acmp _ _ _ _); [|reflexivity]. rewrite IH. reflexivity. Qed.
Lemma qs_right_agree n a p r : sound_at a p -> qs_right cmp n a p r = qs_right cmp' n a p r.
Proof. intros H. revert r. induction n as [|n IH]; intros r; cbn [qs_right]; [reflexivity|]. rewrite (acmp_sound a p) by exact H. destruct (acmp _ _ _ _); [|reflexivity]. rewrite IH. reflexivity. Qed.
Lemma qs_part_agree n : forall a p q l r, sound_at a p -> 0 <= p <= l -> l < q -> l < r -> r <= q + 1 -> q < zlen a -> qs_part cmp n a p q l r = qs_part cmp' n a p q l r.
Proof.
  induction n as [|n IH]; intros a p q l r H Hp Hl Hr Hq Hz; cbn [qs_part]; [reflexivity|].
  rewrite qs_left_agree, qs_right_agree by exact H.
  destruct (qs_left_ok cmp' (S (length a)) a p q l) as (l' & -> & Hl'); [lia|lia|lia|unfold zlen in Hz; lia|].
  destruct (qs_right_ok cmp' Hrefl (S (length a)) a p r) as (r' & -> & Hr'); [lia|lia|unfold zlen in Hz; lia|].
  destruct (Z.leb_spec r' l'); [reflexivity|]. destruct (aswap_perm a l' r') as (a' & Ea & Hpm); [lia|lia|lia|]. rewrite Ea.
  destruct (aswap_get _ _ _ _ Ea) as [_ Hk]. destruct H as (x & Hx & Bx). apply IH; [exists x; rewrite Hk by lia; auto|lia|lia|lia|lia|rewrite <- (perm_zlen _ _ Hpm); exact Hz].
Qed.
Lemma qs_ref_agree a p q : one_bad a -> 0 <= p -> p + 1 < q -> q < zlen a -> qs_ref cmp a p q = qs_ref cmp' a p q.
Proof.
  intros H H1 H2 H3. unfold qs_ref. set (m := p + Z.shiftr (q - p) 1). assert (p < m < q) by (unfold m; rewrite Z.shiftr_div_pow2 by lia; change (2 ^ 1) with 2; lia).
  rewrite !(acmp_agree a) by (assumption || lia). reflexivity.
Qed.
Lemma qs_ref_sound a p q r : one_bad a -> 0 <= p -> p + 1 < q -> q < zlen a -> qs_ref cmp' a p q = Some r -> sound_at a r.
Proof.
  intros H H1 H2 H3. unfold qs_ref. set (m := p + Z.shiftr (q - p) 1). assert (Hm : p < m < q) by (unfold m; rewrite Z.shiftr_div_pow2 by lia; change (2 ^ 1) with 2; lia).
  unfold acmp. assert (0 <= p < zlen a) as [x Ex]%aget_some_iff by lia. assert (0 <= q < zlen a) as [y Ey]%aget_some_iff by lia. assert (0 <= m < zlen a) as [z Ez]%aget_some_iff by lia.
  rewrite Ex, Ey, Ez.
  pose proof (one_bad_pos a p q x y H Ex Ey ltac:(lia)) as Bxy. pose proof (one_bad_pos a p m x z H Ex Ez ltac:(lia)) as Bxz. pose proof (one_bad_pos a q m y z H Ey Ez ltac:(lia)) as Byz.
  intros E. apply some_inj in E.
  destruct (bad x) eqn:Bx, (bad y) eqn:By, (bad z) eqn:Bz; cbn in *; try discriminate.
  - pose proof (Hlow x y Bx By). pose proof (Hlow x z Bx Bz). replace (cmp' x y <? 0) with true in E by lia. replace (cmp' x z <? 0) with true in E by lia.
    destruct (cmp' y z <? 0); subst r; [exists y|exists z]; auto.
  - pose proof (Hlow y z By Bz). pose proof (Hhigh x y Bx By). replace (cmp' x y <? 0) with false in E by lia. replace (cmp' y z <? 0) with true in E by lia.
    destruct (0 <=? cmp' x z); subst r; [exists z|exists x]; auto.
  - pose proof (Hhigh y z By Bz). pose proof (Hhigh x z Bx Bz). replace (cmp' y z <? 0) with false in E by lia. replace (cmp' x z <? 0) with false in E by lia.
    replace (0 <=? cmp' x z) with true in E by lia. destruct (cmp' x y <? 0); subst r; [exists x|exists y]; auto.
  - assert (r = p \/ r = q \/ r = m) as [->|[->| ->]] by (destruct (cmp' x y <? 0), (cmp' y z <? 0), (cmp' x z <? 0), (0 <=? cmp' x z); auto); [exists x|exists y|exists z]; auto.
Qed.
Lemma in_qsort_agree n : forall a p q, one_bad a -> 0 <= p -> q < zlen a -> q - p <= Z.of_nat n -> in_qsort cmp n a p q = in_qsort cmp' n a p q.
Proof.
  induction n as [|n IH]; intros a p q Hob H1 H2 H3; cbn [in_qsort]; (destruct (Z.ltb_spec (p + QSORTMINLEN) q) as [Hlt|]; [|reflexivity]); [reflexivity|].
  unfold QSORTMINLEN in Hlt. rewrite qs_ref_agree by (assumption || lia).
  destruct (qs_ref_ok cmp' a p q) as (ref & Er & Hr); [lia|lia|lia|]. pose proof (qs_ref_sound a p q ref Hob ltac:(lia) ltac:(lia) ltac:(lia) Er) as Hs. rewrite Er.
  assert (Ha1 : exists a1, (if ref =? p then Some a else aswap a p ref) = Some a1 /\ Permutation a a1 /\ sound_at a1 p).
  { destruct (Z.eqb_spec ref p) as [->|Hn]; [exists a; auto|]. destruct (aswap_perm a p ref) as (a1 & E1 & P1); [lia|lia|lia|]. exists a1. split; [exact E1|]. split; [exact P1|].
    destruct (aswap_get _ _ _ _ E1) as [Hg _]. destruct Hs as (x & Hx & Bx). exists x. rewrite Hg. auto. }
  destruct Ha1 as (a1 & -> & P1 & S1). pose proof (perm_zlen _ _ P1) as Z1.
  rewrite qs_part_agree by (assumption || lia).
  destruct (qs_part_ok cmp' Hrefl (S (length a1)) a1 p q p (q + 1)) as (a2 & l & r & -> & P2 & B2); [lia|lia|lia|lia|lia|unfold zlen in *; lia|].
  pose proof (perm_zlen _ _ P2) as Z2. assert (O2 : one_bad a2) by (eapply one_bad_perm; [exact P2|]; eapply one_bad_perm; [exact P1|exact Hob]).
  destruct (Z.eqb_spec r p) as [->|Hrp]; [apply IH; [exact O2|lia|lia|lia]|].
  destruct (aswap_perm a2 p r) as (a3 & -> & P3); [lia|lia|lia|]. pose proof (perm_zlen _ _ P3) as Z3. pose proof (one_bad_perm _ _ P3 O2) as O3.
  destruct (_ <? _).
  - replace (if QSORTMINLEN + p <? r - 1 then in_qsort cmp n a3 p (r - 1) else Some a3) with (if QSORTMINLEN + p <? r - 1 then in_qsort cmp' n a3 p (r - 1) else Some a3)
      by (destruct (_ <? _); [symmetry; apply IH; [exact O3|lia|lia|lia]|reflexivity]).
    assert (exists a4, (if QSORTMINLEN + p <? r - 1 then in_qsort cmp' n a3 p (r - 1) else Some a3) = Some a4 /\ Permutation a3 a4) as (a4 & -> & P4).
    { destruct (_ <? _); [apply (in_qsort_ok cmp' Hrefl); lia|exists a3; auto]. }
    apply IH; [eapply one_bad_perm; eassumption|lia|rewrite <- (perm_zlen _ _ P4); lia|lia].
  - replace (if QSORTMINLEN + l <? q then in_qsort cmp n a3 l q else Some a3) with (if QSORTMINLEN + l <? q then in_qsort cmp' n a3 l q else Some a3)
      by (destruct (_ <? _); [symmetry; apply IH; [exact O3|lia|lia|lia]|reflexivity]).
    assert (exists a4, (if QSORTMINLEN + l <? q then in_qsort cmp' n a3 l q else Some a3) = Some a4 /\ Permutation a3 a4) as (a4 & -> & P4).
    { destruct (_ <? _); [apply (in_qsort_ok cmp' Hrefl); lia|exists a3; auto]. }
    apply IH; [eapply one_bad_perm; eassumption|lia|rewrite <- (perm_zlen _ _ P4); lia|lia].
Qed.
Lemma ins_r_agree x r : one_bad (x :: r) -> ins_r cmp x r = ins_r cmp' x r.
Proof.
  induction r as [|y r IH]; intros H; cbn [ins_r]; [reflexivity|].
  rewrite (Hsame x y) by (apply (one_bad_pos (x :: y :: r) 0 1); [exact H|reflexivity|reflexivity|lia]). rewrite IH; [reflexivity|].
  unfold one_bad in *. cbn [filter] in *. destruct (bad x), (bad y); cbn [length] in *; lia.
Qed.
Lemma fold_ins_agree rest : forall s, one_bad (s ++ rest) -> fold_left (ins cmp) rest s = fold_left (ins cmp') rest s.
Proof.
  induction rest as [|x rest IH]; intros s H; cbn [fold_left]; [reflexivity|].
  assert (Hi : ins cmp s x = ins cmp' s x).
  { unfold ins. rewrite ins_r_agree; [reflexivity|]. unfold one_bad in *. rewrite filter_app in H. cbn [filter] in *. rewrite filter_rev'. rewrite app_length in H.
    destruct (bad x); cbn [length] in *; rewrite rev_length; lia. }
  rewrite Hi. apply IH. eapply one_bad_perm; [|exact H]. transitivity ((s ++ [x]) ++ rest); [rewrite <- app_assoc; reflexivity|]. apply Permutation_app_tail, ins_perm.
Qed.
Lemma array_sort_agree fast a : one_bad a -> array_sort cmp fast false a = array_sort cmp' fast false a.
Proof.
  intros H. unfold array_sort. destruct (Z.leb_spec (zlen a) 1); [reflexivity|].
  assert (exists a1, (if fast then in_qsort cmp' (length a) a 0 (zlen a - 1) else Some a) = Some a1 /\ Permutation a a1) as (a1 & E1 & P1).
  { destruct fast; [apply (in_qsort_ok cmp' Hrefl); [lia|lia|unfold zlen; lia]|exists a; auto]. }
  replace (if fast then in_qsort cmp (length a) a 0 (zlen a - 1) else Some a) with (if fast then in_qsort cmp' (length a) a 0 (zlen a - 1) else Some a)
    by (destruct fast; [symmetry; apply in_qsort_agree; [exact H|lia|lia|unfold zlen; lia]|reflexivity]).
  rewrite E1. pose proof (perm_zlen _ _ P1) as Z1. destruct a1 as [|h t]; [reflexivity|]. cbn [length]. replace (S (length t) - 1)%nat with (length t) by lia.
  pose proof (is_outer_ok cmp t [h] ltac:(discriminate)) as A1. pose proof (is_outer_ok cmp' t [h] ltac:(discriminate)) as A2.
  change ([h] ++ t) with (h :: t) in A1, A2. change (zlen [h]) with 1 in A1, A2. rewrite A1, A2, fold_ins_agree; [reflexivity|]. eapply one_bad_perm; [exact P1|exact H].
Qed.
End Agree.
