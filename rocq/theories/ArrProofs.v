From Verif Require Import Base BaseProofs Arr ArrSpec.

(** ** Indexing *)
Section Idx.
Context {A : Type}.
Implicit Types (a p s : list A) (x y : A).

Lemma aget_mid p x s : aget (p ++ x :: s) (zlen p) = Some x.
Proof.
  unfold aget, zlen. destruct (Z.of_nat (length p) <? 0) eqn:?; [lia|].
  rewrite Nat2Z.id, nth_error_app2 by lia. rewrite Nat.sub_diag. reflexivity.
Qed.
Lemma upd_mid p x s y : upd (p ++ x :: s) (length p) y = p ++ y :: s.
Proof. induction p; cbn [app length upd]; [reflexivity|]. rewrite IHp. reflexivity. Qed.
Lemma aset_mid p x s y : aset (p ++ x :: s) (zlen p) y = Some (p ++ y :: s).
Proof.
  unfold aset. rewrite zlen_app, zlen_cons. pose proof (zlen_nonneg p). pose proof (zlen_nonneg s).
  replace ((zlen p <? 0) || (zlen p + (zlen s + 1) <=? zlen p)) with false by lia.
  unfold zlen. rewrite Nat2Z.id, upd_mid. reflexivity.
Qed.
Lemma aget_split a i : 0 <= i < zlen a -> exists p x s, a = p ++ x :: s /\ zlen p = i.
Proof.
  intros Hi. unfold zlen in Hi. destruct (nth_error a (Z.to_nat i)) as [x|] eqn:E.
  - apply nth_error_split in E as (p & s & -> & Hp). exists p, x, s. split; [reflexivity|]. unfold zlen. lia.
  - apply nth_error_None in E. lia.
Qed.
Lemma aget_some_iff a i : (exists x, aget a i = Some x) <-> 0 <= i < zlen a.
Proof.
  split.
  - intros [x H]. unfold aget in H. destruct (i <? 0) eqn:?; [discriminate|].
    assert (Z.to_nat i < length a)%nat by (apply nth_error_Some; congruence). unfold zlen; lia.
  - intros H. destruct (aget_split a i H) as (p & x & s & -> & <-). exists x. apply aget_mid.
Qed.
Lemma aget_in a i x : aget a i = Some x -> In x a.
Proof. unfold aget. destruct (i <? 0); [discriminate|]. apply nth_error_In. Qed.
Lemma aget_app_l p s i : i < zlen p -> aget (p ++ s) i = aget p i.
Proof.
  intros H. unfold aget. destruct (i <? 0) eqn:?; [reflexivity|]. apply nth_error_app1. unfold zlen in H; lia.
Qed.

Lemma aswap_perm a i j : 0 <= i -> i < j -> j < zlen a ->
  exists a', aswap a i j = Some a' /\ Permutation a a'.
Proof.
  intros Hi Hij Hj. destruct (aget_split a j ltac:(lia)) as (pm & y & s & -> & Hpm).
  destruct (aget_split pm i ltac:(lia)) as (p & x & m & -> & Hp).
  assert (G1 : aget ((p ++ x :: m) ++ y :: s) i = Some x).
  { rewrite <- app_assoc. cbn [app]. rewrite <- Hp. apply aget_mid. }
  assert (G2 : aget ((p ++ x :: m) ++ y :: s) j = Some y) by (rewrite <- Hpm; apply aget_mid).
  unfold aswap. rewrite G1, G2. rewrite <- app_assoc. cbn [app]. rewrite <- Hp, aset_mid.
  exists (p ++ y :: m ++ x :: s). split.
  - change (p ++ y :: m ++ y :: s) with (p ++ (y :: m) ++ y :: s). rewrite app_assoc.
    replace j with (zlen (p ++ y :: m)) by (rewrite <- Hpm, !zlen_app, !zlen_cons; reflexivity).
    rewrite aset_mid, <- app_assoc. reflexivity.
  - apply Permutation_app_head.
    transitivity (x :: y :: m ++ s); [constructor; symmetry; apply Permutation_middle|].
    transitivity (y :: x :: m ++ s); [constructor|]. constructor. apply Permutation_middle.
Qed.
Lemma perm_zlen a a' : Permutation a a' -> zlen a = zlen a'.
Proof. intros H. unfold zlen. rewrite (Permutation_length H). reflexivity. Qed.
End Idx.

(** ** Quick sort pass: total, in bounds and a permutation for any reflexive comparison. *)
Section Sort.
Context {A : Type} (cmp : A -> A -> Z).
Implicit Types (a p s : list A) (x y : A).

Lemma acmp_some a i j : 0 <= i < zlen a -> 0 <= j < zlen a -> exists c, acmp cmp a i j = Some c.
Proof.
  intros Hi Hj. unfold acmp. apply aget_some_iff in Hi as [x ->]. apply aget_some_iff in Hj as [y ->]. eauto.
Qed.
Lemma acmp_refl a i c : (forall x, 0 <= cmp x x) -> acmp cmp a i i = Some c -> 0 <= c.
Proof. intros H. unfold acmp. destruct (aget a i); [|discriminate]. intros [= <-]. apply H. Qed.

Lemma qs_left_ok fuel : forall a first last lft, 0 <= first < zlen a -> 0 <= lft < last -> last < zlen a ->
  last - lft <= Z.of_nat fuel ->
  exists l, qs_left cmp fuel a first last lft = Some l /\ lft < l <= last.
Proof.
  induction fuel as [|f IH]; intros a first last lft Hf Hl Hz Hfu; [lia|].
  cbn [qs_left]. destruct (lft + 1 <? last) eqn:E; [|exists (lft + 1); split; [reflexivity|lia]].
  destruct (acmp_some a first (lft + 1) Hf ltac:(lia)) as [c ->].
  destruct (0 <? c); [|exists (lft + 1); split; [reflexivity|lia]].
  destruct (IH a first last (lft + 1)) as (l & -> & ?); try lia. exists l; split; [reflexivity|lia].
Qed.

Lemma qs_right_ok (Hrefl : forall x, 0 <= cmp x x) fuel : forall a first rgt, 0 <= first < rgt -> rgt <= zlen a ->
  rgt - first <= Z.of_nat fuel ->
  exists r, qs_right cmp fuel a first rgt = Some r /\ first <= r < rgt.
Proof.
  induction fuel as [|f IH]; intros a first rgt Hf Hr Hfu; [lia|].
  cbn [qs_right]. destruct (acmp_some a first (rgt - 1) ltac:(lia) ltac:(lia)) as [c Hc]. rewrite Hc.
  destruct (c <? 0) eqn:E; [|exists (rgt - 1); split; [reflexivity|lia]].
  assert (first < rgt - 1).
  { destruct (Z.eq_dec first (rgt - 1)) as [He|]; [|lia]. rewrite <- He in Hc. apply acmp_refl in Hc; [lia|assumption]. }
  destruct (IH a first (rgt - 1)) as (r & -> & ?); try lia. exists r; split; [reflexivity|lia].
Qed.

Lemma qs_part_ok (Hrefl : forall x, 0 <= cmp x x) fuel : forall a first last lft rgt,
  0 <= first <= lft -> lft < last -> lft < rgt -> rgt <= last + 1 -> last < zlen a ->
  rgt - first <= Z.of_nat fuel ->
  exists a' l r, qs_part cmp fuel a first last lft rgt = Some (a', l, r) /\ Permutation a a' /\
    first < l <= last /\ first <= r <= last.
Proof.
  induction fuel as [|f IH]; intros a first last lft rgt Hf Hl Hlr Hr Hz Hfu; [lia|].
  cbn [qs_part].
  destruct (qs_left_ok (S (length a)) a first last lft) as (l & -> & Hl2); try (unfold zlen in *; lia).
  destruct (qs_right_ok Hrefl (S (length a)) a first rgt) as (r & -> & Hr2); try (unfold zlen in *; lia).
  destruct (r <=? l) eqn:E.
  - exists a, l, r. split; [reflexivity|]. split; [reflexivity|lia].
  - destruct (aswap_perm a l r) as (a' & -> & Hp); try lia.
    destruct (IH a' first last l r) as (a'' & l' & r' & -> & Hp' & ? & ?); try lia.
    { rewrite <- (perm_zlen _ _ Hp). lia. }
    exists a'', l', r'. split; [reflexivity|]. split; [transitivity a'; assumption|lia].
Qed.

Lemma qs_ref_ok a first last : 0 <= first -> first + 1 < last -> last < zlen a ->
  exists r, qs_ref cmp a first last = Some r /\ first <= r <= last.
Proof.
  intros H1 H2 H3. unfold qs_ref. rewrite Z.shiftr_div_pow2 by lia. change (2 ^ 1) with 2.
  set (mid := first + (last - first) / 2). assert (first <= mid <= last) by (subst mid; lia).
  destruct (acmp_some a first last ltac:(lia) ltac:(lia)) as [fl ->].
  destruct (acmp_some a last mid ltac:(lia) ltac:(lia)) as [lm ->].
  destruct (acmp_some a first mid ltac:(lia) ltac:(lia)) as [fm ->].
  eexists; split; [reflexivity|].
  destruct (fl <? 0), (lm <? 0), (fm <? 0), (0 <=? fm); lia.
Qed.

Lemma in_qsort_ok (Hrefl : forall x, 0 <= cmp x x) fuel : forall a first last,
  0 <= first -> last < zlen a -> last - first <= Z.of_nat fuel ->
  exists a', in_qsort cmp fuel a first last = Some a' /\ Permutation a a'.
Proof.
  unfold QSORTMINLEN.
  induction fuel as [|f IH]; intros a first last H1 H2 H3; cbn [in_qsort]; unfold QSORTMINLEN in *;
    destruct (first + 16 <? last) eqn:E; try (exists a; split; reflexivity); [lia|].
  destruct (qs_ref_ok a first last) as (r & -> & Hr); try lia.
  assert (H0 : exists a0, (if r =? first then Some a else aswap a first r) = Some a0 /\ Permutation a a0).
  { destruct (r =? first) eqn:?; [exists a; split; reflexivity|]. apply aswap_perm; lia. }
  destruct H0 as (a0 & -> & Hp0). pose proof (perm_zlen _ _ Hp0) as Z0.
  destruct (qs_part_ok Hrefl (S (length a0)) a0 first last first (last + 1)) as (a1 & l & rg & -> & Hp1 & Hl & Hrg);
    try (unfold zlen in *; lia).
  pose proof (perm_zlen _ _ Hp1) as Z1.
  assert (Hp : Permutation a a1) by (transitivity a0; assumption).
  destruct (rg =? first) eqn:Erg.
  - destruct (IH a1 (first + 1) last) as (a2 & -> & Hp2); try lia. exists a2; split; [reflexivity|transitivity a1; assumption].
  - destruct (aswap_perm a1 first rg) as (a2 & -> & Hp2); try lia. pose proof (perm_zlen _ _ Hp2) as Z2.
    assert (Hq : Permutation a a2) by (transitivity a1; assumption).
    destruct (rg - 1 - first <? last - l).
    + assert (H : exists a3, (if 16 + first <? rg - 1 then in_qsort cmp f a2 first (rg - 1) else Some a2) = Some a3 /\ Permutation a2 a3).
      { destruct (16 + first <? rg - 1); [apply IH; lia|exists a2; split; reflexivity]. }
      destruct H as (a3 & -> & Hp3). pose proof (perm_zlen _ _ Hp3).
      destruct (IH a3 l last) as (a4 & -> & Hp4); try lia. exists a4. split; [reflexivity|].
      transitivity a2; [assumption|]. transitivity a3; assumption.
    + assert (H : exists a3, (if 16 + l <? last then in_qsort cmp f a2 l last else Some a2) = Some a3 /\ Permutation a2 a3).
      { destruct (16 + l <? last); [apply IH; lia|exists a2; split; reflexivity]. }
      destruct H as (a3 & -> & Hp3). pose proof (perm_zlen _ _ Hp3).
      destruct (IH a3 first (rg - 1)) as (a4 & -> & Hp4); try lia. exists a4. split; [reflexivity|].
      transitivity a2; [assumption|]. transitivity a3; assumption.
Qed.

(** ** Insertion sort *)
Fixpoint ins_r (x : A) (r : list A) : list A :=
  match r with
  | [] => [x]
  | y :: r' => if cmp x y <? 0 then y :: ins_r x r' else x :: r
  end.

Lemma is_inner_ok Q : forall fuel y h T tmp, (length Q < fuel)%nat ->
  is_inner cmp fuel (Q ++ y :: h :: T) (zlen Q) tmp = Some (rev (ins_r tmp (rev Q)) ++ y :: T).
Proof.
  induction Q as [|z Q IH] using rev_ind; intros fuel y h T tmp Hf; (destruct fuel as [|f]; [cbn in Hf; lia|]).
  - cbn [is_inner app]. change (@zlen A []) with 0. rewrite (aget_mid [] y (h :: T) : aget (y :: h :: T) 0 = Some y).
    rewrite (aset_mid [y] h T y : aset (y :: h :: T) (0 + 1) y = Some (y :: y :: T)).
    cbn [Z.eqb]. apply (aset_mid [] y (y :: T) tmp).
  - rewrite app_length in Hf. cbn [length] in Hf. cbn [is_inner].
    rewrite aget_mid.
    assert (E1 : aset ((Q ++ [z]) ++ y :: h :: T) (zlen (Q ++ [z]) + 1) y = Some ((Q ++ [z]) ++ y :: y :: T)).
    { replace ((Q ++ [z]) ++ y :: h :: T) with (((Q ++ [z]) ++ [y]) ++ h :: T) by (rewrite <- app_assoc; reflexivity).
      replace (zlen (Q ++ [z]) + 1) with (zlen ((Q ++ [z]) ++ [y])) by (rewrite (zlen_app (Q ++ [z])); reflexivity).
      rewrite aset_mid, <- app_assoc. reflexivity. }
    rewrite E1. rewrite zlen_app in *. change (zlen [z]) with 1. pose proof (zlen_nonneg Q).
    destruct (zlen Q + 1 =? 0) eqn:?; [lia|]. replace (zlen Q + 1 - 1) with (zlen Q) by lia.
    rewrite <- app_assoc. cbn [app]. rewrite aget_mid. rewrite rev_app_distr. cbn [rev app ins_r].
    destruct (cmp tmp z <? 0).
    + rewrite IH by lia. cbn [rev]. rewrite <- app_assoc. reflexivity.
    + cbn [rev]. rewrite rev_involutive. rewrite <- !app_assoc. cbn [app].
      change (Q ++ z :: y :: y :: T) with (Q ++ [z] ++ y :: y :: T). rewrite app_assoc.
      replace (zlen Q + 1) with (zlen (Q ++ [z])) by (rewrite zlen_app; reflexivity).
      rewrite aset_mid, <- app_assoc. reflexivity.
Qed.

Definition ins (s : list A) (x : A) : list A := rev (ins_r x (rev s)).

Lemma is_outer_ok rest : forall S, S <> [] ->
  is_outer cmp (length rest) (S ++ rest) (zlen S) = Some (fold_left ins rest S).
Proof.
  induction rest as [|x rest IH]; intros S HS; cbn [length is_outer fold_left].
  - rewrite app_nil_r. reflexivity.
  - rewrite aget_mid. destruct (exists_last HS) as (Q & y & ->).
    unfold acmp. rewrite aget_mid. rewrite <- app_assoc. cbn [app].
    replace (zlen (Q ++ [y]) - 1) with (zlen Q) by (rewrite zlen_app; change (zlen [y]) with 1; lia).
    rewrite aget_mid.
    assert (Hl : zlen (ins (Q ++ [y]) x) = zlen (Q ++ [y]) + 1).
    { assert (L : forall r, length (ins_r x r) = Datatypes.S (length r)).
      { induction r as [|z r IHr]; [reflexivity|]. cbn [ins_r]. destruct (cmp x z <? 0); cbn [length]; [rewrite IHr|]; reflexivity. }
      unfold ins, zlen. rewrite rev_length, L, rev_length. lia. }
    destruct (cmp x y <? 0) eqn:E.
    + rewrite is_inner_ok by (rewrite app_length; cbn [length]; lia).
      replace (rev (ins_r x (rev Q)) ++ y :: rest) with (ins (Q ++ [y]) x ++ rest).
      * rewrite <- Hl. apply IH. intros H0. rewrite H0 in Hl. unfold zlen in Hl. cbn in Hl. rewrite app_length in Hl. lia.
      * unfold ins. rewrite rev_app_distr. cbn [rev app ins_r]. rewrite E. cbn [rev]. rewrite <- app_assoc. reflexivity.
    + replace (Q ++ y :: x :: rest) with (ins (Q ++ [y]) x ++ rest).
      * rewrite <- Hl. apply IH. intros H0. rewrite H0 in Hl. unfold zlen in Hl. cbn in Hl. rewrite app_length in Hl. lia.
      * unfold ins. rewrite rev_app_distr. cbn [rev app ins_r]. rewrite E. cbn [rev]. rewrite rev_involutive.
        rewrite <- !app_assoc. reflexivity.
Qed.

Lemma ins_r_perm x r : Permutation (x :: r) (ins_r x r).
Proof.
  induction r as [|y r IH]; cbn [ins_r]; [reflexivity|]. destruct (cmp x y <? 0); [|reflexivity].
  transitivity (y :: x :: r); [constructor|]. constructor. exact IH.
Qed.
Lemma ins_perm s x : Permutation (s ++ [x]) (ins s x).
Proof.
  unfold ins. transitivity (x :: rev s); [|transitivity (ins_r x (rev s)); [apply ins_r_perm|apply Permutation_rev]].
  transitivity (x :: s); [symmetry; apply Permutation_cons_append|]. constructor. apply Permutation_rev.
Qed.
Lemma fold_ins_perm rest : forall S, Permutation (S ++ rest) (fold_left ins rest S).
Proof.
  induction rest as [|x rest IH]; intros S; cbn [fold_left]; [rewrite app_nil_r; reflexivity|].
  transitivity ((S ++ [x]) ++ rest); [rewrite <- app_assoc; reflexivity|].
  transitivity (ins S x ++ rest); [apply Permutation_app_tail, ins_perm|apply IH].
Qed.

Definition desc := StronglySorted (fun x y : A => cmp y x <= 0).
Lemma ss_snoc (R : A -> A -> Prop) l x : StronglySorted R l -> Forall (fun y => R y x) l -> StronglySorted R (l ++ [x]).
Proof.
  induction l as [|y l IH]; intros Hs Hf; cbn [app]; [repeat constructor|].
  inversion Hs; inversion Hf; subst. constructor; [apply IH; assumption|].
  apply Forall_app. split; [assumption|]. repeat constructor. assumption.
Qed.
Lemma ss_rev (R : A -> A -> Prop) l : StronglySorted R l -> StronglySorted (fun x y => R y x) (rev l).
Proof.
  induction 1 as [|x l Hs IH Hf]; cbn [rev]; [constructor|]. apply ss_snoc; [exact IH|].
  apply Forall_rev. exact Hf.
Qed.

Lemma pre_le_of_not_lt (Hp : total_preorder cmp) x y : ~ cmp x y < 0 -> cmp y x <= 0.
Proof. intros H. destruct Hp as [H1 _]. destruct (Z.lt_ge_cases 0 (cmp y x)) as [H2|H2]; [|assumption]. apply H1 in H2. lia. Qed.
Lemma pre_refl (Hp : total_preorder cmp) x : cmp x x = 0.
Proof. destruct Hp as [H1 _]. specialize (H1 x x). lia. Qed.

Lemma ins_r_sorted (Hp : total_preorder cmp) x r : desc r -> desc (ins_r x r).
Proof.
  unfold desc. induction 1 as [|y r Hs IH Hf]; cbn [ins_r]; [repeat constructor|].
  destruct (cmp x y <? 0) eqn:E.
  - constructor; [exact IH|]. apply (Permutation_Forall (ins_r_perm x r)). constructor; [lia|exact Hf].
  - assert (cmp y x <= 0) by (apply pre_le_of_not_lt; [assumption|lia]).
    constructor; [constructor; assumption|]. constructor; [assumption|].
    eapply Forall_impl; [|exact Hf]. intros z Hz. cbn in Hz. destruct Hp as [_ Ht]. eapply Ht; eassumption.
Qed.
Lemma fold_ins_sorted (Hp : total_preorder cmp) rest : forall S, desc (rev S) -> sorted_by cmp (fold_left ins rest S).
Proof.
  induction rest as [|x rest IH]; intros S HS; cbn [fold_left].
  - unfold sorted_by. rewrite <- (rev_involutive S). apply (ss_rev _ _ HS).
  - apply IH. unfold ins. rewrite rev_involutive. apply ins_r_sorted; assumption.
Qed.

Lemma ins_r_class (Hp : total_preorder cmp) w x r : class_of cmp w (ins_r x r) = class_of cmp w (x :: r).
Proof.
  unfold class_of. induction r as [|y r IH]; cbn [ins_r]; [reflexivity|].
  destruct (cmp x y <? 0) eqn:E; [|reflexivity].
  cbn [filter] in *. rewrite IH. destruct (cmp w x =? 0) eqn:Ex; [|reflexivity].
  destruct (cmp w y =? 0) eqn:Ey; [|reflexivity]. exfalso.
  destruct Hp as [H1 Ht]. pose proof (H1 w y). pose proof (H1 y w). pose proof (Ht y w x ltac:(lia) ltac:(lia)).
  pose proof (H1 x y). lia.
Qed.
Lemma class_app w l l' : class_of cmp w (l ++ l') = class_of cmp w l ++ class_of cmp w l'.
Proof. apply filter_app. Qed.
Lemma filter_rev' (f : A -> bool) l : filter f (rev l) = rev (filter f l).
Proof.
  induction l as [|x l IH]; cbn [rev filter]; [reflexivity|]. rewrite filter_app, IH. cbn [filter].
  destruct (f x); cbn [rev]; [reflexivity|apply app_nil_r].
Qed.
Lemma ins_class (Hp : total_preorder cmp) w s x : class_of cmp w (ins s x) = class_of cmp w (s ++ [x]).
Proof.
  unfold ins. unfold class_of at 1. rewrite filter_rev'. fold (class_of cmp w (ins_r x (rev s))).
  rewrite (ins_r_class Hp). unfold class_of. rewrite <- filter_rev'. cbn [rev]. rewrite rev_involutive. reflexivity.
Qed.
Lemma fold_ins_class (Hp : total_preorder cmp) w rest : forall S, class_of cmp w (fold_left ins rest S) = class_of cmp w (S ++ rest).
Proof.
  induction rest as [|x rest IH]; intros S; cbn [fold_left]; [rewrite app_nil_r; reflexivity|].
  rewrite IH, class_app, (ins_class Hp), <- class_app, <- app_assoc. reflexivity.
Qed.

(** ** Duplicate removal *)
Fixpoint dd (d : A) (l : list A) : list A :=
  match l with
  | [] => []
  | x :: l' => if cmp x d =? 0 then dd d l' else x :: dd x l'
  end.
Lemma uniq_loop_ok todo : forall D d G, 
  uniq_loop cmp (length todo) ((D ++ [d]) ++ G ++ todo) (zlen D + 1 + zlen G) (zlen D) = Some ((D ++ [d]) ++ dd d todo).
Proof.
  induction todo as [|x todo IH]; intros D d G; cbn [length uniq_loop dd].
  - f_equal. rewrite !app_nil_r. rewrite firstn_app.
    replace (Z.to_nat (zlen D + 1)) with (length (D ++ [d])) by (rewrite app_length; unfold zlen; cbn [length]; lia).
    rewrite firstn_all, Nat.sub_diag. cbn [firstn]. apply app_nil_r.
  - rewrite app_assoc. assert (E1 : aget (((D ++ [d]) ++ G) ++ x :: todo) (zlen D + 1 + zlen G) = Some x).
    { replace (zlen D + 1 + zlen G) with (zlen ((D ++ [d]) ++ G)) by (rewrite !zlen_app; reflexivity). apply aget_mid. }
    unfold acmp. rewrite E1.
    assert (E2 : aget (((D ++ [d]) ++ G) ++ x :: todo) (zlen D) = Some d).
    { rewrite <- !app_assoc. cbn [app]. apply aget_mid. }
    rewrite E2. destruct (cmp x d =? 0).
    + specialize (IH D d (G ++ [x])). rewrite <- !app_assoc in IH. cbn [app] in IH. rewrite <- !app_assoc. cbn [app].
      rewrite <- IH. f_equal. rewrite zlen_app. change (zlen [x]) with 1. lia.
    + destruct G as [|g G].
      * rewrite app_nil_r.
        replace (zlen D + 1) with (zlen (D ++ [d])) by (rewrite zlen_app; reflexivity).
        rewrite aset_mid. specialize (IH (D ++ [d]) x []). cbn [app] in IH. change (zlen []) with 0 in *.
        rewrite <- app_assoc in IH. cbn [app] in IH. rewrite <- (app_assoc (D ++ [d])) in IH. cbn [app] in IH.
        replace (zlen (D ++ [d]) + 0 + 1) with (zlen (D ++ [d]) + 1 + 0) by lia. rewrite IH. reflexivity.
      * replace (zlen D + 1) with (zlen (D ++ [d])) at 1 by (rewrite zlen_app; reflexivity).
        rewrite <- (app_assoc (D ++ [d])). cbn [app]. rewrite aset_mid.
        specialize (IH (D ++ [d]) x (G ++ [x])).
        rewrite <- !(app_assoc _ [x]) in IH. cbn [app] in IH. rewrite <- !app_assoc in IH. cbn [app] in IH.
        rewrite <- !app_assoc. cbn [app]. rewrite <- IH. f_equal; [|rewrite zlen_app; reflexivity].
        rewrite !zlen_app, zlen_cons. change (zlen [x]) with 1. change (zlen [d]) with 1. lia.
Qed.

Lemma dd_incl d l x : In x (dd d l) -> In x l.
Proof.
  revert d. induction l as [|y l IH]; intros d; cbn [dd]; [tauto|]. destruct (cmp y d =? 0).
  - intros H. right. eapply IH; exact H.
  - intros [->|H]; [left; reflexivity|right; eapply IH; exact H].
Qed.
Lemma pre_lt_le_trans (Hp : total_preorder cmp) x y z : cmp x y < 0 -> cmp y z <= 0 -> cmp x z < 0.
Proof.
  intros H1 H2. destruct Hp as [Ha Ht]. destruct (Z.lt_ge_cases (cmp x z) 0) as [|H]; [assumption|].
  assert (cmp z x <= 0) by (pose proof (Ha z x); pose proof (Ha x z); lia).
  pose proof (Ht y z x H2 H0). pose proof (Ha x y). lia.
Qed.
Lemma dd_strict (Hp : total_preorder cmp) l : forall d, sorted_by cmp (d :: l) -> strictly_sorted_by cmp (d :: dd d l).
Proof.
  unfold sorted_by, strictly_sorted_by. induction l as [|x l IH]; intros d Hs; cbn [dd]; [repeat constructor|].
  inversion Hs as [|? ? Hs' Hf]; subst. inversion Hf; subst. inversion Hs' as [|? ? Hs'' Hf']; subst.
  destruct (cmp x d =? 0) eqn:E.
  - apply IH. constructor; assumption.
  - assert (Hlt : cmp d x < 0) by (destruct Hp as [Ha _]; pose proof (Ha d x); pose proof (Ha x d); lia).
    constructor; [apply IH; constructor; assumption|].
    constructor; [assumption|]. apply Forall_forall. intros y Hy. apply dd_incl in Hy.
    rewrite Forall_forall in Hf'. eapply pre_lt_le_trans; [assumption|exact Hlt|]. apply Hf'. exact Hy.
Qed.
Lemma dd_covers (Hp : total_preorder cmp) l x : forall d, In x (d :: l) -> exists y, In y (d :: dd d l) /\ cmp x y = 0.
Proof.
  induction l as [|z l IH]; intros d [->|Hin].
  - exists x. split; [left; reflexivity|apply pre_refl; assumption].
  - destruct Hin.
  - exists x. split; [left; reflexivity|apply pre_refl; assumption].
  - cbn [dd]. destruct (cmp z d =? 0) eqn:E.
    + destruct Hin as [->|Hin]; [exists d; split; [left; reflexivity|lia]|].
      apply IH. right; exact Hin.
    + destruct (IH z Hin) as (y & Hy & Hc). exists y. split; [right; exact Hy|exact Hc].
Qed.

(** ** The whole sort *)
Lemma array_sort_shape (Hrefl : forall x, 0 <= cmp x x) fast a : 1 < zlen a ->
  exists h t, Permutation a (h :: t) /\ (fast = false -> a = h :: t) /\
   let r := fold_left ins t [h] in
   array_sort cmp fast false a = Some r /\
   (exists h' t', r = h' :: t' /\ array_sort cmp fast true a = Some (h' :: dd h' t')).
Proof.
  intros Hlen. unfold array_sort. destruct (zlen a <=? 1) eqn:?; [lia|].
  assert (H : exists a', (if fast then in_qsort cmp (length a) a 0 (zlen a - 1) else Some a) = Some a' /\ Permutation a a' /\ (fast = false -> a = a')).
  { destruct fast.
    - destruct (in_qsort_ok Hrefl (length a) a 0 (zlen a - 1)) as (a' & -> & Hp); try (unfold zlen in *; lia).
      exists a'. repeat split; [assumption|discriminate].
    - exists a. repeat split; reflexivity. }
  destruct H as (a' & -> & Hp & Hf). pose proof (perm_zlen _ _ Hp).
  destruct a' as [|h t]; [cbn in *; lia|]. exists h, t. split; [assumption|]. split; [assumption|]. cbv zeta.
  assert (E : is_outer cmp (length (h :: t) - 1) (h :: t) 1 = Some (fold_left ins t [h])).
  { replace (length (h :: t) - 1)%nat with (length t) by (cbn [length]; lia).
    apply (is_outer_ok t [h]). discriminate. }
  rewrite E. split; [reflexivity|].
  pose proof (Permutation_length (fold_ins_perm t [h])) as Hlen2.
  destruct (fold_left ins t [h]) as [|h' t']; [cbn in Hlen2; lia|]. exists h', t'. split; [reflexivity|].
  replace (length (h' :: t') - 1)%nat with (length t') by (cbn [length]; lia).
  exact (uniq_loop_ok t' [] h' []).
Qed.

Lemma array_sort_short fast unique a : zlen a <= 1 -> array_sort cmp fast unique a = Some a.
Proof. intros. unfold array_sort. destruct (zlen a <=? 1) eqn:?; [reflexivity|lia]. Qed.

Lemma short_cases a : zlen a <= 1 -> a = [] \/ exists x, a = [x].
Proof. destruct a as [|x [|y a]]; [left; reflexivity|right; eauto|]. rewrite !zlen_cons. pose proof (zlen_nonneg a). lia. Qed.

(** C21 *)
Lemma array_sort_perm (Hrefl : forall x, 0 <= cmp x x) fast a :
  exists r, array_sort cmp fast false a = Some r /\ Permutation a r.
Proof.
  destruct (Z.le_gt_cases (zlen a) 1) as [H|H].
  - exists a. rewrite array_sort_short by assumption. split; reflexivity.
  - destruct (array_sort_shape Hrefl fast a ltac:(lia)) as (h & t & Hp & _ & Hs & _).
    eexists; split; [exact Hs|]. transitivity (h :: t); [assumption|]. apply (fold_ins_perm t [h]).
Qed.
Lemma array_sort_sorted (Hp : total_preorder cmp) fast a :
  exists r, array_sort cmp fast false a = Some r /\ Permutation a r /\ sorted_by cmp r.
Proof.
  assert (Hrefl : forall x, 0 <= cmp x x) by (intros; rewrite pre_refl by assumption; lia).
  destruct (array_sort_perm Hrefl fast a) as (r & Hr & Hpm). exists r. split; [assumption|]. split; [assumption|].
  destruct (Z.le_gt_cases (zlen a) 1) as [H|H].
  - rewrite array_sort_short in Hr by assumption. apply some_inj in Hr. subst r.
    destruct (short_cases a H) as [->|[x ->]]; repeat constructor.
  - destruct (array_sort_shape Hrefl fast a ltac:(lia)) as (h & t & _ & _ & Hs & _).
    rewrite Hs in Hr. apply some_inj in Hr. subst r. apply fold_ins_sorted; [assumption|]. repeat constructor.
Qed.
Lemma array_sort_stable (Hp : total_preorder cmp) a :
  exists r, array_sort cmp false false a = Some r /\ forall x, class_of cmp x r = class_of cmp x a.
Proof.
  assert (Hrefl : forall x, 0 <= cmp x x) by (intros; rewrite pre_refl by assumption; lia).
  destruct (Z.le_gt_cases (zlen a) 1) as [H|H].
  - exists a. rewrite array_sort_short by assumption. split; reflexivity.
  - destruct (array_sort_shape Hrefl false a ltac:(lia)) as (h & t & _ & Ha & Hs & _).
    eexists; split; [exact Hs|]. intros x. rewrite (fold_ins_class Hp). cbn [app]. rewrite <- Ha by reflexivity. reflexivity.
Qed.
Lemma array_sort_unique (Hp : total_preorder cmp) fast a :
  exists r, array_sort cmp fast true a = Some r /\ strictly_sorted_by cmp r /\
    (forall x, In x r -> In x a) /\ (forall x, In x a -> exists y, In y r /\ cmp x y = 0).
Proof.
  assert (Hrefl : forall x, 0 <= cmp x x) by (intros; rewrite pre_refl by assumption; lia).
  destruct (Z.le_gt_cases (zlen a) 1) as [H|H].
  - exists a. rewrite array_sort_short by assumption. split; [reflexivity|].
    split; [destruct (short_cases a H) as [->|[x ->]]; repeat constructor|].
    split; [auto|]. intros x Hx. exists x. split; [assumption|apply pre_refl; assumption].
  - destruct (array_sort_shape Hrefl fast a ltac:(lia)) as (h & t & Hpm & _ & Hs & h' & t' & Hr & Hu).
    exists (h' :: dd h' t'). split; [exact Hu|].
    assert (Hsorted : sorted_by cmp (h' :: t')).
    { rewrite <- Hr. apply fold_ins_sorted; [assumption|]. repeat constructor. }
    assert (Hpm2 : Permutation a (h' :: t')).
    { transitivity (h :: t); [assumption|]. rewrite <- Hr. apply (fold_ins_perm t [h]). }
    split; [apply dd_strict; assumption|]. split.
    + intros x Hx. apply (Permutation_in x (Permutation_sym Hpm2)).
      destruct Hx as [->|Hx]; [left; reflexivity|right; eapply dd_incl; exact Hx].
    + intros x Hx. apply dd_covers; [assumption|]. apply (Permutation_in x Hpm2 Hx).
Qed.
End Sort.
