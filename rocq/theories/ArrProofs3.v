(** Sorting commutes with relabelling the items, so an order on the items present is enough. *)
From Coq Require Import Permutation Sorted.
From Verif Require Import Base Arr ArrSpec ArrProofs ArrProofs2.

Section Map.
Context {A B : Type} (f : B -> A) (cmp : A -> A -> Z).
Let cmpf : B -> B -> Z := fun x y => cmp (f x) (f y).

Lemma aget_map a i : aget (map f a) i = option_map f (aget a i).
Proof. unfold aget. destruct (i <? 0); [reflexivity|]. apply nth_error_map. Qed.
Lemma upd_map a n x : upd (map f a) n (f x) = map f (upd a n x).
Proof. revert n. induction a as [|y a IH]; intros [|n]; cbn; [reflexivity..|]. rewrite IH. reflexivity. Qed.
Lemma zlen_map {X Y} (g : X -> Y) a : zlen (map g a) = zlen a.
Proof. unfold zlen. rewrite map_length. reflexivity. Qed.
Lemma aset_map a i x : aset (map f a) i (f x) = option_map (map f) (aset a i x).
Proof. unfold aset. rewrite zlen_map. destruct (_ || _); [reflexivity|]. cbn. rewrite upd_map. reflexivity. Qed.
Lemma acmp_map a i j : acmp cmp (map f a) i j = acmp cmpf a i j.
Proof. unfold acmp. rewrite !aget_map. destruct (aget a i), (aget a j); reflexivity. Qed.
Lemma aswap_map a i j : aswap (map f a) i j = option_map (map f) (aswap a i j).
Proof.
  unfold aswap. rewrite !aget_map. destruct (aget a i) as [x|], (aget a j) as [y|]; cbn [option_map]; try reflexivity.
  rewrite aset_map. destruct (aset a i y) as [a'|]; cbn [option_map]; [apply aset_map|reflexivity].
Qed.
Lemma qs_ref_map a p q : qs_ref cmp (map f a) p q = qs_ref cmpf a p q.
Proof. unfold qs_ref. rewrite !acmp_map. reflexivity. Qed.
Lemma qs_left_map n a p q l : qs_left cmp n (map f a) p q l = qs_left cmpf n a p q l.
Proof. revert l. induction n as [|n IH]; intros l; cbn [qs_left]; [reflexivity|]. rewrite acmp_map. destruct (_ <? _); [|reflexivity]. destruct (acmp _ _ _ _); [|reflexivity]. rewrite IH. reflexivity. Qed.
Lemma qs_right_map n a p r : qs_right cmp n (map f a) p r = qs_right cmpf n a p r.
Proof. revert r. induction n as [|n IH]; intros r; cbn [qs_right]; [reflexivity|]. rewrite acmp_map. destruct (acmp _ _ _ _); [|reflexivity]. rewrite IH. reflexivity. Qed.
Definition part_map (r : option (list B * Z * Z)) : option (list A * Z * Z) := option_map (fun '(a, l, r) => (map f a, l, r)) r.
Lemma qs_part_map n a p q l r : qs_part cmp n (map f a) p q l r = part_map (qs_part cmpf n a p q l r).
Proof.
  revert a l r. induction n as [|n IH]; intros a l r; cbn [qs_part]; [reflexivity|]. rewrite map_length, qs_left_map.
  destruct (qs_left _ _ _ _ _ _) as [l'|]; [|reflexivity]. rewrite qs_right_map. destruct (qs_right _ _ _ _ _) as [r'|]; [|reflexivity].
  destruct (r' <=? l'); [reflexivity|]. rewrite aswap_map. destruct (aswap a l' r') as [a'|]; cbn [option_map]; [apply IH|reflexivity].
Qed.
Lemma in_qsort_map n a p q : in_qsort cmp n (map f a) p q = option_map (map f) (in_qsort cmpf n a p q).
Proof.
  revert a p q. induction n as [|n IH]; intros a p q; cbn [in_qsort]; (destruct (_ <? _); [|reflexivity]); [reflexivity|].
  rewrite qs_ref_map. destruct (qs_ref _ _ _ _) as [ref|]; [|reflexivity].
  replace (if ref =? p then Some (map f a) else aswap (map f a) p ref) with (option_map (map f) (if ref =? p then Some a else aswap a p ref)) by (destruct (ref =? p); [reflexivity|symmetry; apply aswap_map]).
  destruct (if ref =? p then Some a else aswap a p ref) as [a1|]; cbn [option_map]; [|reflexivity].
  rewrite qs_part_map, map_length. destruct (qs_part _ _ _ _ _ _ _) as [[[a2 l] r]|]; cbn [part_map option_map]; [|reflexivity].
  destruct (r =? p); [apply IH|]. rewrite aswap_map. destruct (aswap a2 p r) as [a3|]; cbn [option_map]; [|reflexivity].
  destruct (_ <? _).
  - replace (if QSORTMINLEN + p <? r - 1 then in_qsort cmp n (map f a3) p (r - 1) else Some (map f a3))
      with (option_map (map f) (if QSORTMINLEN + p <? r - 1 then in_qsort cmpf n a3 p (r - 1) else Some a3)) by (destruct (_ <? _); [symmetry; apply IH|reflexivity]).
    destruct (if QSORTMINLEN + p <? r - 1 then in_qsort cmpf n a3 p (r - 1) else Some a3) as [a4|]; cbn [option_map]; [apply IH|reflexivity].
  - replace (if QSORTMINLEN + l <? q then in_qsort cmp n (map f a3) l q else Some (map f a3))
      with (option_map (map f) (if QSORTMINLEN + l <? q then in_qsort cmpf n a3 l q else Some a3)) by (destruct (_ <? _); [symmetry; apply IH|reflexivity]).
    destruct (if QSORTMINLEN + l <? q then in_qsort cmpf n a3 l q else Some a3) as [a4|]; cbn [option_map]; [apply IH|reflexivity].
Qed.
Lemma is_inner_map n a j x : is_inner cmp n (map f a) j (f x) = option_map (map f) (is_inner cmpf n a j x).
Proof.
  revert a j. induction n as [|n IH]; intros a j; cbn [is_inner]; [reflexivity|]. rewrite aget_map. destruct (aget a j) as [y|]; cbn [option_map]; [|reflexivity].
  rewrite aset_map. destruct (aset a (j + 1) y) as [a1|]; cbn [option_map]; [|reflexivity]. destruct (j =? 0); [apply aset_map|].
  rewrite aget_map. destruct (aget a1 (j - 1)) as [z|]; cbn [option_map]; [|reflexivity]. unfold cmpf. destruct (_ <? 0); [apply IH|apply aset_map].
Qed.
Lemma is_outer_map k a i : is_outer cmp k (map f a) i = option_map (map f) (is_outer cmpf k a i).
Proof.
  revert a i. induction k as [|k IH]; intros a i; cbn [is_outer]; [reflexivity|]. rewrite acmp_map, aget_map.
  destruct (aget a i) as [x|]; cbn [option_map]; [|reflexivity]. destruct (acmp cmpf a i (i - 1)) as [c|]; [|reflexivity].
  destruct (c <? 0); [|apply IH]. rewrite map_length, is_inner_map. destruct (is_inner _ _ _ _ _) as [a'|]; cbn [option_map]; [apply IH|reflexivity].
Qed.
Lemma array_sort_map fast a : array_sort cmp fast false (map f a) = option_map (map f) (array_sort cmpf fast false a).
Proof.
  unfold array_sort. rewrite zlen_map, map_length. destruct (zlen a <=? 1); [reflexivity|].
  replace (if fast then in_qsort cmp (length a) (map f a) 0 (zlen a - 1) else Some (map f a))
    with (option_map (map f) (if fast then in_qsort cmpf (length a) a 0 (zlen a - 1) else Some a)) by (destruct fast; [symmetry; apply in_qsort_map|reflexivity]).
  destruct (if fast then in_qsort cmpf (length a) a 0 (zlen a - 1) else Some a) as [a1|]; cbn [option_map]; [|reflexivity].
  rewrite map_length, is_outer_map. destruct (is_outer _ _ _ _); reflexivity.
Qed.
End Map.

Section On.
Context {A : Type} (P : A -> bool) (cmp : A -> A -> Z).
Lemma lift_list (a : list A) : Forall (fun x => P x = true) a -> exists l : list {x | P x = true}, map (@proj1_sig _ _) l = a.
Proof. induction 1 as [|x a H _ [l <-]]; [exists []; reflexivity|]. exists (exist _ x H :: l). reflexivity. Qed.
Lemma sorted_map {B} (f : B -> A) (R : A -> A -> Prop) l : StronglySorted (fun x y => R (f x) (f y)) l -> StronglySorted R (map f l).
Proof. induction 1 as [|x l H IH Hf]; cbn; constructor; [exact IH|]. apply Forall_map. exact Hf. Qed.

(** An order on the items that satisfy [P] sorts arrays of such items. *)
Lemma array_sort_on fast a : Forall (fun x => P x = true) a ->
  (forall x y, P x = true -> P y = true -> (cmp x y < 0 <-> 0 < cmp y x)) ->
  (forall x y z, P x = true -> P y = true -> P z = true -> cmp x y <= 0 -> cmp y z <= 0 -> cmp x z <= 0) ->
  exists r, array_sort cmp fast false a = Some r /\ Permutation a r /\ sorted_by cmp r.
Proof.
  intros Ha H1 H2. destruct (lift_list a Ha) as [l <-].
  destruct (array_sort_sorted (fun x y : {x | P x = true} => cmp (proj1_sig x) (proj1_sig y))) with (fast := fast) (a := l) as (r & Hr & Hp & Hs).
  { split; [intros [x Hx] [y Hy]; apply H1; assumption|intros [x Hx] [y Hy] [z Hz]; apply H2; assumption]. }
  exists (map (@proj1_sig _ _) r). rewrite array_sort_map, Hr. split; [reflexivity|]. split; [apply Permutation_map, Hp|].
  unfold sorted_by in *. apply sorted_map. exact Hs.
Qed.
End On.
