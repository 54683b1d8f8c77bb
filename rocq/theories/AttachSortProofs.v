(** Proofs about the order of attachments. *)
From Coq Require Import Permutation Sorted.
From Verif Require Import Base BaseProofs Arr ArrSpec ArrProofs NodeTree NodeTreeSpec NodeTreeProofs CuesProofs Tree Str StrSpec StrProofs DurationsProofs AttachSort AttachSortSpec.

(** ** The sort when items may be below themselves *)
Section Gen.
Context {A : Type} (cmp : A -> A -> Z).
Implicit Types (a : list A) (x y : A).

Lemma nth_upd a : forall n k x, nth_error (upd a n x) k = if (k =? n)%nat then (match nth_error a k with Some _ => Some x | None => None end) else nth_error a k.
Proof.
  induction a as [|h t IH]; intros n k x; cbn [upd].
  - destruct k; cbn [nth_error]; destruct (_ =? _)%nat; reflexivity.
  - destruct n, k; cbn [nth_error Nat.eqb]; [reflexivity..|]. apply IH.
Qed.
Lemma aswap_get a i j a' k : aswap a i j = Some a' -> aget a' k = if k =? j then aget a i else if k =? i then aget a j else aget a k.
Proof.
  unfold aswap, aset. destruct (aget a i) as [x|] eqn:Ei; [|discriminate]. destruct (aget a j) as [y|] eqn:Ej; [|discriminate].
  assert (Hi : 0 <= i < zlen a) by (apply aget_some_iff; eauto). assert (Hj : 0 <= j < zlen a) by (apply aget_some_iff; eauto).
  destruct ((i <? 0) || (zlen a <=? i)) eqn:B; [discriminate|]. destruct ((j <? 0) || (_ <=? j)); [discriminate|]. intros [= <-].
  unfold aget in *. destruct (Z.ltb_spec k 0); [replace (k =? j) with false by lia; replace (k =? i) with false by lia; reflexivity|].
  rewrite !nth_upd. replace (i <? 0) with false in Ei by lia. replace (j <? 0) with false in Ej by lia. destruct (Z.eqb_spec k j) as [->|].
  - rewrite Nat.eqb_refl. rewrite Ej. destruct (_ =? _)%nat; reflexivity.
  - replace (Z.to_nat k =? Z.to_nat j)%nat with false by (symmetry; apply Nat.eqb_neq; lia). destruct (Z.eqb_spec k i) as [->|].
    + rewrite Nat.eqb_refl, Ei. reflexivity.
    + replace (Z.to_nat k =? Z.to_nat i)%nat with false by (symmetry; apply Nat.eqb_neq; lia). reflexivity.
Qed.

Definition lowest x a : Prop := forall y, In y a -> y <> x -> cmp x y < 0 /\ 0 < cmp y x.
Definition highest x a : Prop := forall y, In y a -> y <> x -> 0 < cmp x y /\ cmp y x < 0.
Definition tame a : Prop := NoDup a /\ forall x, In x a -> 0 <= cmp x x \/ lowest x a \/ highest x a.
Lemma tame_perm a a' : Permutation a a' -> tame a -> tame a'.
Proof.
  intros P [N H]. split; [eapply Permutation_NoDup; eassumption|]. intros x Hx.
  destruct (H x) as [K|[K|K]]; [eapply Permutation_in; [symmetry; exact P|exact Hx]|left; exact K|right; left|right; right];
    intros y Hy; apply K; (eapply Permutation_in; [symmetry; exact P|exact Hy]).
Qed.

Lemma qs_right_ok' fuel : forall a first rgt, (forall c, acmp cmp a first first = Some c -> 0 <= c) -> 0 <= first < rgt -> rgt <= zlen a ->
  rgt - first <= Z.of_nat fuel ->
  exists r, qs_right cmp fuel a first rgt = Some r /\ first <= r < rgt.
Proof.
  induction fuel as [|f IH]; intros a first rgt Hp Hf Hr Hfu; [lia|].
  cbn [qs_right]. destruct (acmp_some cmp a first (rgt - 1) ltac:(lia) ltac:(lia)) as [c Hc]. rewrite Hc.
  destruct (c <? 0) eqn:E; [|exists (rgt - 1); split; [reflexivity|lia]].
  assert (first < rgt - 1).
  { destruct (Z.eq_dec first (rgt - 1)) as [He|]; [|lia]. rewrite <- He in Hc. apply Hp in Hc. lia. }
  destruct (IH a first (rgt - 1) Hp) as (r & -> & ?); try lia. exists r; split; [reflexivity|lia].
Qed.
Lemma qs_part_ok' fuel : forall a first last lft rgt, (forall c, acmp cmp a first first = Some c -> 0 <= c) ->
  0 <= first <= lft -> lft < last -> lft < rgt -> rgt <= last + 1 -> last < zlen a ->
  rgt - first <= Z.of_nat fuel ->
  exists a' l r, qs_part cmp fuel a first last lft rgt = Some (a', l, r) /\ Permutation a a' /\
    first < l <= last /\ first <= r <= last.
Proof.
  induction fuel as [|f IH]; intros a first last lft rgt Hc Hf Hl Hlr Hr Hz Hfu; [lia|].
  cbn [qs_part].
  destruct (qs_left_ok cmp (S (length a)) a first last lft) as (l & -> & Hl2); try (unfold zlen in *; lia).
  destruct (qs_right_ok' (S (length a)) a first rgt Hc) as (r & -> & Hr2); try (unfold zlen in *; lia).
  destruct (r <=? l) eqn:E.
  - exists a, l, r. split; [reflexivity|]. split; [reflexivity|lia].
  - destruct (aswap_perm a l r) as (a' & Es & Hp); try lia. rewrite Es.
    destruct (IH a' first last l r) as (a'' & l' & r' & -> & Hp' & ? & ?); try lia.
    { unfold acmp. rewrite (aswap_get a l r a' first Es). replace (first =? r) with false by lia. replace (first =? l) with false by lia. exact Hc. }
    { rewrite <- (perm_zlen _ _ Hp). lia. }
    exists a'', l', r'. split; [reflexivity|]. split; [transitivity a'; assumption|lia].
Qed.

Lemma nodup_get a i j x : NoDup a -> aget a i = Some x -> aget a j = Some x -> i = j.
Proof.
  intros N Hi Hj. unfold aget in *. destruct (Z.ltb_spec i 0); [discriminate|]. destruct (Z.ltb_spec j 0); [discriminate|].
  assert (Z.to_nat i = Z.to_nat j); [|lia]. apply (proj1 (NoDup_nth_error a) N); [apply nth_error_Some; congruence|congruence].
Qed.
Lemma qs_ref_ok' a first last : tame a -> 0 <= first -> first + 2 < last -> last < zlen a ->
  exists r x, qs_ref cmp a first last = Some r /\ first <= r <= last /\ aget a r = Some x /\ 0 <= cmp x x.
Proof.
  intros [N T] H1 H2 H3. unfold qs_ref. rewrite Z.shiftr_div_pow2 by lia. change (2 ^ 1) with 2.
  set (mid := first + (last - first) / 2). assert (Hm : first < mid < last) by (subst mid; lia).
  destruct (proj2 (aget_some_iff a first)) as [xf Ef]; [lia|]. destruct (proj2 (aget_some_iff a last)) as [xl El]; [lia|].
  destruct (proj2 (aget_some_iff a mid)) as [xm Em]; [lia|]. unfold acmp. rewrite Ef, El, Em.
  assert (D1 : xf <> xl) by (intros ->; pose proof (nodup_get a _ _ _ N Ef El); lia).
  assert (D2 : xf <> xm) by (intros ->; pose proof (nodup_get a _ _ _ N Ef Em); lia).
  assert (D3 : xl <> xm) by (intros ->; pose proof (nodup_get a _ _ _ N El Em); lia).
  pose proof (aget_in _ _ _ Ef) as If. pose proof (aget_in _ _ _ El) as Il. pose proof (aget_in _ _ _ Em) as Im.
  assert (Q : forall r x, first <= r <= last -> aget a r = Some x -> 0 <= cmp x x -> exists r' y, Some r = Some r' /\ first <= r' <= last /\ aget a r' = Some y /\ 0 <= cmp y y) by (intros r x ? ? ?; exists r, x; tauto).
  assert (F : (cmp xf xl < 0 -> cmp xf xm < 0 -> False) -> (0 <= cmp xf xl -> 0 <= cmp xf xm -> False) -> 0 <= cmp xf xf).
  { intros P1 P2. destruct (T xf If) as [K|[K|K]]; [exact K|exfalso..]; [apply P1|apply P2]; try (apply K; auto); pose proof (K xl Il ltac:(auto)); pose proof (K xm Im ltac:(auto)); lia. }
  destruct (Z.ltb_spec (cmp xf xl) 0) as [A1|A1].
  - destruct (Z.ltb_spec (cmp xl xm) 0) as [A2|A2]; [|destruct (Z.ltb_spec (cmp xf xm) 0) as [A3|A3]].
    + eapply Q; [lia|exact El|]. destruct (T xl Il) as [K|[K|K]]; [exact K|pose proof (K xf If D1); lia|pose proof (K xm Im ltac:(auto)); lia].
    + eapply Q; [lia|exact Em|]. destruct (T xm Im) as [K|[K|K]]; [exact K|pose proof (K xf If D2); lia|pose proof (K xl Il D3); lia].
    + eapply Q; [lia|exact Ef|]. apply F; lia.
  - destruct (Z.leb_spec 0 (cmp xf xm)) as [A3|A3]; [destruct (Z.ltb_spec (cmp xl xm) 0) as [A2|A2]|].
    + eapply Q; [lia|exact Em|]. destruct (T xm Im) as [K|[K|K]]; [exact K|pose proof (K xl Il D3); lia|pose proof (K xf If D2); lia].
    + eapply Q; [lia|exact El|]. destruct (T xl Il) as [K|[K|K]]; [exact K|pose proof (K xm Im ltac:(auto)); lia|pose proof (K xf If D1); lia].
    + eapply Q; [lia|exact Ef|]. apply F; lia.
Qed.

Lemma in_qsort_ok' fuel : forall a first last, tame a ->
  0 <= first -> last < zlen a -> last - first <= Z.of_nat fuel ->
  exists a', in_qsort cmp fuel a first last = Some a' /\ Permutation a a'.
Proof.
  unfold QSORTMINLEN.
  induction fuel as [|f IH]; intros a first last T H1 H2 H3; cbn [in_qsort]; unfold QSORTMINLEN in *;
    destruct (first + 16 <? last) eqn:E; try (exists a; split; reflexivity); [lia|].
  destruct (qs_ref_ok' a first last T) as (r & p & -> & Hr & Gp & Cp); try lia.
  assert (H0 : exists a0, (if r =? first then Some a else aswap a first r) = Some a0 /\ Permutation a a0 /\ aget a0 first = Some p).
  { destruct (Z.eqb_spec r first) as [->|]; [exists a; split; [reflexivity|split; [reflexivity|exact Gp]]|].
    destruct (aswap_perm a first r) as (a0 & E0 & P0); try lia. exists a0. split; [exact E0|]. split; [exact P0|].
    rewrite (aswap_get a first r a0 first E0). replace (first =? r) with false by lia. rewrite Z.eqb_refl. exact Gp. }
  destruct H0 as (a0 & -> & Hp0 & G0). pose proof (perm_zlen _ _ Hp0) as Z0.
  destruct (qs_part_ok' (S (length a0)) a0 first last first (last + 1)) as (a1 & l & rg & -> & Hp1 & Hl & Hrg);
    try (unfold zlen in *; lia).
  { unfold acmp. rewrite G0. intros c [= <-]. exact Cp. }
  pose proof (perm_zlen _ _ Hp1) as Z1.
  assert (Hp : Permutation a a1) by (transitivity a0; assumption).
  destruct (rg =? first) eqn:Erg.
  - destruct (IH a1 (first + 1) last (tame_perm _ _ Hp T)) as (a2 & -> & Hp2); try lia. exists a2; split; [reflexivity|transitivity a1; assumption].
  - destruct (aswap_perm a1 first rg) as (a2 & -> & Hp2); try lia. pose proof (perm_zlen _ _ Hp2) as Z2.
    assert (Hq : Permutation a a2) by (transitivity a1; assumption). pose proof (tame_perm _ _ Hq T) as T2.
    destruct (rg - 1 - first <? last - l).
    + assert (H : exists a3, (if 16 + first <? rg - 1 then in_qsort cmp f a2 first (rg - 1) else Some a2) = Some a3 /\ Permutation a2 a3).
      { destruct (16 + first <? rg - 1); [apply IH; [exact T2|lia..]|exists a2; split; reflexivity]. }
      destruct H as (a3 & -> & Hp3). pose proof (perm_zlen _ _ Hp3).
      destruct (IH a3 l last (tame_perm _ _ Hp3 T2)) as (a4 & -> & Hp4); try lia. exists a4. split; [reflexivity|].
      transitivity a2; [assumption|]. transitivity a3; assumption.
    + assert (H : exists a3, (if 16 + l <? last then in_qsort cmp f a2 l last else Some a2) = Some a3 /\ Permutation a2 a3).
      { destruct (16 + l <? last); [apply IH; [exact T2|lia..]|exists a2; split; reflexivity]. }
      destruct H as (a3 & -> & Hp3). pose proof (perm_zlen _ _ Hp3).
      destruct (IH a3 first (rg - 1) (tame_perm _ _ Hp3 T2)) as (a4 & -> & Hp4); try lia. exists a4. split; [reflexivity|].
      transitivity a2; [assumption|]. transitivity a3; assumption.
Qed.

Context (le : A -> A -> Prop) (P : A -> Prop).
Definition guided : Prop := (forall x y, P x -> P y -> cmp x y < 0 -> le x y) /\ (forall x y, P x -> P y -> 0 <= cmp x y -> le y x) /\
  (forall x y z, P x -> P y -> P z -> le x y -> le y z -> le x z).
Lemma ins_r_le (G : guided) x r : P x -> Forall P r -> StronglySorted (fun x y => le y x) r -> StronglySorted (fun x y => le y x) (ins_r cmp x r).
Proof.
  destruct G as (G1 & G2 & G3). intros Px Pr Hs. induction Hs as [|y r Hs IH Hf]; cbn [ins_r]; [constructor; constructor|].
  apply Forall_cons_iff in Pr. destruct Pr as [Py Pr]. destruct (Z.ltb_spec (cmp x y) 0) as [E|E].
  - constructor; [apply IH, Pr|]. apply (Permutation_Forall (ins_r_perm cmp x r)). constructor; [apply G1; assumption|exact Hf].
  - pose proof (G2 x y Px Py E) as L. constructor; [constructor; assumption|]. constructor; [exact L|].
    rewrite Forall_forall in *. intros z Hz. apply (G3 z y x); auto.
Qed.
Lemma fold_ins_le (G : guided) rest : forall S, Forall P rest -> Forall P S -> StronglySorted (fun x y => le y x) (rev S) -> StronglySorted le (fold_left (ins cmp) rest S).
Proof.
  induction rest as [|x rest IH]; intros S Hr HP HS; cbn [fold_left].
  - rewrite <- (rev_involutive S). apply (ss_rev _ _ HS).
  - apply Forall_cons_iff in Hr. destruct Hr as [Hx Hr]. apply IH; [exact Hr| |].
    + apply (Permutation_Forall (ins_perm cmp S x)). apply Forall_app. split; [exact HP|constructor; [exact Hx|constructor]].
    + unfold ins. rewrite rev_involutive. apply ins_r_le; [exact G|exact Hx|apply Forall_rev, HP|exact HS].
Qed.

(** Few items, or no trouble with the pivot: sorted in bounds, nothing lost. *)
Lemma sort_gen a : Forall P a -> zlen a <= 17 \/ tame a ->
  exists r, array_sort cmp true false a = Some r /\ Permutation a r /\ (guided -> StronglySorted le r).
Proof.
  intros HP HT. destruct (Z.le_gt_cases (zlen a) 1) as [L|L].
  - exists a. rewrite array_sort_short by exact L. split; [reflexivity|]. split; [reflexivity|]. intros _.
    destruct (short_cases cmp a L) as [->|[x ->]]; repeat constructor.
  - unfold array_sort. replace (zlen a <=? 1) with false by lia.
    assert (H : exists a', in_qsort cmp (length a) a 0 (zlen a - 1) = Some a' /\ Permutation a a').
    { destruct HT as [S|T]; [|apply in_qsort_ok'; [exact T|unfold zlen in *; lia..]].
      exists a. split; [|reflexivity]. destruct (length a) eqn:El; cbn [in_qsort]; unfold QSORTMINLEN; replace (0 + 16 <? zlen a - 1) with false by lia; reflexivity. }
    destruct H as (a' & -> & Hp). pose proof (perm_zlen _ _ Hp). pose proof (Permutation_Forall Hp HP) as HP'.
    destruct a' as [|h t]; [cbn in *; lia|].
    assert (E : is_outer cmp (length (h :: t) - 1) (h :: t) 1 = Some (fold_left (ins cmp) t [h])).
    { replace (length (h :: t) - 1)%nat with (length t) by (cbn [length]; lia).
      apply (is_outer_ok cmp t [h]). discriminate. }
    rewrite E. eexists. split; [reflexivity|]. split; [transitivity (h :: t); [exact Hp|exact (fold_ins_perm cmp t [h])]|].
    intros G. apply Forall_cons_iff in HP'. apply fold_ins_le; [exact G|tauto|constructor; [tauto|constructor]|]. repeat constructor.
Qed.
End Gen.

(** ** The comparison *)
Definition known (n : option (list Z)) : Prop := forall t, n = Some t -> text t.
Lemma flags_art k n : text n -> is_art k n ->
  art_flags (n ++ [0]) = Ok (match k with Cover => (true, false, false) | Land => (false, true, false) | SmallCover => (true, false, true) | SmallLand => (false, true, true) end).
Proof.
  intros Tn H. assert (Tj : forall k, text (art_name k ++ dot_jpg)) by (intros []; repeat constructor; lia).
  assert (Tp : forall k, text (art_name k ++ dot_png)) by (intros []; repeat constructor; lia).
  assert (Hc : exists c, (c = art_name k ++ dot_jpg \/ c = art_name k ++ dot_png) /\ text c /\ same_text n c) by (destruct H as [H|H]; [exists (art_name k ++ dot_jpg)|exists (art_name k ++ dot_png)]; auto).
  destruct Hc as (c & Ec & Tc & Hs). unfold art_flags, either.
  pose proof (fun d H => decide_id n c d [] Tn Tc H Hs) as D.
  change COVER_JPG with ((art_name Cover ++ dot_jpg) ++ [0]). change COVER_PNG with ((art_name Cover ++ dot_png) ++ [0]).
  change LAND_JPG with ((art_name Land ++ dot_jpg) ++ [0]). change LAND_PNG with ((art_name Land ++ dot_png) ++ [0]).
  change SMALL_JPG with ((art_name SmallCover ++ dot_jpg) ++ [0]). change SMALL_PNG with ((art_name SmallCover ++ dot_png) ++ [0]).
  change SMALL_LAND_JPG with ((art_name SmallLand ++ dot_jpg) ++ [0]). change SMALL_LAND_PNG with ((art_name SmallLand ++ dot_png) ++ [0]).
  rewrite !D by auto. clear D Hs Tc H. destruct k, Ec as [-> | ->]; vm_compute; reflexivity.
Qed.
Lemma flags_other n : text n -> (forall k, ~ is_art k n) -> art_flags (n ++ [0]) = Ok (false, false, false).
Proof.
  intros Tn H. assert (Tj : forall k, text (art_name k ++ dot_jpg)) by (intros []; repeat constructor; lia).
  assert (Tp : forall k, text (art_name k ++ dot_png)) by (intros []; repeat constructor; lia).
  assert (Nj : forall k, ~ same_text n (art_name k ++ dot_jpg)) by (intros k K; apply (H k); left; exact K).
  assert (Np : forall k, ~ same_text n (art_name k ++ dot_png)) by (intros k K; apply (H k); right; exact K).
  unfold art_flags, either.
  change COVER_JPG with ((art_name Cover ++ dot_jpg) ++ [0]). change COVER_PNG with ((art_name Cover ++ dot_png) ++ [0]).
  change LAND_JPG with ((art_name Land ++ dot_jpg) ++ [0]). change LAND_PNG with ((art_name Land ++ dot_png) ++ [0]).
  change SMALL_JPG with ((art_name SmallCover ++ dot_jpg) ++ [0]). change SMALL_PNG with ((art_name SmallCover ++ dot_png) ++ [0]).
  change SMALL_LAND_JPG with ((art_name SmallLand ++ dot_jpg) ++ [0]). change SMALL_LAND_PNG with ((art_name SmallLand ++ dot_png) ++ [0]).
  rewrite !not_same by auto. reflexivity.
Qed.
Lemma art_dec n : text n -> (exists k, is_art k n) \/ (forall k, ~ is_art k n).
Proof.
  intros Tn. assert (D : forall d, text d -> same_text n d \/ ~ same_text n d).
  { intros d Td. destruct (order n d) eqn:O; [left; apply order_eq; assumption|right..]; intros K; apply order_eq in K; try assumption; congruence. }
  assert (DK : forall k, is_art k n \/ ~ is_art k n).
  { intros k. unfold is_art. destruct (D (art_name k ++ dot_jpg)) as [|N1]; [destruct k; repeat constructor; lia|tauto|].
    destruct (D (art_name k ++ dot_png)) as [|N2]; [destruct k; repeat constructor; lia|tauto|]. right. tauto. }
  destruct (DK Cover) as [|N1]; [left; eauto|]. destruct (DK SmallCover) as [|N2]; [left; eauto|]. destruct (DK Land) as [|N3]; [left; eauto|].
  destruct (DK SmallLand) as [|N4]; [left; eauto|]. right. intros []; assumption.
Qed.
Lemma sort_total n : known n -> exists k, sort_of n k.
Proof.
  intros K. destruct n as [n|]; [|eexists; constructor]. destruct (art_dec n (K n eq_refl)) as [[k H]|H]; eexists; constructor; exact H.
Qed.
Lemma flags_inj k k' n : text n -> is_art k n -> is_art k' n -> k = k'.
Proof. intros T H H'. pose proof (flags_art k n T H) as E. rewrite (flags_art k' n T H') in E. destruct k, k'; congruence. Qed.
Lemma sort_fun n k k' : known n -> sort_of n k -> sort_of n k' -> k = k'.
Proof.
  intros K H H'. destruct H as [|k n H|n H]; inversion H'; subst; try reflexivity.
  - f_equal. f_equal. exact (flags_inj _ _ n (K n eq_refl) H H1).
  - match goal with N : forall k, ~ is_art k n |- _ => elim (N k H) end.
  - match goal with Y : is_art ?k n |- _ => elim (H k Y) end.
Qed.

Lemma tcscmp_ok : forall a b, text a -> text b -> exists c, tcscmp (a ++ [0]) (b ++ [0]) = Ok c /\ (c < 0 <-> name_lt a b) /\ (c <= 0 <-> name_le a b).
Proof.
  induction a as [|x a IH]; intros [|y b] Ha Hb; cbn [app tcscmp name_lt name_le].
  - exists 0. split; [reflexivity|]. split; split; intros; try lia; try tauto; exact I.
  - apply text_cons in Hb. destruct Hb as [Hy _]. replace (0 =? y) with false by lia. eexists. split; [reflexivity|]. split; split; intros; try exact I; lia.
  - apply text_cons in Ha. destruct Ha as [Hx _]. replace (x =? 0) with false by lia. eexists. split; [reflexivity|]. split; split; intros; try lia; tauto.
  - apply text_cons in Ha, Hb. destruct Ha as [Hx Ha], Hb as [Hy Hb]. destruct (Z.eqb_spec x y) as [->|].
    + replace (y =? 0) with false by lia. destruct (IH b Ha Hb) as (c & -> & H1 & H2). exists c. split; [reflexivity|]. split; [rewrite H1|rewrite H2]; intuition lia.
    + eexists. split; [reflexivity|]. split; split; intros; try lia; intuition lia.
Qed.

Inductive answer := Less | Equal | More | ByName.
(** What the comparison answers, by the sorts of the two files. *)
Definition answer_of (a b : option (option art)) : answer :=
  match a, b with
  | _, None => Less
  | None, Some _ => More
  | Some None, Some None => ByName
  | Some (Some Cover), Some _ => Less
  | Some _, Some (Some Cover) => More
  | Some (Some SmallCover), Some (Some SmallCover) => Equal
  | Some (Some Land), Some (Some Land) => Equal
  | Some (Some SmallLand), Some (Some SmallLand) => Equal
  | Some (Some Land), Some None => Equal
  | Some None, Some (Some Land) => Equal
  | Some (Some _), Some None => More
  | Some None, Some (Some _) => Less
  | Some (Some SmallCover), Some (Some _) => Less
  | Some (Some _), Some (Some SmallCover) => More
  | Some (Some Land), Some (Some SmallLand) => Less
  | Some (Some SmallLand), Some (Some Land) => More
  end.
Lemma cmp_ok a b ka kb : known a -> known b -> sort_of a ka -> sort_of b kb ->
  exists c, attach_cmp a b = Ok c /\
  match answer_of ka kb with
  | Less => c < 0 | Equal => c = 0 | More => 0 < c
  | ByName => forall m n, a = Some m -> b = Some n -> (c < 0 <-> name_lt m n) /\ (c <= 0 <-> name_le m n)
  end.
Proof.
  intros Ka Kb Ha Hb. unfold attach_cmp. destruct Hb as [|kb b Hb|b Hb].
  - exists (-1). split; [reflexivity|]. destruct ka as [[[]|]|]; cbn [answer_of]; lia.
  - destruct Ha as [|ka a Ha|a Ha]; [exists 1; split; [reflexivity|]; destruct kb; cbn [answer_of]; lia|..]; cbv zeta; specialize (Ka a eq_refl); specialize (Kb b eq_refl).
    + rewrite (flags_art _ _ Ka Ha), (flags_art _ _ Kb Hb). cbn [bind]. destruct ka, kb; eexists; (split; [reflexivity|]); cbn [answer_of b2z]; lia.
    + rewrite (flags_other _ Ka Ha), (flags_art _ _ Kb Hb). cbn [bind]. destruct kb; eexists; (split; [reflexivity|]); cbn [answer_of b2z]; lia.
  - destruct Ha as [|ka a Ha|a Ha]; [exists 1; split; [reflexivity|]; cbn [answer_of]; lia|..]; cbv zeta; specialize (Ka a eq_refl); specialize (Kb b eq_refl).
    + rewrite (flags_art _ _ Ka Ha), (flags_other _ Kb Hb). cbn [bind]. destruct ka; eexists; (split; [reflexivity|]); cbn [answer_of b2z]; lia.
    + rewrite (flags_other _ Ka Ha), (flags_other _ Kb Hb). cbn [bind negb andb answer_of]. destruct (tcscmp_ok a b Ka Kb) as (c & E & H). exists c. split; [exact E|].
      intros m n [= <-] [= <-]. exact H.
Qed.

Lemma tot_ok a b ka kb : known a -> known b -> sort_of a ka -> sort_of b kb ->
  match answer_of ka kb with
  | Less => attach_tot a b < 0 | Equal => attach_tot a b = 0 | More => 0 < attach_tot a b
  | ByName => forall m n, a = Some m -> b = Some n -> (attach_tot a b < 0 <-> name_lt m n) /\ (attach_tot a b <= 0 <-> name_le m n)
  end.
Proof. intros Ka Kb Ha Hb. unfold attach_tot. destruct (cmp_ok a b ka kb Ka Kb Ha Hb) as (c & -> & H). exact H. Qed.

Lemma name_lt_irr n : ~ name_lt n n.
Proof. induction n as [|x n IH]; cbn [name_lt]; [tauto|]. intros [H|[_ H]]; [lia|exact (IH H)]. Qed.
Lemma name_lt_le : forall a b, name_lt a b -> name_le a b.
Proof. induction a as [|x a IH]; intros [|y b]; cbn [name_lt name_le]; try tauto. intros [H|[H1 H2]]; [left; exact H|right; split; [exact H1|apply IH, H2]]. Qed.
Lemma name_total : forall a b, name_lt a b \/ name_le b a.
Proof.
  induction a as [|x a IH]; intros [|y b]; cbn [name_lt name_le]; try tauto. destruct (Z.lt_trichotomy x y) as [H|[->|H]]; [tauto| |tauto].
  destruct (IH b); tauto.
Qed.
Lemma name_le_trans : forall a b c, name_le a b -> name_le b c -> name_le a c.
Proof.
  induction a as [|x a IH]; intros [|y b] [|z c]; cbn [name_le]; try tauto. intros [H1|[H1 H2]] [H3|[H3 H4]]; [left; lia..|]. right. split; [lia|].
  exact (IH b c H2 H4).
Qed.

(** ** The sort of the attachments *)
Section Attach.
Context (look : Z -> option (list Z)).
Definition once (k : option (option art)) (l : list Z) : Prop :=
  forall x y, In x l -> In y l -> sort_of (look x) k -> sort_of (look y) k -> x = y.
Lemma attach_tame l : NoDup l -> (forall x, In x l -> known (look x)) -> once (Some (Some Cover)) l -> once None l ->
  tame (fun x y => attach_tot (look x) (look y)) l.
Proof.
  intros N K OC ON. split; [exact N|]. intros x Hx. destruct (sort_total _ (K x Hx)) as [kx Sx].
  pose proof (tot_ok _ _ _ _ (K x Hx) (K x Hx) Sx Sx) as R.
  destruct kx as [[[]|]|]; cbn [answer_of] in R.
  - right. left. intros y Hy D. destruct (sort_total _ (K y Hy)) as [ky Sy].
    pose proof (tot_ok _ _ _ _ (K x Hx) (K y Hy) Sx Sy) as A. pose proof (tot_ok _ _ _ _ (K y Hy) (K x Hx) Sy Sx) as B.
    destruct ky as [[[]|]|]; cbn [answer_of] in A, B; try (split; assumption). elim D. exact (OC y x Hy Hx Sy Sx).
  - left. lia.
  - left. lia.
  - left. lia.
  - left. inversion Sx as [| |n Hn En]; subst. symmetry in En. rewrite En in *. destruct (R n n eq_refl eq_refl) as [R1 _]. destruct (Z.lt_ge_cases (attach_tot (Some n) (Some n)) 0) as [L|L]; [|exact L]. apply R1 in L. elim (name_lt_irr n L).
  - right. right. intros y Hy D. destruct (sort_total _ (K y Hy)) as [ky Sy].
    pose proof (tot_ok _ _ _ _ (K x Hx) (K y Hy) Sx Sy) as A. pose proof (tot_ok _ _ _ _ (K y Hy) (K x Hx) Sy Sx) as B.
    destruct ky as [[[]|]|]; cbn [answer_of] in A, B; try (split; assumption). elim D. exact (ON y x Hy Hx Sy Sx).
Qed.

Lemma before_trans rk a b c : known b -> (forall k, rk k = rk (Some None) -> k = Some None) -> before rk a b -> before rk b c -> before rk a c.
Proof.
  intros Kb Inj H1 H2 ka kc Ha Hc. destruct (sort_total b Kb) as [kb Hb]. specialize (H1 ka kb Ha Hb). specialize (H2 kb kc Hb Hc).
  destruct H1 as [H1|[H1 L1]]; [left; destruct H2 as [H2|[H2 _]]; lia|]. destruct H2 as [H2|[H2 L2]]; [left; lia|]. right. split; [lia|].
  intros m n Ea Ec Eo. subst ka. assert (kb = Some None) by (apply Inj; congruence). subst kb. inversion Hb as [| |t Ht Et]; subst.
  eapply name_le_trans; [apply (L1 m t); auto|apply (L2 t n); auto].
Qed.
Lemma before_names rk a b : known a -> known b -> sort_of a (Some None) -> sort_of b (Some None) ->
  (forall m n, a = Some m -> b = Some n -> name_le m n) -> before rk a b.
Proof.
  intros Ka Kb Sa Sb H ka kb Ha Hb. pose proof (sort_fun _ _ _ Ka Sa Ha). pose proof (sort_fun _ _ _ Kb Sb Hb). subst. right. split; [reflexivity|]. intros m n Ea Eb _. exact (H m n Ea Eb).
Qed.
Lemma before_rank (rk : option (option art) -> Z) a b ka kb : known a -> known b -> sort_of a ka -> sort_of b kb -> rk ka < rk kb \/ (ka = kb /\ ka <> Some None) -> before rk a b.
Proof.
  intros Ka Kb Sa Sb H ka' kb' Ha Hb. pose proof (sort_fun _ _ _ Ka Sa Ha). pose proof (sort_fun _ _ _ Kb Sb Hb). subst.
  destruct H as [H|[-> N]]; [left; exact H|]. right. split; [reflexivity|]. intros m n _ _ E. contradiction.
Qed.
Lemma guided_gen rk (Q : option (option art) -> Prop) : (forall k, rk k = rk (Some None) -> k = Some None) ->
  (forall ka kb, Q ka -> Q kb -> match answer_of ka kb with
     | Less => rk ka < rk kb \/ (ka = kb /\ ka <> Some None) | More => rk kb < rk ka | Equal => ka = kb /\ ka <> Some None | ByName => True end) ->
  guided (fun x y => attach_tot (look x) (look y)) (fun x y => before rk (look x) (look y)) (fun x => known (look x) /\ exists k, sort_of (look x) k /\ Q k).
Proof.
  intros Inj H. split; [|split].
  - intros x y (Kx & kx & Sx & Qx) (Ky & ky & Sy & Qy) C. pose proof (tot_ok _ _ _ _ Kx Ky Sx Sy) as T. specialize (H kx ky Qx Qy).
    destruct (answer_of kx ky) eqn:A; [|lia..|].
    + eapply before_rank; eassumption.
    + destruct kx as [[[]|]|], ky as [[[]|]|]; try discriminate A. apply before_names; try assumption. intros m n Em En. apply name_lt_le. apply (T m n Em En). exact C.
  - intros x y (Kx & kx & Sx & Qx) (Ky & ky & Sy & Qy) C. pose proof (tot_ok _ _ _ _ Kx Ky Sx Sy) as T. specialize (H kx ky Qx Qy).
    destruct (answer_of kx ky) eqn:A; [lia|..].
    + destruct H as [-> H]. eapply before_rank; try eassumption. right. split; [reflexivity|exact H].
    + eapply before_rank; try eassumption. left. exact H.
    + destruct kx as [[[]|]|], ky as [[[]|]|]; try discriminate A. apply before_names; try assumption. intros m n Em En. destruct (T n m En Em) as [T1 _].
      destruct (name_total n m) as [L|L]; [|exact L]. apply T1 in L. lia.
  - intros x y z (Kx & _) (Ky & _) (Kz & _). apply before_trans; assumption.
Qed.
Lemma guided_place : guided (fun x y => attach_tot (look x) (look y)) (fun x y => before place (look x) (look y)) (fun x => known (look x) /\ exists k, sort_of (look x) k /\ k <> Some (Some Land)).
Proof.
  apply guided_gen.
  - intros [[[]|]|]; cbn [place]; intros; try lia; reflexivity.
  - intros [[[]|]|] [[[]|]|] Ha Hb; cbn [answer_of place]; try exact I; try contradiction; try lia; try (right; split; [reflexivity|discriminate]); try (split; [reflexivity|discriminate]).
Qed.
Lemma guided_art : guided (fun x y => attach_tot (look x) (look y)) (fun x y => before art_place (look x) (look y)) (fun x => known (look x) /\ exists k, sort_of (look x) k /\ k <> Some None).
Proof.
  apply guided_gen.
  - intros [[[]|]|]; cbn [art_place]; intros; try lia; reflexivity.
  - intros [[[]|]|] [[[]|]|] Ha Hb; cbn [answer_of art_place]; try exact I; try contradiction; try lia; try (right; split; [reflexivity|discriminate]); try (split; [reflexivity|discriminate]).
Qed.

Lemma attach_sort_ok fuel h F m (le : Z -> Z -> Prop) (P : Z -> Prop) : rep h F -> m <> 0 -> (length (F m) <= fuel)%nat ->
  (forall x, In x (F m) -> known (look x)) -> Forall P (F m) -> zlen (F m) <= 17 \/ (once (Some (Some Cover)) (F m) /\ once None (F m)) ->
  exists r h', attach_sort fuel h look m = Some h' /\ rep h' (fun q => if q =? m then r else F q) /\ Permutation (F m) r /\
    (guided (fun x y => attach_tot (look x) (look y)) le P -> StronglySorted le r).
Proof.
  intros R Hm Hf K HP HT.
  destruct (sort_gen (fun x y => attach_tot (look x) (look y)) le P (F m) HP) as (r & Er & Hp & Hs).
  { destruct HT as [S|[OC ON]]; [left; exact S|right]. apply attach_tame; [apply (rep_nodup h F R m Hm)|exact K|exact OC|exact ON]. }
  destruct (master_sort_gen fuel h F _ m r R Hm Hf Er Hp) as (h' & E & R'). exists r, h'. split; [exact E|]. split; [exact R'|]. split; [exact Hp|exact Hs].
Qed.
End Attach.
