From Verif Require Import Base BaseProofs VoidProofs Arr ArrSpec ArrProofs.

(** ** Search in a sorted array *)
Lemma ss_app {A} (R : A -> A -> Prop) l1 l2 :
  StronglySorted R (l1 ++ l2) <-> StronglySorted R l1 /\ StronglySorted R l2 /\ (forall x y, In x l1 -> In y l2 -> R x y).
Proof.
  induction l1 as [|z l1 IH]; cbn [app].
  - split; [intros H; repeat split; [constructor|assumption|intros ? ? []]|tauto].
  - split.
    + intros H. inversion H as [|? ? Hs Hf]; subst. apply IH in Hs as (H1 & H2 & H3).
      rewrite Forall_app in Hf. destruct Hf as [Hf1 Hf2]. repeat split; [constructor; assumption|assumption|].
      intros x y [->|Hx] Hy; [rewrite Forall_forall in Hf2; auto|auto].
    + intros (H1 & H2 & H3). inversion H1 as [|? ? Hs Hf]; subst. constructor.
      * apply IH. repeat split; auto. intros; apply H3; [right|]; assumption.
      * apply Forall_app. split; [assumption|]. apply Forall_forall. intros y Hy. apply H3; [left; reflexivity|assumption].
Qed.

Lemma aget_nil {A} i : @aget A [] i = None.
Proof. unfold aget. destruct (i <? 0); [reflexivity|]. destruct (Z.to_nat i); reflexivity. Qed.

Lemma ss_aget {A} (R : A -> A -> Prop) a i j x y : StronglySorted R a -> i < j ->
  aget a i = Some x -> aget a j = Some y -> R x y.
Proof.
  intros Hs Hij Hi Hj. pose proof (proj1 (aget_some_iff a i) (ex_intro _ x Hi)) as Bi.
  destruct (aget_split a i Bi) as (p & x' & s & -> & <-). rewrite aget_mid in Hi. apply some_inj in Hi. subst x'.
  apply ss_app in Hs as (_ & Hs & _). inversion Hs as [|? ? _ Hf]; subst.
  rewrite Forall_forall in Hf. apply Hf. unfold aget in Hj. destruct (j <? 0) eqn:?; [discriminate|].
  rewrite nth_error_app2 in Hj by (unfold zlen in *; lia).
  destruct (Z.to_nat j - length p)%nat eqn:E; [unfold zlen in *; lia|]. cbn [nth_error] in Hj. eapply nth_error_In; exact Hj.
Qed.

Lemma find_loop_ok {A} (cmpd : A -> Z) a (Hr : search_ready cmpd a) fuel : forall mid lower upper,
  0 <= lower -> upper < zlen a -> lower <= upper + 1 -> upper - lower + 1 <= Z.of_nat fuel ->
  (forall i x, aget a i = Some x -> i < lower -> cmpd x < 0) ->
  (forall i x, aget a i = Some x -> upper < i -> 0 < cmpd x) ->
  exists pos found, find_loop fuel cmpd a mid lower upper = Some (pos, found) /\
   if found then exists x, aget a pos = Some x /\ cmpd x = 0
   else 0 <= pos <= zlen a /\ (forall i x, aget a i = Some x -> i < pos -> cmpd x < 0) /\
        (forall i x, aget a i = Some x -> pos <= i -> 0 < cmpd x).
Proof.
  induction fuel as [|f IH]; intros mid lower upper H1 H2 H3 H4 Hlo Hup; cbn [find_loop].
  - destruct (lower <=? upper) eqn:E; [lia|].
    replace (if upper =? mid - 1 then mid else lower) with lower by (destruct (upper =? mid - 1) eqn:?; lia).
    exists lower, false. split; [reflexivity|]. split; [lia|]. split; [assumption|]. intros i x Hx Hi. apply (Hup i x Hx). lia.
  - destruct (lower <=? upper) eqn:E.
    + rewrite Z.shiftr_div_pow2 by lia. change (2 ^ 1) with 2. set (m := (upper + lower) / 2).
      assert (Hm : lower <= m <= upper) by (subst m; lia).
      destruct (proj2 (aget_some_iff a m) ltac:(lia)) as [x Hx]. rewrite Hx.
      destruct (0 <? cmpd x) eqn:E1; [|destruct (cmpd x <? 0) eqn:E2].
      * apply IH; try lia; [assumption|]. intros i y Hy Hi.
        destruct (Z.eq_dec i m) as [->|]; [rewrite Hx in Hy; apply some_inj in Hy; subst; lia|].
        apply (ss_aget _ a m i x y Hr ltac:(lia) Hx Hy). lia.
      * apply IH; try lia; [|assumption]. intros i y Hy Hi.
        destruct (Z.eq_dec i m) as [->|]; [rewrite Hx in Hy; apply some_inj in Hy; subst; lia|].
        pose proof (ss_aget _ a i m y x Hr ltac:(lia) Hy Hx) as [Hge _]. lia.
      * exists m, true. split; [reflexivity|]. exists x. split; [assumption|lia].
    + replace (if upper =? mid - 1 then mid else lower) with lower by (destruct (upper =? mid - 1) eqn:?; lia).
      exists lower, false. split; [reflexivity|]. split; [lia|]. split; [assumption|]. intros i x Hx Hi. apply (Hup i x Hx). lia.
Qed.

Lemma array_find_raw {A} (cmpd : A -> Z) a : search_ready cmpd a ->
  exists pos found, array_find cmpd a = Some (pos, found) /\
   if found then exists x, aget a pos = Some x /\ cmpd x = 0
   else 0 <= pos <= zlen a /\ (forall i x, aget a i = Some x -> i < pos -> cmpd x < 0) /\
        (forall i x, aget a i = Some x -> pos <= i -> 0 < cmpd x).
Proof.
  intros Hr. destruct a as [|h t] eqn:Ea.
  - exists 0, false. split; [reflexivity|]. split; [cbn; lia|]. split; intros i x Hx; rewrite aget_nil in Hx; discriminate.
  - unfold array_find. rewrite <- Ea in *. apply find_loop_ok; try lia; [assumption|subst a; rewrite zlen_cons; pose proof (zlen_nonneg t); lia|unfold zlen; lia| |].
    + intros i x Hx Hi. assert (exists y, aget a i = Some y) by eauto. apply aget_some_iff in H. lia.
    + intros i x Hx Hi. assert (exists y, aget a i = Some y) by eauto. apply aget_some_iff in H. lia.
Qed.

(** C22: search. *)
Lemma array_find_spec {A} (cmpd : A -> Z) a : search_ready cmpd a ->
  (exists p x s, array_find cmpd a = Some (zlen p, true) /\ a = p ++ x :: s /\ cmpd x = 0) \/
  (exists p s, array_find cmpd a = Some (zlen p, false) /\ a = p ++ s /\
     Forall (fun x => cmpd x < 0) p /\ Forall (fun x => 0 < cmpd x) s).
Proof.
  intros Hr. destruct (array_find_raw cmpd a Hr) as (pos & [|] & Hf & H).
  - left. destruct H as (x & Hx & Hc).
    destruct (aget_split a pos (proj1 (aget_some_iff a pos) (ex_intro _ x Hx))) as (p & x' & s & -> & <-).
    rewrite aget_mid in Hx. apply some_inj in Hx. subst x'. exists p, x, s. auto.
  - right. destruct H as (Hb & Hlo & Hhi).
    exists (firstn (Z.to_nat pos) a), (skipn (Z.to_nat pos) a).
    assert (Hz : zlen (firstn (Z.to_nat pos) a) = pos) by (unfold zlen in *; rewrite firstn_length; lia).
    rewrite Hz. split; [assumption|]. split; [symmetry; apply firstn_skipn|]. split; apply Forall_forall; intros x Hx.
    + apply In_nth_error in Hx as [n Hn]. assert (n < Z.to_nat pos)%nat.
      { assert (n < length (firstn (Z.to_nat pos) a))%nat by (apply nth_error_Some; congruence). rewrite firstn_length in *. lia. }
      apply (Hlo (Z.of_nat n) x); [|lia]. unfold aget. destruct (Z.of_nat n <? 0) eqn:?; [lia|]. rewrite Nat2Z.id.
      rewrite <- (firstn_skipn (Z.to_nat pos) a), nth_error_app1; [assumption|]. rewrite firstn_length. unfold zlen in *; lia.
    + apply In_nth_error in Hx as [n Hn].
      apply (Hhi (pos + Z.of_nat n) x); [|lia]. unfold aget. destruct (pos + Z.of_nat n <? 0) eqn:?; [lia|].
      rewrite <- (firstn_skipn (Z.to_nat pos) a), nth_error_app2 by (unfold zlen in *; lia).
      replace (Z.to_nat (pos + Z.of_nat n) - length (firstn (Z.to_nat pos) a))%nat with n by (unfold zlen in *; lia). assumption.
Qed.

Lemma sorted_search_ready {A} (cmp : A -> A -> Z) a x : total_preorder cmp -> sorted_by cmp a ->
  search_ready (fun y => cmp y x) a.
Proof.
  intros [Ha Ht] Hs. unfold search_ready. eapply StronglySorted_ind with (P := fun l => StronglySorted _ l); [| |exact Hs].
  - constructor.
  - intros y l Hl IH Hf. constructor; [exact IH|]. eapply Forall_impl; [|exact Hf]. intros z Hz. cbn in Hz |- *.
    split; intros H.
    + pose proof (Ha x y). pose proof (Ha y x). pose proof (Ht x y z ltac:(lia) Hz). pose proof (Ha z x). lia.
    + destruct (Z.lt_ge_cases 0 (cmp z x)) as [|Hle]; [assumption|]. pose proof (Ht y z x Hz ltac:(lia)). lia.
Qed.
Lemma strict_sorted {A} (cmp : A -> A -> Z) a : strictly_sorted_by cmp a -> sorted_by cmp a.
Proof.
  intros H. induction H as [|x l Hs IH Hf]; constructor; [assumption|]. eapply Forall_impl; [|exact Hf]. cbn; lia.
Qed.

Lemma firstn_zlen {A} (p s : list A) : firstn (Z.to_nat (zlen p)) (p ++ s) = p.
Proof. unfold zlen. rewrite Nat2Z.id, firstn_app, firstn_all, Nat.sub_diag. cbn [firstn]. apply app_nil_r. Qed.
Lemma skipn_zlen {A} (p s : list A) : skipn (Z.to_nat (zlen p)) (p ++ s) = s.
Proof. unfold zlen. rewrite Nat2Z.id, skipn_app, skipn_all, Nat.sub_diag. reflexivity. Qed.
Lemma skipn_zlen1 {A} (p s : list A) x : skipn (Z.to_nat (zlen p + 1)) (p ++ x :: s) = s.
Proof.
  change (p ++ x :: s) with (p ++ [x] ++ s). rewrite app_assoc.
  replace (zlen p + 1) with (zlen (p ++ [x])) by (rewrite zlen_app; reflexivity). apply skipn_zlen.
Qed.

Section SetOps.
Context {A : Type} (cmp : A -> A -> Z) (Hp : total_preorder cmp).

Lemma cmp_zero_sym x y : cmp x y = 0 -> cmp y x = 0.
Proof. destruct Hp as [Ha _]. pose proof (Ha x y). pose proof (Ha y x). lia. Qed.
Lemma cmp_le_lt_trans x y z : cmp x y <= 0 -> cmp y z < 0 -> cmp x z < 0.
Proof.
  intros H1 H2. destruct Hp as [Ha Ht]. destruct (Z.lt_ge_cases (cmp x z) 0) as [|H]; [assumption|].
  assert (cmp z x <= 0) by (pose proof (Ha z x); pose proof (Ha x z); lia).
  pose proof (Ht z x y H0 H1). pose proof (Ha y z). lia.
Qed.

(** C22: insertion. *)
Lemma array_add_spec a x : strictly_sorted_by cmp a ->
  exists a' pos, array_add cmp true a x = Some (a', pos) /\ strictly_sorted_by cmp a' /\
    aget a' pos = Some x /\ (forall y, In y a' <-> y = x \/ (In y a /\ cmp y x <> 0)).
Proof.
  intros Hs. unfold array_add.
  destruct (array_find_spec (fun y => cmp y x) a (sorted_search_ready cmp a x Hp (strict_sorted cmp a Hs)))
    as [(p & z & s & -> & -> & Hz)|(p & s & -> & -> & Hlo & Hhi)].
  - rewrite aset_mid. exists (p ++ x :: s), (zlen p). split; [reflexivity|].
    apply ss_app in Hs as (Hs1 & Hs2 & Hs3). inversion Hs2 as [|? ? Hs4 Hf]; subst.
    rewrite Forall_forall in Hf. pose proof (cmp_zero_sym _ _ Hz) as Hxz.
    assert (Hpx : forall y, In y p -> cmp y x < 0).
    { intros y Hy. eapply pre_lt_le_trans; [exact Hp|apply (Hs3 y z Hy); left; reflexivity|lia]. }
    assert (Hsx : forall y, In y s -> cmp x y < 0).
    { intros y Hy. apply (cmp_le_lt_trans x z y); [lia|apply Hf; assumption]. }
    split; [|split; [apply aget_mid|]].
    + apply ss_app. split; [assumption|]. split.
      * constructor; [assumption|]. apply Forall_forall. assumption.
      * intros u v Hu [->|Hv]; [auto|]. apply Hs3; [assumption|right; assumption].
    + intros y. rewrite !in_app_iff. cbn [In]. split.
      * intros [H|[H|H]]; [right; split; [auto|specialize (Hpx y H); lia]|left; auto|].
        right. split; [auto|]. destruct Hp as [Ha _]. specialize (Hsx y H). pose proof (Ha x y). lia.
      * intros [->|[[H|[->|H]] Hn]]; [auto|auto|congruence|auto].
  - unfold item_insert. rewrite firstn_zlen, skipn_zlen. exists (p ++ x :: s), (zlen p). split; [reflexivity|].
    apply ss_app in Hs as (Hs1 & Hs2 & Hs3). rewrite Forall_forall in Hlo, Hhi.
    assert (Hsx : forall y, In y s -> cmp x y < 0).
    { intros y Hy. destruct Hp as [Ha _]. apply Ha. apply Hhi; assumption. }
    split; [|split; [apply aget_mid|]].
    + apply ss_app. split; [assumption|]. split.
      * constructor; [assumption|]. apply Forall_forall. assumption.
      * intros u v Hu [->|Hv]; [auto|]. apply Hs3; assumption.
    + intros y. rewrite !in_app_iff. cbn [In]. split.
      * intros [H|[H|H]]; [right; split; [auto|specialize (Hlo y H); cbn in Hlo; lia]|auto|right; split; [auto|specialize (Hhi y H); cbn in Hhi; lia]].
      * intros [->|[[H|H] Hn]]; auto.
Qed.
Lemma array_add_fail a x : strictly_sorted_by cmp a -> (forall y, In y a -> cmp y x <> 0) ->
  array_add cmp false a x = Some (a, -1).
Proof.
  intros Hs Hn. unfold array_add.
  destruct (array_find_spec (fun y => cmp y x) a (sorted_search_ready cmp a x Hp (strict_sorted cmp a Hs)))
    as [(p & z & s & -> & -> & Hz)|(p & s & -> & -> & Hlo & Hhi)].
  - exfalso. apply (Hn z); [rewrite in_app_iff; right; left; reflexivity|assumption].
  - reflexivity.
Qed.
(** C22: removal. *)
Lemma array_remove_spec a x : strictly_sorted_by cmp a ->
  exists a' found, array_remove cmp a x = Some (a', found) /\ strictly_sorted_by cmp a' /\
    (found = true <-> exists y, In y a /\ cmp y x = 0) /\ (forall y, In y a' <-> In y a /\ cmp y x <> 0).
Proof.
  intros Hs. unfold array_remove.
  destruct (array_find_spec (fun y => cmp y x) a (sorted_search_ready cmp a x Hp (strict_sorted cmp a Hs)))
    as [(p & z & s & -> & -> & Hz)|(p & s & -> & -> & Hlo & Hhi)].
  - unfold item_delete. rewrite firstn_zlen, skipn_zlen1. exists (p ++ s), true. split; [reflexivity|].
    apply ss_app in Hs as (Hs1 & Hs2 & Hs3). inversion Hs2 as [|? ? Hs4 Hf]; subst. rewrite Forall_forall in Hf.
    split; [apply ss_app; repeat split; [assumption|assumption|intros; apply Hs3; [|right]; assumption]|].
    split; [split; [intros _; exists z; split; [rewrite in_app_iff; right; left; reflexivity|assumption]|reflexivity]|].
    intros y. rewrite !in_app_iff. cbn [In]. split.
    + intros [H|H]; (split; [auto|]).
      * assert (cmp y x < 0); [|lia]. eapply pre_lt_le_trans; [exact Hp|apply (Hs3 y z H); left; reflexivity|lia].
      * assert (cmp x y < 0). { apply (cmp_le_lt_trans x z y); [pose proof (cmp_zero_sym _ _ Hz); lia|apply Hf; assumption]. }
        destruct Hp as [Ha _]. pose proof (Ha x y). lia.
    + intros [[H|[->|H]] Hn]; [auto|congruence|auto].
  - exists (p ++ s), false. split; [reflexivity|]. split; [assumption|]. rewrite Forall_forall in Hlo, Hhi.
    assert (Hn : forall y, In y (p ++ s) -> cmp y x <> 0).
    { intros y H. rewrite in_app_iff in H. destruct H as [H|H]; [specialize (Hlo y H)|specialize (Hhi y H)]; cbn in *; lia. }
    split; [split; [discriminate|intros (y & Hy & Hz); exfalso; exact (Hn y Hy Hz)]|].
    intros y. split; [intros H; split; [assumption|apply Hn; assumption]|tauto].
Qed.

Lemma set_spec_ext ops : forall S T, (forall y, S y <-> T y) -> forall y, set_spec cmp S ops y <-> set_spec cmp T ops y.
Proof.
  induction ops as [|[x|x] ops IH]; intros S T HST y; cbn [set_spec]; [apply HST| |];
  apply IH; intros z; rewrite (HST z); reflexivity.
Qed.
Lemma set_run_ok ops : forall a, strictly_sorted_by cmp a ->
  exists a', set_run cmp a ops = Some a' /\ strictly_sorted_by cmp a' /\ forall y, In y a' <-> set_spec cmp (fun y => In y a) ops y.
Proof.
  induction ops as [|[x|x] ops IH]; intros a Hs; cbn [set_run set_spec].
  - exists a. split; [reflexivity|]. split; [assumption|]. tauto.
  - destruct (array_add_spec a x Hs) as (a1 & pos & -> & Hs1 & _ & Hin). destruct (IH a1 Hs1) as (a' & -> & Hs' & Hin').
    exists a'. split; [reflexivity|]. split; [assumption|]. intros y. rewrite (Hin' y). apply set_spec_ext. exact Hin.
  - destruct (array_remove_spec a x Hs) as (a1 & fd & -> & Hs1 & _ & Hin). destruct (IH a1 Hs1) as (a' & -> & Hs' & Hin').
    exists a'. split; [reflexivity|]. split; [assumption|]. intros y. rewrite (Hin' y). apply set_spec_ext. exact Hin.
Qed.
End SetOps.

Lemma array_find_eq_spec {A} (eqd : A -> bool) a : forall no,
  (exists p x s, array_find_eq eqd a no = (no + zlen p, true) /\ a = p ++ x :: s /\ eqd x = true /\ Forall (fun y => eqd y = false) p) \/
  (array_find_eq eqd a no = (no + zlen a, false) /\ Forall (fun y => eqd y = false) a).
Proof.
  induction a as [|x a IH]; intros no; cbn [array_find_eq].
  - right. split; [cbn; f_equal; lia|constructor].
  - destruct (eqd x) eqn:E.
    + left. exists [], x, a. cbn. repeat split; [f_equal; lia|assumption|constructor].
    + destruct (IH (no + 1)) as [(p & y & s & H1 & -> & H2 & H3)|[H1 H2]].
      * left. exists (x :: p), y, s. rewrite H1, zlen_cons. repeat split; [f_equal; lia|assumption|constructor; assumption].
      * right. rewrite H1, zlen_cons. split; [f_equal; lia|constructor; assumption].
Qed.

(** ** Byte arrays *)
Lemma round_up total k : 0 <= k -> Z.land (total + (2 ^ k - 1)) (Z.lnot (2 ^ k - 1)) = (total + (2 ^ k - 1)) / 2 ^ k * 2 ^ k.
Proof.
  intros Hk. replace (2 ^ k - 1) with (Z.ones k) by (rewrite Z.ones_equiv; lia).
  rewrite <- Z.ldiff_land, Z.ldiff_ones_r by lia. rewrite Z.shiftl_mul_pow2, Z.shiftr_div_pow2 by lia. reflexivity.
Qed.
Lemma round_up_ge total k : 0 <= k -> total <= Z.land (total + (2 ^ k - 1)) (Z.lnot (2 ^ k - 1)).
Proof.
  intros Hk. rewrite round_up by assumption. assert (0 < 2 ^ k) by (apply Z.pow_pos_nonneg; lia).
  pose proof (Z.div_mod (total + (2 ^ k - 1)) (2 ^ k) ltac:(lia)). pose proof (Z.mod_pos_bound (total + (2 ^ k - 1)) (2 ^ k) ltac:(lia)). nia.
Qed.
Lemma align_loop_pow n : forall k total, 0 <= k -> exists k', 0 <= k' /\ align_loop n (2 ^ k) total = 2 ^ k'.
Proof.
  induction n as [|n IH]; intros k total Hk; cbn [align_loop]; [eauto|].
  destruct (2 ^ k <? 16384); [|eauto]. destruct (total <? 2 ^ k * 8); [eauto|].
  rewrite Z.shiftl_mul_pow2 by lia. change (2 ^ 1) with 2. replace (2 ^ k * 2) with (2 ^ (k + 1)) by (rewrite Z.pow_add_r by lia; reflexivity).
  apply IH. lia.
Qed.
Lemma size_align_ge total align : align_ok align -> total <= size_align total align.
Proof.
  intros Ha. unfold size_align. assert (H : exists k, 0 <= k /\ (if align =? 0 then align_loop 11 16 total else align) = 2 ^ k).
  { destruct Ha as [->|(k & Hk & ->)].
    - cbn [Z.eqb]. apply (align_loop_pow 11 4 total). lia.
    - assert (0 < 2 ^ k) by (apply Z.pow_pos_nonneg; lia). destruct (2 ^ k =? 0) eqn:?; [lia|]. eauto. }
  destruct H as (k & Hk & ->). apply round_up_ge. exact Hk.
Qed.

Lemma data_realloc_ok ok junk a n a' : data_realloc ok junk a n = Some a' -> arr_ok a ->
  used a' = used a /\ n <= zlen (mem a') /\ zlen (mem a) <= zlen (mem a') /\ contents a' = contents a /\
  (exists tail, mem a' = mem a ++ tail).
Proof.
  unfold data_realloc. destruct (zlen (mem a) <? n) eqn:E.
  - destruct ok; [|discriminate]. intros H; apply some_inj in H; subst a'. intros [H0 H1]. cbn [used mem].
    rewrite zlen_app, zlen_repeat by lia. repeat split; try lia; [|eauto].
    unfold contents. cbn [used mem]. rewrite firstn_app.
    replace (Z.to_nat (used a) - length (mem a))%nat with 0%nat by (unfold zlen in *; lia). cbn [firstn]. apply app_nil_r.
  - intros H; apply some_inj in H; subst a'. intros _. repeat split; try lia. exists []. symmetry; apply app_nil_r.
Qed.

Lemma mem_put_ok p old s bs : zlen old = zlen bs -> mem_put (p ++ old ++ s) (zlen p) bs = Some (p ++ bs ++ s).
Proof.
  intros H. unfold mem_put. pose proof (zlen_nonneg p). pose proof (zlen_nonneg s).
  rewrite !zlen_app. replace ((zlen p <? 0) || (zlen p + (zlen old + zlen s) <? zlen p + zlen bs)) with false by lia.
  rewrite firstn_zlen. do 3 f_equal. rewrite app_assoc. replace (zlen p + zlen bs) with (zlen (p ++ old)) by (rewrite zlen_app; lia).
  apply skipn_zlen.
Qed.
Lemma mem_get_ok p bs s : mem_get (p ++ bs ++ s) (zlen p) (zlen bs) = Some bs.
Proof.
  unfold mem_get. pose proof (zlen_nonneg p). pose proof (zlen_nonneg s). pose proof (zlen_nonneg bs).
  rewrite !zlen_app. replace ((zlen p <? 0) || (zlen bs <? 0) || (zlen p + (zlen bs + zlen s) <? zlen p + zlen bs)) with false by lia.
  rewrite skipn_zlen. f_equal. apply firstn_zlen.
Qed.

Lemma take_split (m : list Z) n : 0 <= n <= zlen m -> exists a b, m = a ++ b /\ zlen a = n /\ firstn (Z.to_nat n) m = a.
Proof.
  intros H. exists (firstn (Z.to_nat n) m), (skipn (Z.to_nat n) m). split; [symmetry; apply firstn_skipn|].
  split; [unfold zlen in *; rewrite firstn_length; lia|reflexivity].
Qed.

Lemma grow_ok ok junk a total align : align_ok align -> arr_ok a -> 0 <= total ->
  (exists a', (if zlen (mem a) <? total then array_alloc ok junk a total align else Some a) = Some a' /\
    used a' = used a /\ total <= zlen (mem a') /\ zlen (mem a) <= zlen (mem a') /\ contents a' = contents a) \/
  (ok = false /\ (if zlen (mem a) <? total then array_alloc ok junk a total align else Some a) = None).
Proof.
  intros Ha Hok Ht. destruct (zlen (mem a) <? total) eqn:E.
  - unfold array_alloc. pose proof (size_align_ge total align Ha). destruct ok.
    + left. destruct (data_realloc true junk a (size_align total align)) as [a'|] eqn:Ed.
      * destruct (data_realloc_ok _ _ _ _ _ Ed Hok) as (H1 & H2 & H3 & H4 & _). exists a'. repeat split; try assumption. lia.
      * unfold data_realloc in Ed. destruct (zlen (mem a) <? size_align total align); discriminate.
    + right. split; [reflexivity|]. unfold data_realloc. destruct (zlen (mem a) <? size_align total align) eqn:?; [reflexivity|lia].
  - left. exists a. repeat split; lia.
Qed.

(** C23: append. *)
Lemma array_append_spec ok junk a bs align : align_ok align -> arr_ok a ->
  (exists a', array_append ok junk a (Some bs) (zlen bs) align = AOk a' /\ arr_ok a' /\ contents a' = contents a ++ bs) \/
  (ok = false /\ array_append ok junk a (Some bs) (zlen bs) align = AFail a).
Proof.
  intros Ha Hok. unfold array_append. pose proof (zlen_nonneg bs).
  destruct (grow_ok ok junk a (used a + zlen bs) align Ha Hok ltac:(destruct Hok; lia)) as [(a' & -> & Hu & Ht & Hm & Hc)|[-> ->]]; [left|right; auto].
  destruct Hok as [H0 H1]. destruct (take_split (mem a') (used a')) as (p & q & Hpq & Hp & Hf); [lia|].
  assert (zlen q >= zlen bs) by (rewrite Hpq, zlen_app in Ht; lia).
  destruct (take_split q (zlen bs)) as (o & s & Hos & Ho & _); [lia|].
  assert (E : mem_put (mem a') (used a') bs = Some (p ++ bs ++ s)).
  { rewrite Hpq, Hos, <- Hp. apply mem_put_ok. assumption. }
  rewrite E. eexists; split; [reflexivity|].
  unfold arr_ok, contents. cbn [used mem]. rewrite !zlen_app. pose proof (zlen_nonneg s). split; [lia|].
  replace (used a' + zlen bs) with (zlen (p ++ bs)) by (rewrite zlen_app; lia).
  rewrite app_assoc, firstn_zlen. f_equal. rewrite <- Hf. exact Hc.
Qed.

(** C23: insert. *)
Lemma array_insert_spec ok junk a ofs bs align : align_ok align -> arr_ok a -> 0 <= ofs <= used a ->
  (exists a', array_insert ok junk a ofs (Some bs) (zlen bs) align = AOk a' /\ arr_ok a' /\
     contents a' = firstn (Z.to_nat ofs) (contents a) ++ bs ++ skipn (Z.to_nat ofs) (contents a)) \/
  (ok = false /\ array_insert ok junk a ofs (Some bs) (zlen bs) align = AFail a).
Proof.
  intros Ha Hok Hofs. unfold array_insert, array_append. pose proof (zlen_nonneg bs).
  destruct (grow_ok ok junk a (used a + zlen bs) align Ha Hok ltac:(destruct Hok; lia)) as [(a' & -> & Hu & Ht & Hm & Hc)|[-> ->]]; [left|right; auto].
  destruct Hok as [H0 H1]. cbn [mem used].
  destruct (take_split (mem a') ofs) as (p & q & Hpq & Hp & _); [lia|].
  assert (Hq : zlen q = zlen (mem a') - ofs) by (rewrite Hpq, zlen_app; lia).
  destruct (take_split q (used a' - ofs)) as (mv & r & Hmr & Hmv & _); [lia|].
  assert (Hr : zlen r = zlen (mem a') - used a') by (rewrite Hmr, zlen_app in Hq; lia).
  destruct (take_split r (zlen bs)) as (o & s & Hos & Ho & _); [lia|].
  assert (Hmem : mem a' = p ++ mv ++ o ++ s) by (rewrite Hpq, Hmr, Hos; reflexivity).
  assert (E1 : mem_get (mem a') ofs (used a' + zlen bs - zlen bs - ofs) = Some mv).
  { rewrite Hmem, <- Hp. replace (used a' + zlen bs - zlen bs - zlen p) with (zlen mv) by lia. apply mem_get_ok. }
  rewrite E1.
  destruct (take_split (mv ++ o) (zlen bs)) as (x & y & Hxy & Hx & _); [rewrite zlen_app; pose proof (zlen_nonneg mv); lia|].
  assert (Hy : zlen y = zlen mv) by (apply (f_equal zlen) in Hxy; rewrite !zlen_app in Hxy; lia).
  assert (E2 : mem_put (mem a') (ofs + zlen bs) mv = Some (p ++ x ++ mv ++ s)).
  { rewrite Hmem. replace (p ++ mv ++ o ++ s) with ((p ++ x) ++ y ++ s) by (rewrite <- !app_assoc; f_equal; rewrite (app_assoc mv), Hxy, <- app_assoc; reflexivity).
    replace (ofs + zlen bs) with (zlen (p ++ x)) by (rewrite zlen_app; lia). rewrite mem_put_ok by assumption. rewrite <- app_assoc. reflexivity. }
  rewrite E2.
  assert (E3 : mem_put (p ++ x ++ mv ++ s) ofs bs = Some (p ++ bs ++ mv ++ s)) by (rewrite <- Hp; apply mem_put_ok; assumption).
  rewrite E3. eexists; split; [reflexivity|]. unfold arr_ok. cbn [used mem]. rewrite !zlen_app. pose proof (zlen_nonneg s).
  split; [lia|]. rewrite <- Hc. unfold contents. cbn [used mem].
  replace (p ++ bs ++ mv ++ s) with ((p ++ bs ++ mv) ++ s) by (rewrite <- !app_assoc; reflexivity).
  replace (used a' + zlen bs) with (zlen (p ++ bs ++ mv)) by (rewrite !zlen_app; lia). rewrite firstn_zlen.
  assert (E4 : firstn (Z.to_nat (used a')) (mem a') = p ++ mv).
  { rewrite Hmem, app_assoc. replace (used a') with (zlen (p ++ mv)) by (rewrite zlen_app; lia). apply firstn_zlen. }
  rewrite E4, <- Hp, firstn_zlen, skipn_zlen. reflexivity.
Qed.

(** C23: delete. *)
Lemma array_delete_spec a ofs width : arr_ok a -> 0 <= ofs -> 0 <= width -> ofs + width <= used a ->
  exists a', array_delete a ofs width = AOk a' /\ arr_ok a' /\
     contents a' = firstn (Z.to_nat ofs) (contents a) ++ skipn (Z.to_nat (ofs + width)) (contents a).
Proof.
  intros [H0 H1] Ho Hw Hle. unfold array_delete.
  destruct (take_split (mem a) ofs) as (p & q & Hpq & Hp & _); [lia|].
  assert (Hq : zlen q = zlen (mem a) - ofs) by (rewrite Hpq, zlen_app; lia).
  destruct (take_split q width) as (d & r & Hdr & Hd & _); [lia|].
  assert (Hr : zlen r = zlen q - width) by (rewrite Hdr, zlen_app; lia).
  destruct (take_split r (used a - width - ofs)) as (mv & s & Hms & Hmv & _); [lia|].
  assert (Hmem : mem a = p ++ d ++ mv ++ s) by (rewrite Hpq, Hdr, Hms; reflexivity).
  assert (E1 : mem_get (mem a) (ofs + width) (used a - width - ofs) = Some mv).
  { rewrite Hmem, app_assoc, <- Hmv. replace (ofs + width) with (zlen (p ++ d)) by (rewrite zlen_app; lia). apply mem_get_ok. }
  rewrite E1.
  destruct (take_split (d ++ mv) (zlen mv)) as (x & y & Hxy & Hx & _); [rewrite zlen_app; pose proof (zlen_nonneg d); pose proof (zlen_nonneg mv); lia|].
  assert (E2 : mem_put (mem a) ofs mv = Some (p ++ mv ++ y ++ s)).
  { rewrite Hmem, <- Hp. replace (d ++ mv ++ s) with (x ++ y ++ s) by (rewrite (app_assoc d), Hxy, <- app_assoc; reflexivity). apply mem_put_ok. assumption. }
  rewrite E2. eexists; split; [reflexivity|]. unfold arr_ok, contents. cbn [used mem]. rewrite !zlen_app.
  pose proof (zlen_nonneg s). pose proof (zlen_nonneg y). pose proof (zlen_nonneg mv).
  assert (Hy : zlen y = width) by (apply (f_equal zlen) in Hxy; rewrite !zlen_app in Hxy; lia).
  split; [lia|].
  replace (p ++ mv ++ y ++ s) with ((p ++ mv) ++ y ++ s) by (rewrite <- !app_assoc; reflexivity).
  replace (used a - width) with (zlen (p ++ mv)) by (rewrite !zlen_app; lia). rewrite firstn_zlen.
  assert (E4 : firstn (Z.to_nat (used a)) (mem a) = p ++ d ++ mv).
  { rewrite Hmem. replace (p ++ d ++ mv ++ s) with ((p ++ d ++ mv) ++ s) by (rewrite <- !app_assoc; reflexivity).
    replace (used a) with (zlen (p ++ d ++ mv)) by (rewrite !zlen_app; lia). apply firstn_zlen. }
  rewrite E4. rewrite <- Hp at 1. rewrite firstn_zlen. f_equal. rewrite app_assoc.
  replace (ofs + width) with (zlen (p ++ d)) by (rewrite zlen_app; lia). rewrite skipn_zlen. reflexivity.
Qed.

Lemma array_delete_fault a ofs width : arr_ok a -> 0 <= ofs -> 0 <= width -> used a < ofs + width ->
  array_delete a ofs width = AFault.
Proof.
  intros Hok Ho Hw Hlt. unfold array_delete, mem_get.
  replace ((ofs + width <? 0) || (used a - width - ofs <? 0) || (zlen (mem a) <? ofs + width + (used a - width - ofs))) with true by lia.
  reflexivity.
Qed.

Lemma array_shrink_spec a len : arr_ok a -> 0 <= len ->
  arr_ok (array_shrink a len) /\ contents (array_shrink a len) = firstn (Z.to_nat (used a - len)) (contents a).
Proof.
  intros [H0 H1] Hl. unfold array_shrink, arr_ok, contents. cbn [used mem].
  split; [destruct (len <? used a) eqn:?; lia|].
  rewrite firstn_firstn. f_equal. destruct (len <? used a) eqn:?; lia.
Qed.

Lemma array_resize_spec ok junk a total align : align_ok align -> arr_ok a -> 0 <= total ->
  (exists a', array_resize ok junk a total align = AOk a' /\ arr_ok a' /\ used a' = total /\
     forall n, 0 <= n <= Z.min total (used a) -> firstn (Z.to_nat n) (contents a') = firstn (Z.to_nat n) (contents a)) \/
  (ok = false /\ array_resize ok junk a total align = AFail a).
Proof.
  intros Ha Hok Ht. unfold array_resize.
  destruct (grow_ok ok junk a total align Ha Hok Ht) as [(a' & -> & Hu & Htt & Hm & Hc)|[-> ->]]; [left|right; auto].
  eexists; split; [reflexivity|]. unfold arr_ok. cbn [used mem]. split; [lia|]. split; [reflexivity|].
  intros n Hn. rewrite <- Hc. unfold contents. cbn [used mem]. rewrite !firstn_firstn. f_equal. lia.
Qed.

Lemma array_copy_spec ok junk p q : arr_ok p -> arr_ok q ->
  (exists p', array_copy ok junk p q = AOk p' /\ arr_ok p' /\ contents p' = contents q) \/
  (ok = false /\ array_copy ok junk p q = AFail p).
Proof.
  intros Hp Hq. unfold array_copy.
  destruct (array_resize_spec ok junk p (used q) 0 (or_introl eq_refl) Hp ltac:(destruct Hq; lia)) as [(p' & -> & Hok & Hu & _)|[-> ->]]; [left|right; auto].
  destruct Hq as [Q0 Q1]. destruct Hok as [P0 P1].
  destruct (take_split (mem q) (used q)) as (b & s & Hbs & Hb & Hf); [lia|].
  assert (E1 : mem_get (mem q) 0 (used q) = Some b) by (rewrite Hbs, <- Hb; apply (mem_get_ok [] b s)).
  rewrite E1. destruct (take_split (mem p') (used p')) as (o & t & Hot & Ho & _); [lia|].
  assert (E2 : mem_put (mem p') 0 b = Some (b ++ t)) by (rewrite Hot; apply (mem_put_ok [] o t b); lia).
  rewrite E2. eexists; split; [reflexivity|]. unfold arr_ok, contents. cbn [used mem]. rewrite zlen_app. pose proof (zlen_nonneg t).
  split; [lia|]. rewrite Hf. replace (used p') with (zlen b) by lia. apply firstn_zlen.
Qed.

(** ** FIFO *)
Lemma fifo_size_pending f : fifo_ok f -> fifo_size f = zlen (pending f).
Proof.
  intros [[H0 H1] H2]. unfold fifo_size, pending, contents, zlen in *. rewrite skipn_length, firstn_length. lia.
Qed.

Lemma fifo_split f : fifo_ok f -> exists d q t, mem (base f) = d ++ q ++ t /\ zlen d = rdpos f /\ q = pending f /\ zlen d + zlen q = used (base f).
Proof.
  intros [[H0 H1] H2]. destruct (take_split (mem (base f)) (used (base f))) as (l & t & Hlt & Hl & Hf); [lia|].
  destruct (take_split l (rdpos f)) as (d & q & Hdq & Hd & _); [lia|].
  exists d, q, t. split; [rewrite Hlt, Hdq, <- app_assoc; reflexivity|]. split; [assumption|].
  split; [unfold pending, contents; rewrite Hf, Hdq, <- Hd, skipn_zlen; reflexivity|].
  rewrite <- Hl, Hdq, zlen_app. reflexivity.
Qed.

(** C24: write. *)
Lemma fifo_write_spec ok junk f bs align : align_ok align -> fifo_ok f ->
  (exists f', fifo_write ok junk f bs align = FOk f' /\ fifo_ok f' /\ pending f' = pending f ++ bs /\
     used (base f') + SAFETAIL <= zlen (mem (base f'))) \/
  (ok = false /\ exists f', fifo_write ok junk f bs align = FFail f' /\ fifo_ok f' /\ pending f' = pending f).
Proof.
  intros Ha Hok. destruct (fifo_split f Hok) as (d & q & t & Hm & Hd & Hq & Hu). pose proof Hok as [[H0 H1] H2].
  unfold fifo_write. pose proof (zlen_nonneg bs). pose proof (zlen_nonneg q). pose proof (zlen_nonneg t).
  set (total := zlen (mem (base f))). set (e := used (base f) + zlen bs + SAFETAIL).
  (* state after the optional compaction *)
  assert (HC : exists f1 e1,
    (if (total <? e) && (0 <? rdpos f) then
      match mem_get (mem (base f)) (rdpos f) (used (base f) - rdpos f) with
      | None => None
      | Some live =>
          match mem_put (mem (base f)) 0 live with
          | None => None
          | Some m => Some (mkFifo (mkArr m (used (base f) - rdpos f)) 0, e - rdpos f)
          end
      end else Some (f, e)) = Some (f1, e1) /\ fifo_ok f1 /\ pending f1 = pending f /\
      zlen (mem (base f1)) = total /\ e1 = used (base f1) + zlen bs + SAFETAIL).
  { destruct ((total <? e) && (0 <? rdpos f)).
    - assert (E1 : mem_get (mem (base f)) (rdpos f) (used (base f) - rdpos f) = Some q).
      { rewrite Hm, <- Hd. replace (used (base f) - zlen d) with (zlen q) by lia. apply mem_get_ok. }
      rewrite E1. destruct (take_split (d ++ q) (zlen q)) as (x & y & Hxy & Hx & _); [rewrite zlen_app; pose proof (zlen_nonneg d); lia|].
      assert (E2 : mem_put (mem (base f)) 0 q = Some (q ++ y ++ t)).
      { rewrite Hm. replace (d ++ q ++ t) with (x ++ y ++ t) by (rewrite (app_assoc d), Hxy, <- app_assoc; reflexivity). apply (mem_put_ok [] x (y ++ t) q). assumption. }
      rewrite E2. do 2 eexists. split; [reflexivity|].
      assert (Hz : zlen (q ++ y ++ t) = total).
      { subst total. rewrite Hm, !zlen_app. apply (f_equal zlen) in Hxy. rewrite !zlen_app in Hxy. lia. }
      split; [|split; [|split]].
      + unfold fifo_ok, arr_ok. cbn [base rdpos mem used]. rewrite Hz. lia.
      + unfold pending at 1, contents. cbn [base rdpos mem used]. replace (used (base f) - rdpos f) with (zlen q) by lia.
        rewrite firstn_zlen. cbn. assumption.
      + exact Hz.
      + cbn [base used]. subst e. lia.
    - exists f, e. repeat split; try reflexivity; try apply Hok; lia. }
  destruct HC as (f1 & e1 & -> & [Ho1 Hr1] & Hp1 & Hm1 & He1). rewrite <- Hm1.
  assert (He1n : 0 <= e1) by (destruct Ho1; unfold SAFETAIL in He1; lia).
  destruct (grow_ok ok junk (base f1) e1 align Ha Ho1 He1n) as [(b & -> & Hub & Htb & Hmb & Hcb)|[-> ->]].
  - left. destruct (take_split (mem b) (used b)) as (p & r & Hpr & Hp & Hf); [destruct Ho1; lia|].
    assert (Hr : zlen r = zlen (mem b) - used b) by (rewrite Hpr, zlen_app; lia).
    destruct (take_split r (zlen bs)) as (o & s & Hos & Hol & _); [unfold SAFETAIL in *; lia|].
    assert (E : mem_put (mem b) (used b) bs = Some (p ++ bs ++ s)) by (rewrite Hpr, Hos, <- Hp; apply mem_put_ok; assumption).
    rewrite E. eexists; split; [reflexivity|]. unfold fifo_ok, arr_ok. cbn [base rdpos mem used]. rewrite !zlen_app.
    assert (Hs : zlen s = zlen r - zlen bs) by (rewrite Hos, zlen_app; lia).
    unfold SAFETAIL in *. destruct Ho1. split; [lia|]. split; [|lia].
    unfold pending at 1, contents. cbn [base rdpos mem used].
    replace (used b + zlen bs) with (zlen (p ++ bs)) by (rewrite zlen_app; lia). rewrite app_assoc, firstn_zlen.
    rewrite <- Hp1. unfold pending. rewrite <- Hcb. unfold contents. rewrite Hf. rewrite skipn_app.
    replace (Z.to_nat (rdpos f1) - length p)%nat with 0%nat by (unfold zlen in *; lia). reflexivity.
  - right. split; [reflexivity|]. exists f1. split; [reflexivity|]. split; [split; assumption|assumption].
Qed.

(** C24: read. *)
Lemma fifo_read_spec f n : fifo_ok f -> 0 <= n <= fifo_size f ->
  exists bs f', fifo_read f n = Some (bs, f') /\ fifo_ok f' /\ zlen bs = n /\ pending f = bs ++ pending f'.
Proof.
  intros Hok Hn. pose proof Hok as [[H0 H1] H2]. rewrite fifo_size_pending in Hn by assumption.
  destruct (fifo_split f Hok) as (d & q & t & Hm & Hd & Hq & Hu). rewrite <- Hq in Hn.
  destruct (take_split q n) as (x & y & Hxy & Hx & _); [lia|].
  assert (E : mem_get (mem (base f)) (rdpos f) n = Some x).
  { rewrite Hm, Hxy, <- Hd, <- Hx, <- app_assoc. apply mem_get_ok. }
  unfold fifo_read. rewrite E. do 2 eexists. split; [reflexivity|]. unfold fifo_ok. cbn [base rdpos].
  assert (Hy : zlen q = n + zlen y) by (rewrite Hxy, zlen_app; lia). pose proof (zlen_nonneg y).
  split; [split; [split; assumption|lia]|]. split; [assumption|]. rewrite <- Hq, Hxy. f_equal.
  unfold pending, contents. cbn [base rdpos]. rewrite Hm, Hxy.
  replace (d ++ (x ++ y) ++ t) with (((d ++ x) ++ y) ++ t) by (rewrite <- !app_assoc; reflexivity).
  replace (used (base f)) with (zlen ((d ++ x) ++ y)) by (rewrite !zlen_app; lia). rewrite firstn_zlen.
  replace (rdpos f + n) with (zlen (d ++ x)) by (rewrite zlen_app; lia). rewrite skipn_zlen. reflexivity.
Qed.

Lemma fifo_run_queue ops : forall f i o g, Forall op_align_ok ops -> fifo_ok f ->
  fifo_run f ops = Some (i, o, g) -> fifo_ok g /\ pending f ++ i = o ++ pending g.
Proof.
  induction ops as [|[ok junk bs align|n] ops IH]; intros f i o g Hal Hok; cbn [fifo_run].
  - intros [= <- <- <-]. split; [assumption|]. apply app_nil_r.
  - inversion Hal; subst. cbn in H1.
    destruct (fifo_write_spec ok junk f bs align H1 Hok) as [(f' & -> & Hok' & Hp & _)|(_ & f' & -> & Hok' & Hp)].
    + destruct (fifo_run f' ops) as [[[i' o'] g']|] eqn:E; [|discriminate]. intros [= <- <- <-].
      destruct (IH _ _ _ _ H2 Hok' E) as [Hg He]. split; [assumption|]. rewrite app_assoc, <- Hp. exact He.
    + intros E. destruct (IH _ _ _ _ H2 Hok' E) as [Hg He]. split; [assumption|]. rewrite <- Hp. exact He.
  - inversion Hal; subst. destruct ((n <? 0) || (fifo_size f <? n)) eqn:En; [discriminate|].
    destruct (fifo_read_spec f n Hok ltac:(lia)) as (bs & f' & -> & Hok' & Hz & Hp).
    destruct (fifo_run f' ops) as [[[i' o'] g']|] eqn:E; [|discriminate]. intros [= <- <- <-].
    destruct (IH _ _ _ _ H2 Hok' E) as [Hg He]. split; [assumption|]. rewrite Hp, <- !app_assoc. f_equal. exact He.
Qed.

(** No history faults, whatever the allocator does, as long as reads ask for what is pending. *)
Lemma fifo_run_total ops : forall f, Forall op_align_ok ops -> fifo_ok f ->
  (exists r, fifo_run f ops = Some r) \/
  (exists pre n post i o g, ops = pre ++ OpRead n :: post /\ fifo_run f pre = Some (i, o, g) /\ (n < 0 \/ zlen (pending g) < n)).
Proof.
  induction ops as [|[ok junk bs align|n] ops IH]; intros f Hal Hok; cbn [fifo_run].
  - left; eauto.
  - inversion Hal; subst. cbn in H1.
    destruct (fifo_write_spec ok junk f bs align H1 Hok) as [(f' & Hw & Hok' & Hp & _)|(_ & f' & Hw & Hok' & Hp)]; rewrite Hw.
    + destruct (IH f' H2 Hok') as [[[[i o] g] Hr]|(pre & n & post & i & o & g & -> & Hr & Hn)].
      * left. rewrite Hr. eauto.
      * right. exists (OpWrite ok junk bs align :: pre), n, post, (bs ++ i), o, g. split; [reflexivity|]. cbn [fifo_run]. rewrite Hw, Hr. auto.
    + destruct (IH f' H2 Hok') as [[[[i o] g] Hr]|(pre & n & post & i & o & g & -> & Hr & Hn)].
      * left. rewrite Hr. eauto.
      * right. exists (OpWrite ok junk bs align :: pre), n, post, i, o, g. split; [reflexivity|]. cbn [fifo_run]. rewrite Hw, Hr. auto.
  - inversion Hal; subst. destruct ((n <? 0) || (fifo_size f <? n)) eqn:En.
    + right. exists [], n, ops, [], [], f. split; [reflexivity|]. split; [reflexivity|]. rewrite <- fifo_size_pending by assumption. lia.
    + destruct (fifo_read_spec f n Hok ltac:(lia)) as (bs & f' & Hw & Hok' & Hz & Hp). rewrite Hw.
      destruct (IH f' H2 Hok') as [[[[i o] g] Hr]|(pre & m & post & i & o & g & -> & Hr & Hn)].
      * left. rewrite Hr. eauto.
      * right. exists (OpRead n :: pre), m, post, i, (bs ++ o), g. split; [reflexivity|]. cbn [fifo_run]. rewrite En, Hw, Hr. auto.
Qed.
