From Verif Require Import Base BaseProofs Ebml Stream Tree Arr ArrProofs ArrProofs2 BinMem BinMemSpec.

Lemma mem_put_front m d : zlen d <= zlen m -> exists t, mem_put m 0 d = Some (d ++ t) /\ zlen (d ++ t) = zlen m.
Proof.
  intros H. unfold mem_put. pose proof (zlen_nonneg d).
  rewrite (proj2 (Z.ltb_ge 0 0)) by lia. rewrite (proj2 (Z.ltb_ge (zlen m) (0 + zlen d))) by lia. cbn [orb].
  cbn [firstn app Z.to_nat]. eexists. split; [reflexivity|].
  unfold zlen in *. rewrite app_length, skipn_length. lia.
Qed.
Lemma mem_get_front (d t : list Z) : mem_get (d ++ t) 0 (zlen d) = Some d.
Proof.
  unfold mem_get. pose proof (zlen_nonneg d). pose proof (zlen_nonneg t).
  assert (L : zlen (d ++ t) = zlen d + zlen t) by (unfold zlen; rewrite app_length; lia).
  rewrite (proj2 (Z.ltb_ge (zlen d) 0)) by lia. rewrite (proj2 (Z.ltb_ge (zlen (d ++ t)) (0 + zlen d))) by lia. cbn [orb Z.ltb Z.compare skipn Z.to_nat].
  f_equal. replace (Z.to_nat (zlen d)) with (length d) by (unfold zlen; lia).
  rewrite firstn_app, firstn_all, Nat.sub_diag. cbn [firstn]. apply app_nil_r.
Qed.
Lemma mem_get_some m n : 0 <= n <= zlen m -> exists l, mem_get m 0 n = Some l.
Proof.
  intros H. unfold mem_get. rewrite (proj2 (Z.ltb_ge n 0)) by lia. rewrite (proj2 (Z.ltb_ge (zlen m) (0 + n))) by lia.
  cbn. eauto.
Qed.

(** Sizes below 2^62 are not wrapped. *)
Lemma align_loop_le k a t : 0 < a <= 32768 -> 0 < align_loop k a t <= 32768.
Proof.
  revert a. induction k as [|k IH]; intros a H; cbn [align_loop]; [lia|].
  destruct (a <? 16384) eqn:E; [|lia]. destruct (t <? a * 8); [lia|]. apply IH. rewrite Z.shiftl_mul_pow2 by lia. change (2 ^ 1) with 2. lia.
Qed.
Lemma size_align_bounds t : 0 <= t -> t <= size_align t 0 < t + 32768.
Proof.
  intros H. split; [apply size_align_ge; left; reflexivity|].
  unfold size_align. cbn [Z.eqb]. destruct (align_loop_pow 11 4 t ltac:(lia)) as (k & Hk & E). change (2 ^ 4) with 16 in E.
  pose proof (align_loop_le 11 16 t ltac:(lia)) as B. rewrite E in *. rewrite round_up by lia.
  assert (0 < 2 ^ k) by lia. pose proof (Z.mul_div_le (t + (2 ^ k - 1)) (2 ^ k) ltac:(lia)). nia.
Qed.
Definition arr_in (a : barr) : Prop := 0 <= used a <= zlen (mem a) /\ used a < 2 ^ 61.
Lemma resize64_in ok junk a t a' : 0 <= t < 2 ^ 61 -> arr_in a -> resize64 ok junk a t = Some a' ->
  used a' = t /\ arr_in a'.
Proof.
  intros Ht Ha. unfold resize64. destruct (zlen (mem a) <? t) eqn:E.
  - pose proof (size_align_bounds t ltac:(lia)) as B. rewrite Z.mod_small by lia. unfold data_realloc.
    destruct (zlen (mem a) <? size_align t 0) eqn:E2; [|lia].
    destruct (ok && (size_align t 0 <? MALLOC_MAX)); [|discriminate]. intros [= <-]. cbn [used mem].
    split; [reflexivity|]. unfold arr_in. cbn [used mem]. pose proof (zlen_nonneg (mem a)).
    assert (zlen (mem a ++ repeat junk (Z.to_nat (size_align t 0 - zlen (mem a)))) = size_align t 0)
      by (unfold zlen in *; rewrite app_length, repeat_length; lia). lia.
  - intros [= <-]. unfold arr_in. cbn [used mem]. lia.
Qed.

Definition elt_ok (e : belt) (s : Z) : Prop := arr_in (b_data e) /\ -1 <= b_size e < 2 ^ 61 /\ (0 <= s -> 0 <= b_size e).
(** The element holds the value. *)
Definition holds (e : belt) (s : Z) (v : option (list Z)) : Prop :=
  b_size e = s /\
  match v with
  | Some d => b_set e = true /\ b_size e = zlen d /\ used (b_data e) = zlen d /\ exists t, mem (b_data e) = d ++ t
  | None => b_set e = false
  end.

Lemma set_ok e s d ok junk : elt_ok e s -> zlen d < 2 ^ 61 -> exists e' c, b_set_data e d ok junk = Some (e', c) /\
  (c = 0 /\ elt_ok e' (zlen d) /\ holds e' (zlen d) (Some d) \/ c = ERR_OUT_OF_MEMORY /\ e' = e).
Proof.
  intros (Ha & Hs & Hk) Hd. unfold b_set_data. pose proof (zlen_nonneg d).
  destruct (resize64 ok junk (b_data e) (zlen d)) as [a|] eqn:E.
  - destruct (resize64_in ok junk (b_data e) (zlen d) a ltac:(lia) Ha E) as (U & Ia). destruct (mem_put_front (mem a) d) as (t & P & L); [unfold arr_in in Ia; lia|].
    rewrite P. eexists _, _. split; [reflexivity|]. left. split; [reflexivity|]. unfold elt_ok, holds, arr_in in *. cbn [b_data b_size b_set used mem].
    repeat split; try lia; eauto.
  - eexists _, _. split; [reflexivity|]. auto.
Qed.
Lemma firstn_min (l : list Z) n : 0 <= n <= zlen l -> firstn (Z.to_nat (Z.min n (zlen l))) l = firstn (Z.to_nat n) l.
Proof. intros H. rewrite Z.min_l by lia. reflexivity. Qed.
Lemma read_ok e s nodata src ok junk : elt_ok e s -> (nodata = false -> src <> None -> 0 <= s) ->
  exists e' c, b_read e nodata src ok junk = Some (e', c) /\ elt_ok e' s /\ b_size e' = b_size e /\
  (b_set e' = false /\ (c = 0 -> nodata = true) \/
   c = 0 /\ nodata = false /\ exists l, src = Some l /\ holds e' (b_size e) (Some (firstn (Z.to_nat (b_size e)) l))).
Proof.
  intros (Ha & Hs & Hk) Hn. unfold b_read. destruct nodata.
  { eexists _, _. split; [reflexivity|]. unfold elt_ok. cbn [b_data b_size b_set]. auto 10. }
  destruct src as [src|].
  2:{ eexists _, _. split; [reflexivity|]. unfold elt_ok, arr_in in *. cbn [b_data b_size b_set]. repeat split; auto; try lia. left. split; [reflexivity|]. discriminate. }
  specialize (Hn eq_refl ltac:(discriminate)). specialize (Hk Hn). rewrite Z.mod_small by lia.
  destruct (resize64 ok junk (b_data e) (b_size e)) as [a|] eqn:E.
  2:{ eexists _, _. split; [reflexivity|]. unfold elt_ok, arr_in in *. cbn [b_data b_size b_set]. repeat split; auto; try lia. left. split; [reflexivity|]. discriminate. }
  destruct (resize64_in ok junk (b_data e) (b_size e) a ltac:(lia) Ha E) as (U & Ia). pose proof (zlen_nonneg src) as Hz.
  set (d := firstn (Z.to_nat (Z.min (b_size e) (zlen src))) src).
  assert (Ld : zlen d = Z.min (b_size e) (zlen src)).
  { unfold d, zlen in *. rewrite firstn_length. lia. }
  destruct (mem_put_front (mem a) d) as (t & P & L); [unfold arr_in in Ia; lia|]. rewrite P.
  destruct (zlen src <? b_size e) eqn:Es.
  - eexists _, _. split; [reflexivity|]. unfold elt_ok, arr_in in *. cbn [b_data b_size b_set mem used]. repeat split; auto; try lia.
    left. split; [reflexivity|]. discriminate.
  - eexists _, _. split; [reflexivity|]. unfold elt_ok, arr_in in *. cbn [b_data b_size b_set mem used]. repeat split; auto; try lia.
    right. split; [reflexivity|]. split; [reflexivity|]. exists src. split; [reflexivity|].
    rewrite <- (firstn_min src (b_size e)) by lia. fold d. unfold holds. cbn [b_data b_size b_set mem used]. repeat split; try lia. eauto.
Qed.
Lemma get_ok e s : elt_ok e s -> exists r, b_get e = Some r.
Proof.
  intros (Ha & _). unfold b_get. destruct (used (b_data e) =? 0); [eauto|].
  destruct (mem_get_some (mem (b_data e)) (used (b_data e))) as (l & ->); [apply Ha|]. eauto.
Qed.
Lemma update_ok e s : elt_ok e s -> elt_ok (fst (b_update e)) (snd (b_update e)).
Proof. intros (Ha & Hs & Hk). unfold b_update, elt_ok, arr_in in *. cbn. repeat split; try lia; auto. Qed.
Lemma update_holds e s v : holds e s v -> holds (fst (b_update e)) (snd (b_update e)) v.
Proof. unfold holds, b_update. cbn [fst snd b_size b_set b_data]. intros (E & H). split; [reflexivity|]. destruct v; [|auto]. tauto. Qed.
Lemma render_ok e s : elt_ok e s -> exists e' b, b_render e = Some (e', b) /\ elt_ok e' s.
Proof.
  intros H. unfold b_render. destruct (b_set e); cbn [negb]; [|eauto].
  destruct (b_need e).
  - destruct H as (Ha & Hs & Hk). cbn [b_update fst b_data]. destruct (mem_get_some (mem (b_data e)) (used (b_data e))) as (l & ->); [apply Ha|].
    eexists _, _. split; [reflexivity|]. unfold elt_ok, arr_in in *. cbn. repeat split; try lia; auto.
  - destruct (mem_get_some (mem (b_data e)) (used (b_data e))) as (l & ->); [apply H|]. eauto.
Qed.
Lemma render_holds e s v e' b : holds e s v -> b_render e = Some (e', b) ->
  holds e' s v /\ b = match v with Some d => Some (zlen d, d) | None => None end.
Proof.
  unfold holds, b_render. intros (E & H). destruct v as [d|].
  - destruct H as (S & Hs & Hu & t & Ht). rewrite S. cbn [negb].
    assert (G : mem_get (mem (b_data e)) 0 (used (b_data e)) = Some d) by (rewrite Ht, Hu; apply mem_get_front).
    destruct (b_need e); cbn [b_update fst b_data b_size]; rewrite G; intros [= <- <-]; cbn [b_size b_set b_data]; repeat split; try congruence; eauto.
  - rewrite H. cbn [negb]. intros [= <- <-]. auto.
Qed.
Lemma get_holds e s d r : holds e s (Some d) -> b_get e = Some r -> r = pointed d.
Proof.
  intros (_ & _ & _ & Hu & t & Ht). unfold b_get. rewrite Hu, Ht, mem_get_front. destruct (zlen d =? 0) eqn:Z0.
  - intros [= <-]. destruct d; [reflexivity|]. unfold zlen in Z0. cbn [length] in Z0. lia.
  - intros [= <-]. destruct d; [discriminate|reflexivity].
Qed.
Lemma copy_ok e s ok junk : elt_ok e s -> exists e', b_copy e ok junk = Some e' /\ elt_ok e' s.
Proof.
  intros (Ha & Hs & Hk). unfold b_copy. assert (E0 : arr_in (mkArr [] 0)) by (unfold arr_in, zlen; cbn; lia).
  destruct (resize64 ok junk (mkArr [] 0) (used (b_data e))) as [a|] eqn:E.
  - destruct (resize64_in ok junk (mkArr [] 0) (used (b_data e)) a ltac:(unfold arr_in in Ha; lia) E0 E) as (U & Ia).
    destruct (mem_get_some (mem (b_data e)) (used (b_data e))) as (l & G); [apply Ha|]. rewrite G.
    assert (Ll : zlen l = used (b_data e)).
    { unfold mem_get in G. destruct (_ || _) eqn:B in G; [discriminate|]. injection G as <-.
      unfold arr_in, zlen in *. rewrite firstn_length. cbn [skipn Z.to_nat]. lia. }
    destruct (mem_put_front (mem a) l) as (t & P & L); [unfold arr_in in Ia; lia|]. rewrite P.
    eexists. split; [reflexivity|]. unfold elt_ok, arr_in in *. cbn. repeat split; try lia; auto.
  - eexists. split; [reflexivity|]. unfold elt_ok. cbn. auto.
Qed.
Lemma resize64_gets junk t : 0 <= t < 2 ^ 61 -> resize64 true junk (mkArr [] 0) t <> None.
Proof.
  intros Ht. unfold resize64. destruct (zlen (mem (mkArr [] 0)) <? t) eqn:E; [|discriminate].
  pose proof (size_align_bounds t ltac:(lia)) as B. rewrite Z.mod_small by lia. unfold data_realloc.
  rewrite (proj2 (Z.ltb_lt (size_align t 0) MALLOC_MAX)) by (unfold MALLOC_MAX; lia). cbn [andb].
  destruct (zlen (mem (mkArr [] 0)) <? size_align t 0); discriminate.
Qed.
Lemma copy_holds e s0 s v junk e' : elt_ok e s0 -> holds e s v -> b_copy e true junk = Some e' -> holds e' s v.
Proof.
  intros (Ha & Hs & Hk) (E & H). unfold b_copy.
  destruct (resize64 true junk (mkArr [] 0) (used (b_data e))) as [a|] eqn:R.
  2:{ exfalso. revert R. apply resize64_gets. unfold arr_in in Ha. lia. }
  assert (E0 : arr_in (mkArr [] 0)) by (unfold arr_in, zlen; cbn; lia).
  destruct (resize64_in true junk (mkArr [] 0) (used (b_data e)) a ltac:(unfold arr_in in Ha; lia) E0 R) as (U & Ia).
  destruct v as [d|].
  - destruct H as (S & Hz & Hu & t & Ht). rewrite Ht, Hu, mem_get_front.
    destruct (mem_put_front (mem a) d) as (t' & P & L); [unfold arr_in in Ia; lia|]. rewrite P. intros [= <-].
    unfold holds. cbn. rewrite U. repeat split; auto. eauto.
  - destruct (mem_get _ _ _) as [l|]; [|discriminate]. destruct (mem_put _ _ _); [|discriminate]. intros [= <-]. unfold holds. cbn. auto.
Qed.

(** The invariant of histories in order. *)
Definition binv (h : bhistory) (m : bmem) : Prop :=
  forall k e, bm_elts m k = Some e -> (k < bm_made m)%nat /\ elt_ok e (told_size h k) /\
    (b_whole h = true -> holds e (told_size h k) (value h k)).
Lemma bput_get m k e j x : bm_elts (bput m k e) j = Some x -> j = k /\ e = Some x \/ j <> k /\ bm_elts m j = Some x.
Proof. unfold bput. cbn. destruct (Nat.eqb_spec j k); auto. Qed.
Lemma badd_get m e j x : bm_elts (fst (badd m e)) j = Some x -> j = bm_made m /\ e = x \/ j <> bm_made m /\ bm_elts m j = Some x.
Proof. unfold badd. cbn. destruct (Nat.eqb_spec j (bm_made m)); [left|right]; split; auto. congruence. Qed.

(** Calls that leave what is told of everything as it was. *)
Lemma binv_same h m o r : binv h m -> b_copied o = true ->
  (forall k, bm_elts m k <> None -> told_size ((o, r) :: h) k = told_size h k /\ value ((o, r) :: h) k = value h k) -> binv ((o, r) :: h) m.
Proof.
  intros H C T k e Ek. destruct (H k e Ek) as (Hk & Ho & Hw). destruct (T k ltac:(congruence)) as (-> & ->).
  split; [auto|]. split; [auto|]. cbn [b_whole]. rewrite C. auto.
Qed.
Lemma binv_step h m o : binv h m -> b_in_order h o = true ->
  exists m' r, bstep m o = Some (m', r) /\ binv ((o, r) :: h) m'.
Proof.
  intros H O. destruct o as [|n|k d ok junk|k nd src ok junk|k|k|k|k md ok junk|k]; cbn [bstep].
  - eexists _, _. split; [reflexivity|]. intros j x Ej. apply badd_get in Ej. cbn [told_size value b_whole bmade].
    destruct Ej as [(-> & <-)|(N & Ej)].
    + rewrite Nat.eqb_refl. cbn. split; [lia|]. split; [|intros _; unfold holds; cbn; auto].
      unfold elt_ok, arr_in, zlen. cbn. unfold INVALID_FILEPOS. lia.
    + destruct (H j x Ej) as (Hj & Ho & Hw). rewrite (proj2 (Nat.eqb_neq (bm_made m) j)) by congruence. cbn. split; [lia|auto].
  - cbn [b_in_order] in O. eexists _, _. split; [reflexivity|]. intros j x Ej. apply badd_get in Ej. cbn [told_size value b_whole bmade].
    destruct Ej as [(-> & <-)|(N & Ej)].
    + rewrite Nat.eqb_refl. cbn. split; [lia|]. split; [|intros _; unfold holds; cbn; auto].
      unfold elt_ok, arr_in, zlen. cbn. lia.
    + destruct (H j x Ej) as (Hj & Ho & Hw). rewrite (proj2 (Nat.eqb_neq (bm_made m) j)) by congruence. cbn. split; [lia|auto].
  - destruct (bm_elts m k) as [e|] eqn:Ek.
    2:{ eexists _, _. split; [reflexivity|]. apply binv_same; auto. }
    destruct (H k e Ek) as (Hk & Ho & Hw). cbn [b_in_order] in O. destruct (set_ok e _ d ok junk Ho ltac:(lia)) as (e' & c & -> & C).
    eexists _, _. split; [reflexivity|]. intros j x Ej. apply bput_get in Ej. cbn [told_size value b_whole b_copied andb bm_made bput].
    destruct C as [(-> & Ho' & Hh)|(-> & ->)].
    + destruct Ej as [(-> & [= <-])|(N & Ej)].
      * rewrite Nat.eqb_refl. auto.
      * rewrite (proj2 (Nat.eqb_neq k j)) by congruence. apply (H j x Ej).
    + cbn. destruct Ej as [(-> & [= <-])|(N & Ej)]; [auto|apply (H j x Ej)].
  - destruct (bm_elts m k) as [e|] eqn:Ek.
    2:{ eexists _, _. split; [reflexivity|]. apply binv_same; auto. }
    destruct (H k e Ek) as (Hk & Ho & Hw). cbn [b_in_order] in O.
    destruct (read_ok e _ nd src ok junk Ho) as (e' & c & -> & Ho' & Hs' & C).
    { intros -> Hn. destruct src; [lia|congruence]. }
    eexists _, _. split; [reflexivity|]. intros j x Ej. apply bput_get in Ej. cbn [told_size value b_whole b_copied andb bm_made bput].
    destruct Ej as [(-> & [= <-])|(N & Ej)].
    + rewrite Nat.eqb_refl. split; [auto|]. split; [auto|]. intros W. specialize (Hw W).
      assert (Es : b_size e = told_size h k) by apply Hw. destruct C as [(S & C)|(-> & -> & l & -> & Hh)].
      * split; [congruence|]. destruct src as [l|]; [|auto]. destruct (negb nd && (c =? 0)) eqn:B; [|auto].
        exfalso. destruct nd; [discriminate|]. cbn in B. apply Z.eqb_eq in B. discriminate (C B).
      * cbn [negb Z.eqb andb]. rewrite Es in Hh. auto.
    + rewrite (proj2 (Nat.eqb_neq k j)) by congruence. apply (H j x Ej).
  - destruct (bm_elts m k) as [e|] eqn:Ek.
    2:{ eexists _, _. split; [reflexivity|]. apply binv_same; auto. }
    destruct (H k e Ek) as (Hk & Ho & Hw). destruct (get_ok e _ Ho) as (r & ->). eexists _, _. split; [reflexivity|]. apply binv_same; auto.
  - destruct (bm_elts m k) as [e|] eqn:Ek.
    2:{ eexists _, _. split; [reflexivity|]. apply binv_same; auto. }
    destruct (H k e Ek) as (Hk & Ho & Hw). destruct (b_update e) as [e' n] eqn:U.
    pose proof (update_ok _ _ Ho) as U1. rewrite U in U1. cbn [fst snd] in U1.
    eexists _, _. split; [reflexivity|]. intros j x Ej. apply bput_get in Ej. cbn [told_size value b_whole b_copied andb bm_made bput].
    destruct Ej as [(-> & [= <-])|(N & Ej)].
    + rewrite Nat.eqb_refl. split; [auto|]. split; [auto|]. intros W. pose proof (update_holds _ _ _ (Hw W)) as U2. rewrite U in U2. exact U2.
    + rewrite (proj2 (Nat.eqb_neq k j)) by congruence. apply (H j x Ej).
  - destruct (bm_elts m k) as [e|] eqn:Ek.
    2:{ eexists _, _. split; [reflexivity|]. apply binv_same; auto. }
    destruct (H k e Ek) as (Hk & Ho & Hw). destruct (render_ok e _ Ho) as (e' & b & R & Ho'). rewrite R.
    eexists _, _. split; [reflexivity|]. intros j x Ej. apply bput_get in Ej. cbn [told_size value b_whole b_copied andb bm_made bput].
    destruct Ej as [(-> & [= <-])|(N & Ej)]; [|apply (H j x Ej)].
    split; [auto|]. split; [auto|]. intros W. apply (render_holds _ _ _ _ _ (Hw W) R).
  - destruct (bm_elts m k) as [e|] eqn:Ek.
    2:{ eexists _, _. split; [reflexivity|]. intros j x Ej. destruct (H j x Ej) as (Hj & Ho & Hw). cbn [told_size value b_whole bmade].
        split; [auto|]. split; [auto|]. intros W. apply andb_true_iff in W. apply Hw. tauto. }
    destruct (H k e Ek) as (Hk & Ho & Hw). destruct md.
    2:{ eexists _, _. split; [reflexivity|]. intros j x Ej. destruct (H j x Ej) as (Hj & Ho' & Hw'). cbn [told_size value b_whole bmade].
        split; [auto|]. split; [auto|]. intros W. apply andb_true_iff in W. apply Hw'. tauto. }
    destruct (copy_ok e _ ok junk Ho) as (e' & C & Ho'). rewrite C. eexists _, _. split; [reflexivity|].
    intros j x Ej. apply badd_get in Ej. cbn [told_size value b_whole bmade b_copied].
    destruct Ej as [(-> & <-)|(N & Ej)].
    + rewrite Nat.eqb_refl. cbn [bm_made]. split; [lia|]. split; [auto|]. intros W. apply andb_true_iff in W as (-> & W).
      exact (copy_holds _ _ _ _ _ _ Ho (Hw W) C).
    + destruct (H j x Ej) as (Hj & Ho2 & Hw2). rewrite (proj2 (Nat.eqb_neq (bm_made m) j)) by congruence. cbn [bm_made]. split; [lia|].
      split; [auto|]. intros W. apply andb_true_iff in W. apply Hw2. tauto.
  - destruct (bm_elts m k) as [e|] eqn:Ek.
    2:{ eexists _, _. split; [reflexivity|]. apply binv_same; auto. }
    eexists _, _. split; [reflexivity|]. intros j x Ej. apply bput_get in Ej. destruct Ej as [(_ & D)|(N & Ej)]; [discriminate|]. apply (H j x Ej).
Qed.
Lemma bhappens_inv h m : bhappens h m -> b_orderly h = true -> binv h m.
Proof.
  induction 1 as [|h m o m' r H IH S]; intros O.
  - intros k e E. discriminate.
  - cbn [b_orderly] in O. apply andb_true_iff in O as (O1 & O2). destruct (binv_step h m o (IH O2) O1) as (m1 & r1 & S1 & I).
    rewrite S in S1. injection S1 as <- <-. exact I.
Qed.
