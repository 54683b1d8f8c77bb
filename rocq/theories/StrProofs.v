(** Proofs about the string helpers. *)
From Verif Require Import Base BaseProofs VintProofs Tree Arr Str StrSpec.

Lemma holds_nil t : holds (0 :: t) [].
Proof. exists t. split; [reflexivity|constructor]. Qed.
Lemma tcslen_ok buf s : holds buf s -> tcslen buf = Ok (zlen s).
Proof.
  intros (t & -> & H). induction H as [|b s Hb H IH]; cbn [app tcslen]; [reflexivity|]. replace (b =? 0) with false by lia. rewrite IH. cbn [bind]. rewrite zlen_cons. reflexivity.
Qed.
Lemma mem_put_app a b c bs : zlen b = zlen bs -> mem_put (a ++ b ++ c) (zlen a) bs = Some (a ++ bs ++ c).
Proof.
  intros H. unfold mem_put. rewrite !zlen_app, H. pose proof (zlen_nonneg a). pose proof (zlen_nonneg c). pose proof (zlen_nonneg bs).
  replace ((zlen a <? 0) || (zlen a + (zlen bs + zlen c) <? zlen a + zlen bs)) with false by lia. do 2 f_equal.
  - rewrite firstn_app. replace (Z.to_nat (zlen a)) with (length a) by (unfold zlen; lia). rewrite firstn_all, Nat.sub_diag. apply app_nil_r.
  - f_equal. rewrite app_assoc, skipn_app. replace (Z.to_nat (zlen a + zlen bs)) with (length (a ++ b)) by (rewrite app_length; unfold zlen in *; lia). rewrite skipn_all, Nat.sub_diag. reflexivity.
Qed.
Lemma split_at (l : list Z) p n : 0 <= p -> 0 <= n -> p + n < zlen l -> exists a b y c, l = a ++ b ++ y :: c /\ zlen a = p /\ zlen b = n.
Proof.
  intros Hp Hn H. exists (firstn (Z.to_nat p) l), (firstn (Z.to_nat n) (skipn (Z.to_nat p) l)).
  remember (skipn (Z.to_nat n) (skipn (Z.to_nat p) l)) as r eqn:E. destruct r as [|y c].
  - assert (K : length (skipn (Z.to_nat n) (skipn (Z.to_nat p) l)) = 0%nat) by (rewrite <- E; reflexivity). rewrite !skipn_length in K. unfold zlen in *. lia.
  - exists y, c. rewrite E, firstn_skipn, firstn_skipn. split; [reflexivity|]. unfold zlen in *. rewrite !firstn_length, !skipn_length. lia.
Qed.
Lemma copy_end_ok out pos inp n : 0 <= pos -> 0 <= n <= zlen inp -> pos + n < zlen out ->
  copy_end out pos inp n = Ok (firstn (Z.to_nat pos) out ++ firstn (Z.to_nat n) inp ++ 0 :: skipn (Z.to_nat (pos + n + 1)) out).
Proof.
  intros Hp Hn Ho. unfold copy_end, mem_get. replace ((0 <? 0) || (n <? 0) || (zlen inp <? 0 + n)) with false by lia. cbn [opt_res bind Z.to_nat skipn].
  assert (L : zlen (firstn (Z.to_nat n) inp) = n) by (unfold zlen in *; rewrite firstn_length; lia). set (x := firstn (Z.to_nat n) inp) in *.
  destruct (split_at out pos n Hp ltac:(lia) Ho) as (a & b & y & c & -> & <- & Hb).
  rewrite (mem_put_app a b (y :: c) x) by lia. cbn [opt_res bind]. replace (zlen a + n) with (zlen (a ++ x)) by (rewrite zlen_app; lia).
  replace (a ++ x ++ y :: c) with ((a ++ x) ++ [y] ++ c) by (rewrite <- app_assoc; reflexivity). rewrite (mem_put_app (a ++ x) [y] c [0]) by reflexivity. cbn [opt_res]. f_equal.
  replace (firstn (Z.to_nat (zlen a)) (a ++ b ++ y :: c)) with a by (rewrite firstn_app; replace (Z.to_nat (zlen a)) with (length a) by (unfold zlen; lia); rewrite firstn_all, Nat.sub_diag; cbn [firstn]; rewrite app_nil_r; reflexivity).
  rewrite <- app_assoc. do 3 f_equal. replace (a ++ b ++ y :: c) with ((a ++ b ++ [y]) ++ c) by (rewrite <- !app_assoc; reflexivity).
  rewrite skipn_app. replace (Z.to_nat (zlen (a ++ x) + 1)) with (length (a ++ b ++ [y])) by (rewrite zlen_app, !app_length; cbn [length]; unfold zlen in *; lia). rewrite skipn_all, Nat.sub_diag. reflexivity.
Qed.
Lemma firstn_holds inp s n : holds inp s -> 0 <= n <= zlen s -> firstn (Z.to_nat n) inp = firstn (Z.to_nat n) s /\ n <= zlen inp.
Proof.
  intros (t & -> & _) H. split; [rewrite firstn_app; replace (Z.to_nat n - length s)%nat with 0%nat by (unfold zlen in *; lia); cbn [firstn]; apply app_nil_r|].
  rewrite zlen_app, zlen_cons. pose proof (zlen_nonneg t). lia.
Qed.
Lemma firstn_min (s : list Z) k : firstn (Z.to_nat (Z.min (zlen s) k)) s = firstn (Z.to_nat k) s.
Proof.
  destruct (Z.leb_spec (zlen s) k).
  - rewrite Z.min_l by lia. rewrite !firstn_all2; [reflexivity| |]; unfold zlen in *; lia.
  - rewrite Z.min_r by lia. reflexivity.
Qed.
Lemma zlen_fit len s : 1 <= len -> zlen (fit len s) = Z.min (zlen s) (len - 1).
Proof. intros. unfold fit, zlen. rewrite firstn_length. lia. Qed.
Lemma tcscpy_ok out pos len inp s : 0 <= pos -> 1 <= len -> pos + len <= zlen out -> holds inp s ->
  tcscpy_s out pos len inp = Ok (firstn (Z.to_nat pos) out ++ fit len s ++ 0 :: skipn (Z.to_nat (pos + zlen (fit len s) + 1)) out).
Proof.
  intros Hp Hl Ho H. unfold tcscpy_s. replace (0 <? len) with true by lia. rewrite (tcslen_ok _ _ H). cbn [bind]. pose proof (zlen_nonneg s).
  destruct (firstn_holds inp s (Z.min (zlen s) (len - 1)) H ltac:(lia)) as [E L]. rewrite copy_end_ok by lia. rewrite E, zlen_fit by lia. unfold fit. rewrite firstn_min. reflexivity.
Qed.
Lemma tcsncpy_ok out pos len inp s n : 0 <= pos -> 1 <= len -> pos + len <= zlen out -> 0 <= n -> holds inp s ->
  tcsncpy_s out pos len inp n = Ok (firstn (Z.to_nat pos) out ++ fit len (firstn (Z.to_nat n) s) ++ 0 :: skipn (Z.to_nat (pos + zlen (fit len (firstn (Z.to_nat n) s)) + 1)) out).
Proof.
  intros Hp Hl Ho Hn H. unfold tcsncpy_s. replace (0 <? len) with true by lia. rewrite (tcslen_ok _ _ H). cbn [bind]. pose proof (zlen_nonneg s).
  destruct (firstn_holds inp s (Z.min (Z.min (zlen s) n) (len - 1)) H ltac:(lia)) as [E L]. rewrite copy_end_ok by lia. rewrite E, zlen_fit by lia. unfold fit.
  replace (zlen (firstn (Z.to_nat n) s)) with (Z.min (zlen s) n) by (unfold zlen; rewrite firstn_length; lia).
  rewrite firstn_firstn. rewrite <- Z.min_assoc, firstn_min. repeat f_equal. lia.
Qed.
Lemma firstn_end buf s : holds buf s -> firstn (Z.to_nat (zlen s)) buf = s.
Proof. intros H. destruct (firstn_holds buf s (zlen s) H) as [-> _]; [pose proof (zlen_nonneg s); lia|]. apply firstn_all2. unfold zlen. lia. Qed.

(** ** Comparison *)
Definition stepb x y : bool :=
  match icmp_step (s8 x) (s8 y) with
  | Some true => (x =? 0) && (y =? 0)
  | Some false => negb (rank x =? rank y) && (ascii_upper (s8 x) - ascii_upper (s8 y) =? rank x - rank y)
  | None => (rank x =? rank y) && negb (x =? 0) && negb (y =? 0)
  end && Bool.eqb (rank x =? rank y) ((x =? y) || ((65 <=? x) && (x <=? 90) && (y =? x + 32)) || ((65 <=? y) && (y <=? 90) && (x =? y + 32))).
Lemma step_all : forallb (fun x => forallb (stepb x) all_bytes) all_bytes = true.
Proof. vm_compute. reflexivity. Qed.
Lemma step_ok x y : is_byte x -> is_byte y -> stepb x y = true.
Proof. intros Hx Hy. apply (byte_forall (stepb x)); [|exact Hy]. apply (byte_forall (fun x => forallb (stepb x) all_bytes)); [exact step_all|exact Hx]. Qed.

Lemma step_cases x y : is_byte x -> is_byte y ->
  (same_letter x y <-> rank x = rank y) /\
  match icmp_step (s8 x) (s8 y) with
  | Some true => x = 0 /\ y = 0
  | Some false => rank x <> rank y /\ ascii_upper (s8 x) - ascii_upper (s8 y) = rank x - rank y
  | None => rank x = rank y /\ x <> 0 /\ y <> 0
  end.
Proof.
  intros Hx Hy. pose proof (step_ok x y Hx Hy) as H. unfold stepb in H. apply andb_true_iff in H. destruct H as [H1 H2]. split.
  - apply eqb_prop in H2. unfold same_letter. split; intros H; lia.
  - destruct (icmp_step (s8 x) (s8 y)) as [[|]|]; lia.
Qed.
Definition text (s : list Z) : Prop := Forall (fun b => 0 < b < 256) s.
Lemma text_cons x s : text (x :: s) -> 0 < x < 256 /\ text s.
Proof. intros H. apply Forall_cons_iff in H. exact H. Qed.
Definition sign_is (r : Z) (c : comparison) : Prop := (r ?= 0) = c.
Lemma rank_nz x : 0 < x < 256 -> rank x <> 0.
Proof. unfold rank. intros. destruct (x <? 128) eqn:?, ((97 <=? _) && _) eqn:?; lia. Qed.
Lemma rank0 : rank 0 = 0. Proof. reflexivity. Qed.
Lemma sign_sub p q : p <> q -> sign_is (p - q) (p ?= q).
Proof. unfold sign_is. intros. destruct (Z.compare_spec (p - q) 0), (Z.compare_spec p q); try reflexivity; lia. Qed.
Lemma icmp_gen : forall a b ta tb, text a -> text b -> exists r, tcsicmp_ascii (a ++ 0 :: ta) (b ++ 0 :: tb) = Ok r /\ sign_is r (order a b) /\ tcsisame_ascii (a ++ 0 :: ta) (b ++ 0 :: tb) = Ok (r =? 0).
Proof.
  assert (Z0 : is_byte 0) by (unfold is_byte; lia).
  induction a as [|x a IH]; intros b ta tb Ha Hb; destruct b as [|y b].
  - exists 0. repeat split.
  - apply text_cons in Hb. destruct Hb as [Hy Hb]. cbn [app tcsicmp_ascii tcsisame_ascii order]. destruct (step_cases 0 y Z0 ltac:(unfold is_byte; lia)) as [_ S]. pose proof (rank_nz y Hy).
    destruct (icmp_step (s8 0) (s8 y)) as [[|]|]; [lia| |lia]. destruct S as [S1 S2]. rewrite S2, rank0. eexists. split; [reflexivity|]. split; [apply sign_sub; lia|].
    replace (0 - rank y =? 0) with false by lia. reflexivity.
  - apply text_cons in Ha. destruct Ha as [Hx Ha]. cbn [app tcsicmp_ascii tcsisame_ascii order]. destruct (step_cases x 0 ltac:(unfold is_byte; lia) Z0) as [_ S]. pose proof (rank_nz x Hx).
    destruct (icmp_step (s8 x) (s8 0)) as [[|]|]; [lia| |lia]. destruct S as [S1 S2]. rewrite S2, rank0. eexists. split; [reflexivity|]. split; [apply sign_sub; lia|].
    replace (rank x - 0 =? 0) with false by lia. reflexivity.
  - apply text_cons in Ha, Hb. destruct Ha as [Hx Ha], Hb as [Hy Hb]. cbn [app tcsicmp_ascii tcsisame_ascii order]. destruct (step_cases x y) as [_ S]; [unfold is_byte; lia..|].
    destruct (icmp_step (s8 x) (s8 y)) as [[|]|]; [lia| |].
    + destruct S as [S1 S2]. rewrite S2. eexists. split; [reflexivity|]. split; [|replace (rank x - rank y =? 0) with false by lia; reflexivity].
      pose proof (sign_sub _ _ S1). destruct (Z.compare_spec (rank x) (rank y)); [lia|assumption..].
    + destruct S as (S1 & _ & _). rewrite S1, Z.compare_refl. apply IH; assumption.
Qed.
Lemma order_eq a b : text a -> text b -> (order a b = Eq <-> same_text a b).
Proof.
  revert b. induction a as [|x a IH]; intros [|y b] Ha Hb; cbn [order].
  - split; intros; [constructor|reflexivity].
  - apply text_cons in Hb. destruct Hb as [Hy _]. pose proof (rank_nz y Hy). split; intros H'; [apply Z.compare_eq in H'; lia|inversion H'].
  - apply text_cons in Ha. destruct Ha as [Hx _]. pose proof (rank_nz x Hx). split; intros H'; [apply Z.compare_eq in H'; lia|inversion H'].
  - apply text_cons in Ha, Hb. destruct Ha as [Hx Ha], Hb as [Hy Hb]. destruct (step_cases x y) as [S _]; [unfold is_byte; lia..|]. split; intros H'.
    + destruct (Z.compare_spec (rank x) (rank y)); try discriminate. constructor; [apply S; assumption|]. apply IH; assumption.
    + inversion H'; subst. replace (rank x) with (rank y) by (symmetry; apply S; assumption). rewrite Z.compare_refl. apply IH; assumption.
Qed.
Lemma order_opp a b : order b a = CompOpp (order a b).
Proof.
  revert b. induction a as [|x a IH]; intros [|y b]; cbn [order]; [reflexivity|apply Z.compare_antisym..|].
  rewrite (Z.compare_antisym (rank x) (rank y)). destruct (rank x ?= rank y); cbn [CompOpp]; [apply IH|reflexivity..].
Qed.
Lemma order_trans a : forall b c, text a -> text b -> text c -> order a b <> Gt -> order b c <> Gt -> order a c <> Gt.
Proof.
  induction a as [|x a IH]; intros [|y b] [|z c] Ta Tb Tc; cbn [order]; try discriminate; intros H1 H2; try exact H1; try exact H2.
  - destruct (Z.compare_spec (rank y) (rank z)); destruct (Z.compare_spec 0 (rank y)), (Z.compare_spec 0 (rank z)); try congruence; lia.
  - apply text_cons in Ta. destruct Ta as [Hx _]. pose proof (rank_nz x Hx).
    destruct (Z.compare_spec (rank x) 0), (Z.compare_spec 0 (rank z)), (Z.compare_spec (rank x) (rank z)); try congruence; try lia.
  - destruct (Z.compare_spec (rank x) (rank y)), (Z.compare_spec (rank y) 0), (Z.compare_spec (rank x) 0); try congruence; try lia.
  - apply text_cons in Ta, Tb, Tc. destruct Ta as [_ Ta], Tb as [_ Tb], Tc as [_ Tc].
    destruct (Z.compare_spec (rank x) (rank y)) as [E|E|E], (Z.compare_spec (rank y) (rank z)) as [F|F|F], (Z.compare_spec (rank x) (rank z)) as [G|G|G]; try congruence; try lia. exact (IH b c Ta Tb Tc H1 H2).
Qed.
Lemma nicmp_gen : forall n a b ta tb, text a -> text b -> exists r, tcsnicmp_ascii n (a ++ 0 :: ta) (b ++ 0 :: tb) = Ok r /\ sign_is r (order (firstn n a) (firstn n b)).
Proof.
  assert (Z0 : is_byte 0) by (unfold is_byte; lia).
  induction n as [|n IH]; intros a b ta tb Ha Hb; [exists 0; repeat split|].
  destruct a as [|x a], b as [|y b].
  - exists 0. repeat split.
  - apply text_cons in Hb. destruct Hb as [Hy Hb]. cbn [app tcsnicmp_ascii order firstn]. destruct (step_cases 0 y Z0 ltac:(unfold is_byte; lia)) as [_ S]. pose proof (rank_nz y Hy).
    destruct (icmp_step (s8 0) (s8 y)) as [[|]|]; [lia| |lia]. destruct S as [S1 S2]. rewrite S2, rank0. eexists. split; [reflexivity|]. apply sign_sub; lia.
  - apply text_cons in Ha. destruct Ha as [Hx Ha]. cbn [app tcsnicmp_ascii order firstn]. destruct (step_cases x 0 ltac:(unfold is_byte; lia) Z0) as [_ S]. pose proof (rank_nz x Hx).
    destruct (icmp_step (s8 x) (s8 0)) as [[|]|]; [lia| |lia]. destruct S as [S1 S2]. rewrite S2, rank0. eexists. split; [reflexivity|]. apply sign_sub; lia.
  - apply text_cons in Ha, Hb. destruct Ha as [Hx Ha], Hb as [Hy Hb]. cbn [app tcsnicmp_ascii order firstn]. destruct (step_cases x y) as [_ S]; [unfold is_byte; lia..|].
    destruct (icmp_step (s8 x) (s8 y)) as [[|]|]; [lia| |].
    + destruct S as [S1 S2]. rewrite S2. eexists. split; [reflexivity|].
      pose proof (sign_sub _ _ S1). destruct (Z.compare_spec (rank x) (rank y)); [lia|assumption..].
    + destruct S as (S1 & _ & _). rewrite S1, Z.compare_refl. apply IH; assumption.
Qed.
(** Only the characters asked for are read. *)
Lemma nicmp_local : forall n a b ta tb, (n <= length a)%nat -> (n <= length b)%nat -> tcsnicmp_ascii n (a ++ ta) (b ++ tb) = tcsnicmp_ascii n a b.
Proof.
  induction n as [|n IH]; intros [|x a] [|y b] ta tb La Lb; cbn [length] in *; try lia; [reflexivity..|]. cbn [app tcsnicmp_ascii]. rewrite IH by lia. reflexivity.
Qed.
