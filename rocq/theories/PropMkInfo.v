(** C119 and C120: what mkclean keeps of a segment, and its Segment Info.  Theorems about collected, prepare and set_date of MkInfo.v; the specification is in
    MkInfoSpec.v. *)
From Coq Require Import QArith Permutation.
From Verif Require Import Base BaseProofs Tree MkInfo MkInfoSpec MkInfoProofs.
Open Scope Z_scope.

(** The last readable Info, Tracks, Chapters, Tags and Attachments; Cues when asked for; with --live Info, Tracks and clusters only. *)
Theorem C119_kept live keep l f :
  collected live keep l = inr f ->
  got LInfo l (f_info f) /\ got LTracks l (f_tracks f) /\
  (live = false -> got LChapters l (f_chapters f) /\ got LTags l (f_tags f) /\ got LAttachments l (f_attachments f) /\ (keep = true -> got LCues l (f_cues f))) /\
  (live = true -> f_chapters f = None /\ f_tags f = None /\ f_attachments f = None) /\ (live = true \/ keep = false -> f_cues f = None).
Proof.
  intros E. assert (X : f = collect live keep l).
  { unfold collected in E. destruct (f_info _); [|discriminate]. destruct (f_tracks _); [injection E as <-; reflexivity|]. destruct (f_clusters _); [injection E as <-; reflexivity|discriminate]. }
  subst f. destruct (collect_inv live keep l) as (I1 & I2 & I3 & I4 & I5 & _). tauto.
Qed.
Print Assumptions C119_kept.
(** All readable clusters, in order, without their Position and PrevSize. *)
Theorem C119_clusters live keep l f :
  collected live keep l = inr f ->
  exists s, only (readable LCluster) l s /\
    Forall2 (fun e c => same_cluster e c /\
      ((times is_pos (l_children e) <= 1)%nat -> (times is_prev (l_children e) <= 1)%nat -> only plain (l_children e) (l_children c))) s (f_clusters f).
Proof.
  intros E. assert (X : f = collect live keep l).
  { unfold collected in E. destruct (f_info _); [|discriminate]. destruct (f_tracks _); [injection E as <-; reflexivity|]. destruct (f_clusters _); [injection E as <-; reflexivity|discriminate]. }
  subst f. destruct (collect_inv live keep l) as (_ & _ & _ & _ & _ & s & O & ->). exists s. split; [exact O|]. clear O. induction s as [|e s IH]; cbn [map]; constructor; [|exact IH].
  split; [split; reflexivity|apply strip_only].
Qed.
Print Assumptions C119_clusters.
(** It goes on exactly when there is a readable Segment Info, and readable tracks if there is a readable cluster. *)
Theorem C119_result live keep l :
  (collected live keep l = inl (-6) <-> forall x, In x l -> ~ readable LInfo x) /\
  (collected live keep l = inl (-7) <-> (exists x, In x l /\ readable LInfo x) /\ (forall x, In x l -> ~ readable LTracks x) /\ exists x, In x l /\ readable LCluster x) /\
  (forall r, collected live keep l = inl r -> r = -6 \/ r = -7).
Proof.
  destruct (collect_inv live keep l) as (I1 & I2 & _ & _ & _ & s & O & C). unfold collected. cbv zeta.
  assert (G : forall k o, got k l o -> (o = None <-> forall x, In x l -> ~ readable k x)).
  { intros k [e|]; cbn [got]; intros H; split; try (intros _; exact H); try reflexivity; try discriminate. intros N. destruct H as (a & b & -> & R & _). elim (N e); [apply in_or_app; right; left; reflexivity|exact R]. }
  assert (S : s = [] <-> forall x, In x l -> ~ readable LCluster x).
  { clear -O. induction O as [|x l s H O IH|x l s H O IH].
    - split; [intros _ x []|reflexivity].
    - split; [discriminate|]. intros N. elim (N x (or_introl eq_refl) H).
    - rewrite IH. split; [intros N y [<-|Hy]; [exact H|exact (N y Hy)]|intros N y Hy; apply N; right; exact Hy]. }
  pose proof (G _ _ I1) as G1. pose proof (G _ _ I2) as G2. destruct (f_info _) as [i|] eqn:E1.
  - assert (X : exists x, In x l /\ readable LInfo x). { destruct I1 as (a & b & -> & R & _). exists i. split; [apply in_or_app; right; left; reflexivity|exact R]. }
    split; [split; [destruct (f_tracks _); [discriminate|]; destruct (f_clusters _); discriminate|intros N; destruct X as (x & Hx & R); elim (N x Hx R)]|].
    destruct (f_tracks _) as [t|] eqn:E2.
    + split; [|intros r Y; discriminate Y]. split; [discriminate|]. intros (_ & N & _). apply G2 in N. discriminate N.
    + rewrite C. destruct s as [|c s]; cbn [map].
      * split; [|intros r Y; discriminate Y]. split; [discriminate|]. intros (_ & _ & x & Hx & R). elim (proj1 S eq_refl x Hx R).
      * split; [|intros r Y; injection Y as <-; right; reflexivity]. split; [|reflexivity]. intros _. split; [exact X|]. split; [apply G2; reflexivity|].
        clear -O. remember (c :: s) as t eqn:Et. revert c s Et. induction O as [|x l t H O IH|x l t H O IH]; intros c s Et; [discriminate|exists x; split; [left; reflexivity|exact H]|].
        destruct (IH c s Et) as (y & Hy & R). exists y. split; [right; exact Hy|exact R].
  - split; [split; [intros _; apply G1; reflexivity|reflexivity]|]. split; [|intros r Y; injection Y as <-; left; reflexivity].
    split; [discriminate|]. intros ((x & Hx & R) & _). elim (proj1 G1 eq_refl x Hx R).
Qed.
Print Assumptions C119_result.
Definition el k i := Lelt k true i [].
Example C119_ex :
  exists f, collected false true [el LInfo 1; el LCues 2; el LTracks 3; Lelt LCluster true 4 [(COther, 1); (CPosition, 2); (CPrevSize, 3); (COther, 4)]; Lelt LTags false 5 []; el LTags 6; el LCluster 7] = inr f /\
    f_tags f = Some (el LTags 6) /\ f_cues f = Some (el LCues 2) /\ f_clusters f = [Lelt LCluster true 4 [(COther, 1); (COther, 4)]; el LCluster 7] /\ f_chapters f = None.
Proof. eexists. vm_compute. repeat split. Qed.
(** Findings.  Matroska allows several Tags: all but the last are lost.  Clusters that cannot be read are left out, and this is no error. *)
Theorem C119_tags_refuted :
  (exists f, collected false false [el LInfo 1; el LTags 2; el LTags 3] = inr f /\ f_tags f = Some (el LTags 3)) /\
  (exists f, collected false false [el LInfo 1; el LTracks 2; Lelt LCluster false 3 []; el LCluster 4] = inr f /\ f_clusters f = [el LCluster 4]).
Proof. split; eexists; vm_compute; split; reflexivity. Qed.
Print Assumptions C119_tags_refuted.

(** ** C120 *)
Definition default_scale (new : Z) : ichild := Ichild new IScale 1000000 0%Q.
(** The TimestampScale of the source, or its default, and what is beside it. *)
Definition source_scale (new : Z) (l : list ichild) (c : ichild) (rest : list ichild) : Prop :=
  first_of IScale l c rest \/ none IScale l /\ c = default_scale new /\ rest = l.
Lemma source_ok new l : exists a b c, get_scale new l = (a ++ c :: b, c) /\ source_scale new l c (a ++ b) /\ c_kind c = IScale /\ (forall x, In x a -> c_kind x <> IScale) /\
  (NoDup (keys l) -> ~ In new (keys l) -> NoDup (keys (a ++ c :: b))).
Proof.
  unfold get_scale. destruct (find_child IScale l) as [c|] eqn:E.
  - destruct (find_some _ _ _ E) as (a & b & -> & K & N). exists a, b, c. split; [reflexivity|]. split; [left; exists a, b; auto|]. split; [exact K|]. split; [exact N|auto].
  - exists l, [], (default_scale new). split; [reflexivity|]. split; [right; split; [apply find_none; exact E|split; [reflexivity|apply app_nil_r]]|]. split; [reflexivity|]. split; [apply find_none; exact E|].
    intros H1 H2. rewrite keys_app. cbn [keys map default_scale c_key]. apply (Permutation_NoDup (Permutation_cons_append (keys l) new)). constructor; assumption.
Qed.
Lemma first_unique k : forall a c b a' c' b', a ++ c :: b = a' ++ c' :: b' -> c_kind c = k -> c_kind c' = k -> (forall x, In x a -> c_kind x <> k) -> (forall x, In x a' -> c_kind x <> k) -> a = a' /\ c = c' /\ b = b'.
Proof.
  induction a as [|x a IH]; intros c b [|x' a'] c' b' E K K' N N'; cbn [app] in E; injection E as E1 E2.
  - auto.
  - elim (N' x' (or_introl eq_refl)). rewrite <- E1. exact K.
  - elim (N x (or_introl eq_refl)). rewrite E1. exact K'.
  - subst x'. destruct (IH c b a' c' b' E2 K K') as (-> & -> & ->); [intros y Hy; apply N; right; exact Hy|intros y Hy; apply N'; right; exact Hy|]. auto.
Qed.
Lemma keys_perm a c b : NoDup (keys (a ++ c :: b)) -> NoDup (keys (c :: a ++ b)).
Proof. intros H. apply (Permutation_NoDup (l := keys (a ++ c :: b))); [|exact H]. unfold keys. apply Permutation_map. symmetry. apply Permutation_middle. Qed.
Lemma reorder_ok a c b : NoDup (keys (a ++ c :: b)) -> c_kind c = IScale -> (forall x, In x a -> c_kind x <> IScale) ->
  (none IDuration (a ++ b) -> reorder (a ++ c :: b) = c :: a ++ b) /\
  (forall x d y, a ++ b = x ++ d :: y -> c_kind d = IDuration -> (forall z, In z x -> c_kind z <> IDuration) -> reorder (a ++ c :: b) = d :: c :: x ++ y).
Proof.
  intros H K N. pose proof (keys_perm a c b H) as H2.
  assert (R : reorder (a ++ c :: b) = match find_child IDuration (c :: a ++ b) with Some d => move_before d c (c :: a ++ b) | None => c :: a ++ b end).
  { unfold reorder. rewrite (find_is IScale a c b K N).
    assert (E : match a ++ c :: b with [] => a ++ c :: b | f :: _ => move_before c f (a ++ c :: b) end = c :: a ++ b).
    { destruct (a ++ c :: b) as [|f r] eqn:Ef; [destruct a; discriminate|]. rewrite <- Ef in *. apply to_front; [exact H|]. rewrite Ef. reflexivity. }
    rewrite E. destruct (find_child IDuration (c :: a ++ b)); reflexivity. }
  split.
  - intros M. rewrite R, find_no; [reflexivity|]. intros x [<-|Hx]; [rewrite K; discriminate|exact (M x Hx)].
  - intros x d y E Kd Nd. rewrite R, E. rewrite E in H2. change (c :: x ++ d :: y) with ((c :: x) ++ d :: y) in *.
    rewrite find_is; [|exact Kd|intros z [<-|Hz]; [rewrite K; discriminate|exact (Nd z Hz)]]. rewrite to_front; [reflexivity|exact H2|reflexivity].
Qed.
Lemma split_at (a b x y : list ichild) d : a ++ b = x ++ d :: y -> (exists u, a = x ++ d :: u /\ y = u ++ b) \/ (exists u, x = a ++ u /\ b = u ++ d :: y).
Proof.
  revert x. induction a as [|z a IH]; intros x E; cbn [app] in E.
  - right. exists x. auto.
  - destruct x as [|w x]; cbn [app] in E; injection E as -> E; [left; exists a; auto|]. destruct (IH x E) as [(u & -> & ->)|(u & -> & ->)]; [left; exists u; auto|right; exists u; auto].
Qed.
Lemma ichild_eta k d : c_kind d = k -> Ichild (c_key d) k (c_int d) (c_num d) = d.
Proof. intros <-. destruct d. reflexivity. Qed.
(** One step on the duration, somewhere beside the scale. *)
Lemma duration_ok live old scale a c b x d y : NoDup (keys (a ++ c :: b)) -> c_kind c = IScale -> (forall z, In z a -> c_kind z <> IScale) ->
  a ++ b = x ++ d :: y -> c_kind d = IDuration -> (forall z, In z x -> c_kind z <> IDuration) ->
  exists a' b', set_duration live old scale (a ++ c :: b) = a' ++ c :: b' /\ NoDup (keys (a' ++ c :: b')) /\ (forall z, In z a' -> c_kind z <> IScale) /\
    a' ++ b' = x ++ (if live then [] else if negb (scale =? 0) && negb (scale =? old) then [with_num (c_num d * inject_Z old / inject_Z scale)%Q d] else [d]) ++ y.
Proof.
  intros H K N E Kd Nd.
  assert (F : find_child IDuration (a ++ c :: b) = Some d).
  { destruct (split_at a b x y d E) as [(u & -> & ->)|(u & -> & ->)].
    - rewrite <- app_assoc. cbn [app]. apply find_is; assumption.
    - replace (a ++ c :: u ++ d :: y) with ((a ++ c :: u) ++ d :: y) by (rewrite <- app_assoc; reflexivity). apply find_is; [exact Kd|]. intros z Hz. apply in_app_or in Hz. destruct Hz as [Hz|[<-|Hz]].
      + apply Nd, in_or_app. left. exact Hz.
      + rewrite K. discriminate.
      + apply Nd, in_or_app. right. exact Hz. }
  unfold set_duration. rewrite F. set (w := with_num _ d). assert (Kw : keys [w] = keys [d]) by reflexivity.
  destruct (split_at a b x y d E) as [(u & -> & ->)|(u & -> & ->)].
  - rewrite <- app_assoc in *. cbn [app] in *. destruct live; [|destruct (negb (scale =? 0) && negb (scale =? old))].
    + exists (x ++ u), b. destruct (nodup_mid _ _ _ H) as (M1 & _ & M3). rewrite remove_mid by exact M1. rewrite <- !app_assoc. split; [reflexivity|]. split; [exact M3|]. split; [|reflexivity].
      intros z Hz. apply N. apply in_app_or in Hz. apply in_or_app. cbn [In]. tauto.
    + exists (x ++ w :: u), b. rewrite set_mid by exact H. rewrite <- !app_assoc. cbn [app]. split; [reflexivity|]. split; [|split; [|reflexivity]].
      * rewrite keys_app in *. exact H.
      * intros z Hz. apply in_app_or in Hz. destruct Hz as [Hz|[<-|Hz]]; [apply N, in_or_app; left; exact Hz|cbn [w with_num c_kind]; rewrite Kd; discriminate|apply N, in_or_app; right; right; exact Hz].
    + exists (x ++ d :: u), b. rewrite <- !app_assoc. cbn [app]. split; [reflexivity|]. split; [exact H|]. split; [exact N|reflexivity].
  - replace (a ++ c :: u ++ d :: y) with ((a ++ c :: u) ++ d :: y) in * by (rewrite <- app_assoc; reflexivity). destruct live; [|destruct (negb (scale =? 0) && negb (scale =? old))].
    + exists a, (u ++ y). destruct (nodup_mid _ _ _ H) as (M1 & _ & M3). rewrite remove_mid by exact M1. rewrite <- !app_assoc in *. cbn [app] in *. split; [reflexivity|]. split; [exact M3|]. split; [exact N|reflexivity].
    + exists a, (u ++ w :: y). rewrite set_mid by exact H. rewrite <- !app_assoc in *. cbn [app] in *. split; [reflexivity|]. split; [|split; [exact N|reflexivity]].
      change (a ++ c :: u ++ w :: y) with (a ++ (c :: u) ++ w :: y). change (a ++ c :: u ++ d :: y) with (a ++ (c :: u) ++ d :: y) in H. rewrite !keys_app in *. exact H.
    + exists a, (u ++ d :: y). rewrite <- !app_assoc in *. cbn [app] in *. split; [reflexivity|]. split; [exact H|]. split; [exact N|reflexivity].
Qed.
(** The scale is the one asked for, or made 100000 or more by doubling; the duration stays the same time; Duration and TimestampScale come first, everything else keeps its
    order and value.  With --live the duration is removed. *)
Theorem C120_info fuel live forced new l scale l' :
  NoDup (map c_key l) -> ~ In new (map c_key l) -> prepare fuel live forced new l = Ok (scale, l') ->
  exists c rest, source_scale new l c rest /\ scale_of forced (c_int c) scale /\
    let c' := Ichild (c_key c) IScale scale (c_num c) in
    (none IDuration rest -> l' = c' :: rest) /\
    forall d others, first_of IDuration rest d others ->
      (live = true -> none IDuration others -> l' = c' :: others) /\
      (live = false -> exists q, l' = Ichild (c_key d) IDuration (c_int d) q :: c' :: others /\ (q * inject_Z scale == c_num d * inject_Z (c_int c))%Q).
Proof.
  intros H Hn. unfold prepare. destruct (source_ok new l) as (a & b & c & Eg & S & K & N & Hk). rewrite Eg. specialize (Hk H Hn).
  destruct (if forced =? 0 then grow fuel (c_int c) else Ok forced) as [| | |sc] eqn:Es; cbn [bind]; try discriminate. intros E. injection E as -> E. exists c, (a ++ b). split; [exact S|].
  assert (SO : scale_of forced (c_int c) scale).
  { destruct (Z.eqb_spec forced 0) as [->|Nf]; [|injection Es as <-; left; auto]. right. split; [reflexivity|]. destruct (grow_inv _ _ _ Es) as (_ & k & X). exists k. exact X. }
  split; [exact SO|]. cbv zeta. rewrite set_mid in E by exact Hk. set (c' := Ichild (c_key c) IScale scale (c_num c)).
  assert (Ec : with_int scale c = c') by (unfold with_int, c'; rewrite K; reflexivity). rewrite Ec in E.
  assert (Hk' : NoDup (keys (a ++ c' :: b))) by (rewrite keys_app in *; exact Hk). split.
  - intros M. assert (F : find_child IDuration (a ++ c' :: b) = None).
    { apply find_no. intros z Hz. apply in_app_or in Hz. destruct Hz as [Hz|[<-|Hz]]; [apply M, in_or_app; left; exact Hz|discriminate|apply M, in_or_app; right; exact Hz]. }
    unfold set_duration in E. rewrite F in E. rewrite <- E. apply (proj1 (reorder_ok a c' b Hk' eq_refl N)). exact M.
  - intros d others (x & y & Er & -> & Kd & Nd).
    destruct (duration_ok live (c_int c) scale a c' b x d y Hk' eq_refl N Er Kd Nd) as (a' & b' & Ed & Hk2 & N2 & Eo). rewrite Ed in E. destruct (reorder_ok a' c' b' Hk2 eq_refl N2) as [R1 R2]. split.
    + intros -> M. cbn [app] in Eo. rewrite <- Eo. rewrite <- E. apply R1. rewrite Eo. exact M.
    + intros ->. assert (S0 : scale <> 0) by (destruct SO as [[X ->]|[_ (k & _ & _ & X & _)]]; lia).
      destruct (negb (scale =? 0) && negb (scale =? c_int c)) eqn:T.
      * unfold with_num in Eo. rewrite Kd in Eo. eexists. split; [rewrite <- E; apply R2; [exact Eo|reflexivity|exact Nd]|]. assert (Z : ~ (inject_Z scale == 0)%Q) by (intros X; apply S0; unfold Qeq in X; cbn [inject_Z Qnum Qden] in X; lia).
        field. exact Z.
      * exists (c_num d). assert (scale = c_int c) by lia. replace (Ichild (c_key d) IDuration (c_int d) (c_num d)) with d by (symmetry; exact (ichild_eta IDuration d Kd)).
        split; [rewrite <- E; apply R2; [exact Eo|exact Kd|exact Nd]|]. subst scale. reflexivity.
Qed.
Print Assumptions C120_info.
(** The preparation ends when the source has a positive scale or one is asked for. *)
Theorem C120_ends fuel live forced new l c rest :
  source_scale new l c rest -> forced <> 0 \/ 0 < c_int c -> (18 <= fuel)%nat -> exists r, prepare fuel live forced new l = Ok r.
Proof.
  intros S P F. unfold prepare. destruct (source_ok new l) as (a & b & c0 & Eg & S0 & K & N & _). rewrite Eg.
  assert (X : c0 = c).
  { destruct S as [(x & y & -> & _ & Kc & Nc)|(M & -> & _)], S0 as [(x0 & y0 & E0 & _ & K0 & N0)|(M0 & -> & _)].
    - destruct (first_unique IScale _ _ _ _ _ _ E0 Kc K0 Nc N0) as (_ & -> & _). reflexivity.
    - elim (M0 c); [apply in_or_app; right; left; reflexivity|exact Kc].
    - elim (M c0); [rewrite E0; apply in_or_app; right; left; reflexivity|exact K0].
    - reflexivity. }
  subst c0. destruct (Z.eqb_spec forced 0) as [->|Nf]; [|eexists; reflexivity]. destruct P as [P|P]; [congruence|].
  destruct fuel as [|n]; [lia|]. assert (B : 100000 <= c_int c * 2 ^ Z.of_nat n).
  { assert (2 ^ 17 <= 2 ^ Z.of_nat n) by (apply Z.pow_le_mono_r; lia). change (2 ^ 17) with 131072 in *. nia. }
  destruct (grow_ok n (c_int c) P B) as (k & _ & -> & _). eexists. reflexivity.
Qed.
Print Assumptions C120_ends.
(** The date is the present one, or fixed for --regression, when the file is written anew or had none, and the old one otherwise. *)
Theorem C120_date regr remux now new l :
  NoDup (map c_key l) ->
  (none IDate l -> set_date regr remux now new l = l ++ [Ichild new IDate (if regr then 1 else now) 0%Q]) /\
  (forall a d b, l = a ++ d :: b -> c_kind d = IDate -> none IDate a ->
     set_date regr remux now new l = if regr || remux then a ++ Ichild (c_key d) IDate (if regr then 1 else now) (c_num d) :: b else l).
Proof.
  intros H. unfold set_date. split.
  - intros N. rewrite find_no by exact N. reflexivity.
  - intros a d b -> K N. rewrite (find_is IDate a d b K N). destruct (regr || remux); [|reflexivity]. rewrite set_mid by exact H. unfold with_int. rewrite K. reflexivity.
Qed.
Print Assumptions C120_date.
Definition ic k t v q := Ichild k t v q.
Example C120_ex :
  prepare 18 false 0 99 [ic 1 IOther 5 0%Q; ic 2 IScale 1000 0%Q; ic 3 IDate 7 0%Q; ic 4 IDuration 0 (inject_Z 256)] =
    Ok (128000, [Ichild 4 IDuration 0 (256000 # 128000)%Q; ic 2 IScale 128000 0%Q; ic 1 IOther 5 0%Q; ic 3 IDate 7 0%Q]) /\
  prepare 18 true 0 99 [ic 1 IOther 5 0%Q; ic 4 IDuration 0 (inject_Z 256)] = Ok (1000000, [ic 99 IScale 1000000 0%Q; ic 1 IOther 5 0%Q]) /\
  NoDup (map c_key [ic 1 IOther 5 0%Q; ic 2 IScale 1000 0%Q; ic 3 IDate 7 0%Q; ic 4 IDuration 0 (inject_Z 256)]) /\
  set_date false true 50 9 [ic 1 IDate 7 0%Q; ic 2 IOther 1 0%Q] = [ic 1 IDate 50 0%Q; ic 2 IOther 1 0%Q].
Proof. split; [vm_compute; reflexivity|]. split; [vm_compute; reflexivity|]. split; [|vm_compute; reflexivity]. repeat (constructor; [cbn [In map ic c_key]; lia|]). constructor. Qed.
(** Finding: with a TimestampScale of 0 in the source mkclean never ends, and with a negative one (2^63 and more) its shift is undefined. *)
Theorem C120_zero_refuted fuel live new a c b :
  c_kind c = IScale -> (forall x, In x a -> c_kind x <> IScale) ->
  (c_int c = 0 -> prepare fuel live 0 new (a ++ c :: b) = Fuel) /\ (c_int c < 0 -> (0 < fuel)%nat -> prepare fuel live 0 new (a ++ c :: b) = Bad).
Proof.
  intros K N. unfold prepare, get_scale. rewrite (find_is IScale a c b K N). change (0 =? 0) with true. cbn iota. split.
  - intros ->. rewrite grow_zero. reflexivity.
  - intros L F. destruct fuel as [|fuel]; [lia|]. cbn [grow]. replace (c_int c <? 100000) with true by lia. replace (c_int c <? 0) with true by lia. reflexivity.
Qed.
Print Assumptions C120_zero_refuted.
Example C120_zero_ex : forall fuel, prepare fuel false 0 9 [ic 1 IScale 0 0%Q] = Fuel.
Proof. intros fuel. apply (proj1 (C120_zero_refuted fuel false 9 [] (ic 1 IScale 0 0%Q) [] eq_refl ltac:(intros x []))). reflexivity. Qed.
