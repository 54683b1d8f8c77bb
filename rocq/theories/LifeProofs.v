(** Proofs about Life.v: the invariant of reference counts and the cascade of a release. *)
From Verif Require Import Base Tree Life LifeSpec.

Definition memb (a : Z) (D : list Z) : bool := existsb (Z.eqb a) D.
Lemma memb_in a D : memb a D = true <-> In a D.
Proof.
  unfold memb. rewrite existsb_exists. split.
  - intros (x & Hx & E). apply Z.eqb_eq in E. subst. exact Hx.
  - intros Hx. exists a. split; [exact Hx | apply Z.eqb_refl].
Qed.
Lemma memb_nin a D : ~ In a D -> memb a D = false.
Proof. intros H. destruct (memb a D) eqn:E; [ | reflexivity]. exfalso. apply H, memb_in, E. Qed.

Inductive anch (D : list Z) (H : handles) (h : heap) : Z -> Prop :=
| anc_handle a : 0 < H a -> anch D H h a
| anc_up a : ~ In a D -> par_of h a <> 0 -> anch D H h (par_of h a) -> anch D H h a.

Definition held (D : list Z) (h : heap) (a : Z) : Z := if memb a D then 0 else if par_of h a =? 0 then 0 else 1.
Record Inv (ds D : list Z) (H K : handles) (h : heap) : Prop := {
  iv0 : h 0 = None;
  ivd : forall a, h a <> None -> In a ds;
  ivH : forall a, 0 <= H a <= K a;
  ivK : forall a, 0 < K a -> h a <> None;
  ivR : forall a v, In v (refs_of h a) -> v <> 0 -> h v <> None;
  ivP : forall a, par_of h a <> 0 -> In a (kids_of h (par_of h a));
  ivC : forall a c, In c (kids_of h a) -> h c <> None /\ par_of h c = a;
  ivN : forall a, NoDup (kids_of h a);
  ivrc : forall a, h a <> None -> rc_of h a = K a + held D h a + referred h ds a;
  ivD : forall d, In d D -> h d <> None /\ rc_of h d = 0;
  ivL : forall a, h a <> None -> ~ In a D -> 1 <= rc_of h a;
  ivA : forall d, In d D -> par_of h d <> 0 -> anch D H h (par_of h d) }.

(** Observers. *)
Lemma live_par h a : par_of h a <> 0 -> h a <> None.
Proof. unfold par_of. destruct (h a); congruence. Qed.
Lemma live_kids h a c : In c (kids_of h a) -> h a <> None.
Proof. unfold kids_of. destruct (h a); [congruence | intros []]. Qed.
Lemma live_refs h a c : In c (refs_of h a) -> h a <> None.
Proof. unfold refs_of. destruct (h a); [congruence | intros []]. Qed.
Lemma some_live (h : heap) a x : h a = Some x -> h a <> None. Proof. congruence. Qed.

Lemma occ_nonneg a l : 0 <= occ a l.
Proof. induction l as [ | x l IH]; simpl; [lia | destruct (x =? a); lia]. Qed.
Lemma occ_in a l : In a l -> 1 <= occ a l.
Proof.
  induction l as [ | x l IH]; simpl; [intros [] | ]. intros [<- | Hi].
  - rewrite Z.eqb_refl. pose proof (occ_nonneg x l). lia.
  - specialize (IH Hi). destruct (x =? a); lia.
Qed.
Lemma occ_nin a l : ~ In a l -> occ a l = 0.
Proof.
  induction l as [ | x l IH]; simpl; [reflexivity | ]. intros Hn.
  destruct (Z.eqb_spec x a) as [E | E]; [exfalso; tauto | ]. rewrite IH; tauto.
Qed.
Lemma occ_set a v k l : (k < length l)%nat ->
  occ a (set_nth k v l) = occ a l - (if nth k l 0 =? a then 1 else 0) + (if v =? a then 1 else 0).
Proof.
  revert k. induction l as [ | x l IH]; intros [ | k] Hk; simpl in *; try lia.
  rewrite IH by lia. lia.
Qed.
Lemma set_nth_length k v l : length (set_nth k v l) = length l.
Proof. revert k. induction l as [ | x l IH]; intros [ | k]; simpl; auto. Qed.
Lemma in_set_nth x k v l : In x (set_nth k v l) -> x = v \/ In x l.
Proof.
  revert k. induction l as [ | y l IH]; intros [ | k]; simpl; try tauto.
  - intros [E | Hi]; [left; congruence | tauto].
  - intros [E | Hi]; [tauto | ]. destruct (IH k Hi); tauto.
Qed.
Lemma nth_set_nth k v l j : nth j (set_nth k v l) 0 = if ((j =? k) && (j <? length l))%nat then v else nth j l 0.
Proof.
  revert k j. induction l as [ | y l IH]; intros k j.
  - simpl. rewrite andb_false_r. destruct k; reflexivity.
  - destruct k as [ | k], j as [ | j]; simpl; try reflexivity. rewrite IH. reflexivity.
Qed.
Lemma in_remove_one c l x : In x (remove_one c l) -> In x l.
Proof.
  induction l as [ | y l IH]; simpl; [tauto | ]. destruct (y =? c); [tauto | ]. simpl. intros [E | Hi]; [tauto | right; auto].
Qed.
Lemma remove_one_in c l x : In x l -> x <> c -> In x (remove_one c l).
Proof.
  induction l as [ | y l IH]; simpl; [tauto | ]. intros [-> | Hi] Hx.
  - destruct (Z.eqb_spec x c); [congruence | left; reflexivity].
  - destruct (Z.eqb_spec y c); [exact Hi | right; auto].
Qed.
Lemma remove_one_nin c l : ~ In c l -> remove_one c l = l.
Proof.
  induction l as [ | y l IH]; simpl; [reflexivity | ]. intros Hn. destruct (Z.eqb_spec y c) as [E | E]; [exfalso; tauto | ].
  rewrite IH; tauto.
Qed.
Lemma remove_one_nodup c l : NoDup l -> NoDup (remove_one c l) /\ ~ In c (remove_one c l).
Proof.
  induction 1 as [ | y l Hy Hl IH]; simpl; [split; [constructor | tauto] | ].
  destruct (Z.eqb_spec y c) as [E | E]; [subst; tauto | ]. destruct IH as (I1 & I2). split.
  - constructor; [ | exact I1]. intros Hi. apply Hy, (in_remove_one c), Hi.
  - simpl. tauto.
Qed.
Lemma insert_in c b l x : In x (insert_before c b l) <-> x = c \/ In x l.
Proof.
  induction l as [ | y l IH]; simpl; [intuition congruence | ].
  destruct (y =? b); simpl; [intuition congruence | ]. rewrite IH. intuition congruence.
Qed.
Lemma insert_nodup c b l : NoDup l -> ~ In c l -> NoDup (insert_before c b l).
Proof.
  induction 1 as [ | y l Hy Hl IH]; simpl; intros Hc; [repeat constructor; simpl; tauto | ].
  destruct (y =? b).
  - constructor; [simpl; tauto | constructor; assumption].
  - constructor; [ | apply IH; tauto]. rewrite insert_in. intros [-> | Hi]; tauto.
Qed.

Lemma referred_ext h h' ds v : (forall a, In a ds -> refs_of h' a = refs_of h a) -> referred h' ds v = referred h ds v.
Proof.
  induction ds as [ | d ds IH]; intros E; simpl; [reflexivity | ].
  rewrite (E d (or_introl eq_refl)), IH; [reflexivity | ]. intros a Ha. apply E. right. exact Ha.
Qed.
Lemma referred_upd h h' ds v o : NoDup ds -> In o ds -> (forall a, a <> o -> refs_of h' a = refs_of h a) ->
  referred h' ds v = referred h ds v - occ v (refs_of h o) + occ v (refs_of h' o).
Proof.
  intros Hn. induction Hn as [ | d ds Hd Hn IH]; intros Ho E; [destruct Ho | ]. simpl.
  destruct Ho as [-> | Ho].
  - rewrite (referred_ext h h'); [lia | ]. intros a Ha. apply E. intros ->. tauto.
  - rewrite IH by assumption. rewrite (E d); [lia | ]. intros ->. tauto.
Qed.
Lemma referred_nonneg h ds v : 0 <= referred h ds v.
Proof. induction ds as [ | d ds IH]; simpl; [lia | pose proof (occ_nonneg v (refs_of h d)); lia]. Qed.
Lemma referred_in h ds v a : In a ds -> In v (refs_of h a) -> 1 <= referred h ds v.
Proof.
  induction ds as [ | d ds IH]; simpl; [intros [] | ]. intros [-> | Hi] Hv.
  - pose proof (occ_in _ _ Hv). pose proof (referred_nonneg h ds v). lia.
  - pose proof (occ_nonneg v (refs_of h d)). specialize (IH Hi Hv). lia.
Qed.
Lemma referred_none h ds v : (forall a, ~ In v (refs_of h a)) -> referred h ds v = 0.
Proof. intros Hn. induction ds as [ | d ds IH]; simpl; [reflexivity | ]. rewrite IH, occ_nin; auto. Qed.

(** Nodes with a count. *)
Fixpoint alive_n (ds : list Z) (h : heap) : nat :=
  match ds with [] => O | d :: ds => ((if (0 <? rc_of h d)%Z then 1 else 0) + alive_n ds h)%nat end.
Lemma alive_le ds h : (alive_n ds h <= length ds)%nat.
Proof. induction ds as [ | d ds IH]; simpl; [lia | destruct (0 <? rc_of h d); lia]. Qed.
Lemma alive_mono ds h h' : (forall a, 0 < rc_of h' a -> 0 < rc_of h a) -> (alive_n ds h' <= alive_n ds h)%nat.
Proof.
  intros E. induction ds as [ | d ds IH]; simpl; [lia | ].
  pose proof (E d). destruct (Z.ltb_spec 0 (rc_of h' d)), (Z.ltb_spec 0 (rc_of h d)); lia.
Qed.
Lemma alive_dec ds h h' o : In o ds -> 0 < rc_of h o -> rc_of h' o = 0 -> (forall a, 0 < rc_of h' a -> 0 < rc_of h a) ->
  (alive_n ds h' < alive_n ds h)%nat.
Proof.
  intros Ho H1 H2 E. induction ds as [ | d ds IH]; [destruct Ho | ]. simpl.
  pose proof (E d). pose proof (alive_mono ds h h' E).
  destruct (Z.eq_dec d o) as [-> | Hd].
  - rewrite H2. destruct (Z.ltb_spec 0 (rc_of h o)); [ | lia]. simpl. lia.
  - destruct Ho as [-> | Ho]; [congruence | ]. specialize (IH Ho).
    destruct (Z.ltb_spec 0 (rc_of h' d)), (Z.ltb_spec 0 (rc_of h d)); lia.
Qed.

(** What a part of a cascade leaves alone; [o] is the node being destroyed, 0 when none. *)
Definition frame (D : list Z) (o : Z) (h h' : heap) : Prop :=
  (forall a, h' a <> None -> h a <> None) /\
  (forall d, In d D -> d <> o -> h' d = h d) /\
  (forall a, rc_of h' a <= rc_of h a) /\
  (forall a, a <> o -> h' a <> None ->
     refs_of h' a = refs_of h a /\ kids_of h' a = kids_of h a /\
     (par_of h' a = par_of h a \/ (par_of h' a = 0 /\ (h' (par_of h a) = None \/ par_of h a = o)))).
Lemma frame_refl D o h : frame D o h h.
Proof. unfold frame. repeat split; auto. intros a. lia. Qed.
Lemma frame_trans D o h1 h2 h3 : frame D o h1 h2 -> frame D o h2 h3 -> frame D o h1 h3.
Proof.
  intros (A1 & A2 & A3 & A4) (B1 & B2 & B3 & B4). unfold frame. repeat apply conj.
  - auto.
  - intros d Hd Ho. rewrite (B2 d Hd Ho). auto.
  - intros a. specialize (A3 a). specialize (B3 a). lia.
  - intros a Ha Hl. destruct (B4 a Ha Hl) as (E1 & E2 & E3). destruct (A4 a Ha (B1 _ Hl)) as (F1 & F2 & F3).
    rewrite E1, E2. split; [exact F1 | split; [exact F2 | ]].
    assert (Hn : forall b, h2 b = None -> h3 b = None).
    { intros b Hb. destruct (h3 b) eqn:E; [ | reflexivity]. exfalso. apply (B1 b); congruence. }
    destruct F3 as [F3 | (F3 & F4)].
    + rewrite F3 in E3. exact E3.
    + right. split.
      * destruct E3 as [-> | (-> & _)]; [exact F3 | reflexivity].
      * destruct F4 as [F4 | F4]; [left; auto | right; exact F4].
Qed.
Lemma frame_weaken D o h h' : frame (o :: D) 0 h h' -> h 0 = None -> frame D o h h' /\ (o <> 0 -> h' o = h o).
Proof.
  intros (A1 & A2 & A3 & A4) H0. assert (E0 : h' 0 = None).
  { destruct (h' 0) eqn:E; [ | reflexivity]. exfalso. apply (A1 0); congruence. }
  split.
  - repeat apply conj; auto.
    + intros d Hd Ho. destruct (Z.eq_dec d 0) as [-> | Hn]; [congruence | ]. apply A2; [right; exact Hd | exact Hn].
    + intros a Ha Hl. destruct (Z.eq_dec a 0) as [-> | Hn]; [exfalso; congruence | ].
      destruct (A4 a Hn Hl) as (E1 & E2 & E3). split; [exact E1 | split; [exact E2 | ]].
      destruct E3 as [E3 | (E3 & [E4 | E4])]; [left; exact E3 | right; auto | left; congruence].
  - intros Ho. apply A2; [left; reflexivity | exact Ho].
Qed.

Lemma anch_not_dying ds D H K h d : Inv ds D H K h -> In d D -> ~ anch D H h d.
Proof.
  intros I Hd Ha. destruct (ivD _ _ _ _ _ I d Hd) as (Hl & Hr).
  pose proof (ivrc _ _ _ _ _ I d Hl) as Hc. pose proof (ivH _ _ _ _ _ I d). pose proof (referred_nonneg h ds d).
  unfold held in Hc. rewrite (proj2 (memb_in d D) Hd) in Hc.
  inversion Ha; subst; [lia | tauto].
Qed.
Lemma kid_not_dying ds D H K h o c : Inv ds D H K h -> In o D -> In c (kids_of h o) -> ~ In c D.
Proof.
  intros I Ho Hc Hd. destruct (ivC _ _ _ _ _ I o c Hc) as (Hl & Hp).
  assert (Hn : par_of h c <> 0).
  { rewrite Hp. intros E. apply live_kids in Hc. rewrite E in Hc. apply Hc. exact (iv0 _ _ _ _ _ I). }
  pose proof (ivA _ _ _ _ _ I c Hd Hn) as A. rewrite Hp in A. exact (anch_not_dying _ _ _ _ _ _ I Ho A).
Qed.

(** Detached. *)
Lemma set_parent_null ds D H K h c : Inv ds D H K h -> h c <> None ->
  exists h', set_parent h c 0 0 = Ok h' /\
    (forall a, h' a <> None <-> h a <> None) /\ (forall a, rc_of h' a = rc_of h a) /\ (forall a, refs_of h' a = refs_of h a) /\
    (forall a, par_of h' a = if a =? c then 0 else par_of h a) /\
    (forall a, kids_of h' a = remove_one c (kids_of h a)) /\
    (forall a, a <> c -> ~ In c (kids_of h a) -> h' a = h a).
Proof.
  intros I Hc. unfold set_parent.
  assert (C0 : (c =? 0) = false).
  { apply Z.eqb_neq. intros ->. apply Hc. exact (iv0 _ _ _ _ _ I). }
  rewrite C0. unfold at_. destruct (h c) as [y | ] eqn:Ey; [ | congruence]. cbn [bind].
  assert (Hout : forall a, a <> par_of h c -> ~ In c (kids_of h a)).
  { intros a Ha Hi. apply Ha. symmetry. apply (ivC _ _ _ _ _ I a c Hi). }
  destruct (Z.eqb_spec (o_par y) 0) as [E | E]; cbn [bind].
  - rewrite Z.eqb_refl. exists h. split; [reflexivity | ]. repeat apply conj; auto.
    + intros a. reflexivity.
    + intros a. destruct (Z.eqb_spec a c); [ | reflexivity]. subst a. unfold par_of. rewrite Ey. exact E.
    + intros a. symmetry. apply remove_one_nin. intros Hi. destruct (ivC _ _ _ _ _ I a c Hi) as (_ & Hp).
      unfold par_of in Hp. rewrite Ey, E in Hp. subst a. apply live_kids in Hi. apply Hi. exact (iv0 _ _ _ _ _ I).
  - rewrite Z.eqb_refl.
    assert (Hp : par_of h c = o_par y) by (unfold par_of; rewrite Ey; reflexivity).
    assert (Hk : In c (kids_of h (o_par y))) by (rewrite <- Hp; apply (ivP _ _ _ _ _ I); rewrite Hp; exact E).
    rewrite Hp in Hout.
    unfold remove_child, at_. destruct (h (o_par y)) as [x | ] eqn:Ex; [ | exfalso; apply (live_kids _ _ _ Hk); exact Ex]. cbn [bind].
    set (h1 := upd h (o_par y) _).
    assert (E1 : exists y1, h1 c = Some y1 /\ o_rc y1 = o_rc y /\ o_refs y1 = o_refs y /\
       o_kids y1 = (if c =? o_par y then remove_one c (o_kids x) else o_kids y)).
    { unfold h1, upd. destruct (Z.eqb_spec c (o_par y)) as [Ec | Ec].
      - eexists. split; [reflexivity | ]. rewrite <- Ec, Ey in Ex. injection Ex as <-. repeat split; reflexivity.
      - exists y. split; [exact Ey | ]. repeat split; reflexivity. }
    destruct E1 as (y1 & E1 & F1 & F2 & F3). rewrite E1. cbn [bind]. eexists. split; [reflexivity | ].
    assert (P : forall a, upd h1 c (Some (set_par y1 0)) a = if a =? c then Some (set_par y1 0) else
                          if a =? o_par y then Some (set_kids x (remove_one c (o_kids x))) else h a) by reflexivity.
    repeat apply conj.
    + intros a. rewrite P. destruct (Z.eqb_spec a c) as [-> | Ha]; [split; intros; congruence | ].
      destruct (Z.eqb_spec a (o_par y)) as [-> | Hb]; [split; intros; congruence | reflexivity].
    + intros a. unfold rc_of. rewrite P. destruct (Z.eqb_spec a c) as [-> | Ha]; [rewrite Ey; exact F1 | ].
      destruct (Z.eqb_spec a (o_par y)) as [-> | Hb]; [rewrite Ex; reflexivity | reflexivity].
    + intros a. unfold refs_of. rewrite P. destruct (Z.eqb_spec a c) as [-> | Ha]; [rewrite Ey; exact F2 | ].
      destruct (Z.eqb_spec a (o_par y)) as [-> | Hb]; [rewrite Ex; reflexivity | reflexivity].
    + intros a. unfold par_of. rewrite P. destruct (Z.eqb_spec a c) as [-> | Ha]; [reflexivity | ].
      destruct (Z.eqb_spec a (o_par y)) as [-> | Hb]; [rewrite Ex; reflexivity | reflexivity].
    + intros a. destruct (Z.eq_dec a (o_par y)) as [Ea | Ea].
      * subst a. unfold kids_of. rewrite P, Ex, Z.eqb_refl.
        destruct (Z.eqb_spec (o_par y) c) as [Ec | Ec]; [ | reflexivity].
        cbn [set_par o_kids]. rewrite F3. destruct (Z.eqb_spec c (o_par y)); [reflexivity | congruence].
      * rewrite (remove_one_nin _ _ (Hout a Ea)). unfold kids_of. rewrite P.
        destruct (Z.eqb_spec a c) as [-> | Ha].
        -- rewrite Ey. cbn [set_par o_kids]. rewrite F3. destruct (Z.eqb_spec c (o_par y)); [congruence | reflexivity].
        -- destruct (Z.eqb_spec a (o_par y)); [congruence | reflexivity].
    + intros a Ha Hn. rewrite P. destruct (Z.eqb_spec a c); [congruence | ].
      destruct (Z.eqb_spec a (o_par y)) as [-> | Hb]; [tauto | reflexivity].
Qed.

Lemma plus_same H a k : plus H a k a = H a + k. Proof. unfold plus. rewrite Z.eqb_refl. reflexivity. Qed.
Lemma plus_other H a k b : b <> a -> plus H a k b = H b.
Proof. intros E. unfold plus. destruct (Z.eqb_spec b a); [congruence | reflexivity]. Qed.
Lemma held_range D h a : 0 <= held D h a <= 1.
Proof. unfold held. destruct (memb a D); [lia | ]. destruct (par_of h a =? 0); lia. Qed.
Lemma Inv_K ds D H K K' h : (forall a, K a = K' a) -> Inv ds D H K h -> Inv ds D H K' h.
Proof.
  intros E I. destruct I. constructor; auto.
  - intros a. rewrite <- E. auto.
  - intros a. rewrite <- E. auto.
  - intros a. rewrite <- E. auto.
Qed.
Lemma Inv_H ds H H' K h : (forall a, 0 <= H' a <= K a) -> Inv ds [] H K h -> Inv ds [] H' K h.
Proof. intros E I. destruct I. constructor; auto. intros d []. Qed.

Lemma detach_inv ds D H K h c : Inv ds D H K h -> h c <> None ->
  In c D \/ D = [] \/ ~ anch D H h (par_of h c) ->
  exists h', set_parent h c 0 0 = Ok h' /\ Inv ds D H (plus K c (held D h c)) h' /\
    (forall a, h' a <> None <-> h a <> None) /\ (forall a, rc_of h' a = rc_of h a) /\ (forall a, refs_of h' a = refs_of h a) /\
    (forall a, par_of h' a = if a =? c then 0 else par_of h a) /\
    (forall a, kids_of h' a = remove_one c (kids_of h a)) /\
    (forall a, a <> c -> ~ In c (kids_of h a) -> h' a = h a).
Proof.
  intros I Hc Hd. destruct (set_parent_null _ _ _ _ _ c I Hc) as (h' & E & L & RC & RF & PA & KD & SM).
  exists h'. split; [exact E | ]. split; [ | auto 10].
  pose proof (held_range D h c) as HR.
  assert (AN : forall a, D = [] \/ (anch D H h a -> anch D H h' a)).
  { intros a. destruct Hd as [Hd | [Hd | Hd]]; [right | left; exact Hd | right];
      (induction 1 as [a Ha | a Hn Hp Ha IH]; [apply anc_handle; exact Ha | ]);
      (apply anc_up; [exact Hn | rewrite PA | rewrite PA]);
      (destruct (Z.eqb_spec a c) as [-> | Hac]; [exfalso; tauto | assumption]). }
  constructor.
  - destruct (h' 0) eqn:E0; [ | reflexivity]. exfalso. apply (proj1 (L 0)); [congruence | exact (iv0 _ _ _ _ _ I)].
  - intros a Ha. apply (ivd _ _ _ _ _ I), L, Ha.
  - intros a. pose proof (ivH _ _ _ _ _ I a). unfold plus. destruct (a =? c); lia.
  - intros a Ha. apply L. destruct (Z.eq_dec a c) as [-> | Hac]; [exact Hc | ].
    rewrite plus_other in Ha by exact Hac. apply (ivK _ _ _ _ _ I), Ha.
  - intros a v. rewrite RF. intros Hv Hn. apply L. apply (ivR _ _ _ _ _ I a v); assumption.
  - intros a. rewrite PA. destruct (Z.eqb_spec a c) as [-> | Hac]; [congruence | ]. intros Hp. rewrite KD.
    apply remove_one_in; [ | exact Hac]. apply (ivP _ _ _ _ _ I), Hp.
  - intros a b. rewrite KD. intros Hb. pose proof (in_remove_one _ _ _ Hb) as Hb'.
    destruct (ivC _ _ _ _ _ I a b Hb') as (C1 & C2). split; [apply L; exact C1 | ]. rewrite PA.
    destruct (Z.eqb_spec b c) as [-> | Hbc]; [ | exact C2].
    exfalso. apply (proj2 (remove_one_nodup c _ (ivN _ _ _ _ _ I a))). exact Hb.
  - intros a. rewrite KD. apply remove_one_nodup, (ivN _ _ _ _ _ I).
  - intros a Ha. rewrite RC, (ivrc _ _ _ _ _ I a (proj1 (L a) Ha)).
    rewrite (referred_ext h h') by (intros; apply RF).
    unfold held, plus. rewrite PA. destruct (Z.eqb_spec a c) as [-> | Hac]; [ | reflexivity].
    simpl. destruct (memb c D); destruct (par_of h c =? 0); lia.
  - intros d Hdd. rewrite RC. destruct (ivD _ _ _ _ _ I d Hdd) as (D1 & D2). split; [apply L; exact D1 | exact D2].
  - intros a Ha Hn. rewrite RC. apply (ivL _ _ _ _ _ I); [apply L; exact Ha | exact Hn].
  - intros d Hdd. rewrite PA. destruct (Z.eqb_spec d c) as [-> | Hdc]; [congruence | ]. intros Hp.
    destruct (AN (par_of h d)) as [AE | AE]; [subst D; destruct Hdd | ]. apply AE, (ivA _ _ _ _ _ I); assumption.
Qed.

(** The count taken off. *)
Lemma upd_same h o x : upd h o x o = x. Proof. unfold upd. rewrite Z.eqb_refl. reflexivity. Qed.
Lemma upd_other h o x a : a <> o -> upd h o x a = h a.
Proof. intros E. unfold upd. destruct (Z.eqb_spec a o); [congruence | reflexivity]. Qed.
Lemma upd_live h o x a : h o <> None -> (upd h o (Some x) a <> None <-> h a <> None).
Proof. intros Ho. unfold upd. destruct (Z.eqb_spec a o) as [-> | E]; [split; congruence | reflexivity]. Qed.
Lemma rc_obs h o x v : h o = Some x ->
  let h' := upd h o (Some (set_rc x v)) in
  (forall a, h' a <> None <-> h a <> None) /\ (forall a, rc_of h' a = if a =? o then v else rc_of h a) /\
  (forall a, refs_of h' a = refs_of h a) /\ (forall a, par_of h' a = par_of h a) /\ (forall a, kids_of h' a = kids_of h a).
Proof.
  intros E h'. subst h'. repeat apply conj; intros a.
  - apply upd_live. congruence.
  - unfold rc_of, upd. destruct (Z.eqb_spec a o) as [-> | ]; reflexivity.
  - unfold refs_of, upd. destruct (Z.eqb_spec a o) as [-> | ]; [rewrite E; reflexivity | reflexivity].
  - unfold par_of, upd. destruct (Z.eqb_spec a o) as [-> | ]; [rewrite E; reflexivity | reflexivity].
  - unfold kids_of, upd. destruct (Z.eqb_spec a o) as [-> | ]; [rewrite E; reflexivity | reflexivity].
Qed.
Lemma anch_ext D H h h' a : (forall b, par_of h' b = par_of h b) -> anch D H h a -> anch D H h' a.
Proof.
  intros E. induction 1 as [a Ha | a Hn Hp Ha IH]; [apply anc_handle; exact Ha | ].
  apply anc_up; [exact Hn | rewrite E; exact Hp | rewrite E; exact IH].
Qed.
(** One count more or less, the node not dying. *)
Lemma rc_inv ds D H K h o x k : Inv ds D H K h -> h o = Some x -> ~ In o D -> H o <= K o + k -> 1 <= o_rc x + k ->
  Inv ds D H (plus K o k) (upd h o (Some (set_rc x (o_rc x + k)))).
Proof.
  intros I E Hn HK Hr. destruct (rc_obs h o x (o_rc x + k) E) as (L & RC & RF & PA & KD). set (h' := upd _ _ _) in *.
  assert (RX : rc_of h o = o_rc x) by (unfold rc_of; rewrite E; reflexivity).
  constructor.
  - destruct (h' 0) eqn:E0; [ | reflexivity]. exfalso. apply (proj1 (L 0)); [congruence | exact (iv0 _ _ _ _ _ I)].
  - intros a Ha. apply (ivd _ _ _ _ _ I), L, Ha.
  - intros a. pose proof (ivH _ _ _ _ _ I a). unfold plus. destruct (Z.eqb_spec a o) as [-> | ]; lia.
  - intros a Ha. apply L. destruct (Z.eq_dec a o) as [-> | Hac]; [congruence | ].
    rewrite plus_other in Ha by exact Hac. apply (ivK _ _ _ _ _ I), Ha.
  - intros a v. rewrite RF. intros Hv Hz. apply L. apply (ivR _ _ _ _ _ I a v); assumption.
  - intros a. rewrite PA, KD. apply (ivP _ _ _ _ _ I).
  - intros a b. rewrite KD, PA. intros Hb. destruct (ivC _ _ _ _ _ I a b Hb) as (C1 & C2). split; [apply L; exact C1 | exact C2].
  - intros a. rewrite KD. apply (ivN _ _ _ _ _ I).
  - intros a Ha. rewrite RC. rewrite (referred_ext h h') by (intros; apply RF).
    pose proof (ivrc _ _ _ _ _ I a (proj1 (L a) Ha)) as C. unfold held, plus in *. rewrite PA.
    destruct (Z.eqb_spec a o) as [-> | ]; lia.
  - intros d Hdd. destruct (ivD _ _ _ _ _ I d Hdd) as (D1 & D2). split; [apply L; exact D1 | ]. rewrite RC.
    destruct (Z.eqb_spec d o) as [-> | ]; [tauto | exact D2].
  - intros a Ha Hd. rewrite RC. pose proof (ivL _ _ _ _ _ I a (proj1 (L a) Ha) Hd). destruct (Z.eqb_spec a o); lia.
  - intros d Hdd. rewrite PA. intros Hp. apply (anch_ext D H h); [exact PA | ]. apply (ivA _ _ _ _ _ I); assumption.
Qed.
(** The last count taken off. *)
Lemma last_inv ds D H K h o x : Inv ds D H K h -> h o = Some x -> ~ In o D -> o_rc x = 1 -> K o + held D h o = 1 ->
  (par_of h o <> 0 -> anch (o :: D) H h (par_of h o)) -> H o <= 0 ->
  (forall d, In d D -> par_of h d <> 0 -> anch (o :: D) H h (par_of h d)) ->
  Inv ds (o :: D) H (plus K o (held D h o - 1)) (upd h o (Some (set_rc x 0))).
Proof.
  intros I E Hn Hr Hk Ha HH Hds. destruct (rc_obs h o x 0 E) as (L & RC & RF & PA & KD). set (h' := upd _ _ _) in *.
  assert (RX : rc_of h o = 1) by (unfold rc_of; rewrite E; exact Hr).
  assert (MB : memb o D = false) by (apply memb_nin; exact Hn).
  constructor.
  - destruct (h' 0) eqn:E0; [ | reflexivity]. exfalso. apply (proj1 (L 0)); [congruence | exact (iv0 _ _ _ _ _ I)].
  - intros a Hl. apply (ivd _ _ _ _ _ I), L, Hl.
  - intros a. pose proof (ivH _ _ _ _ _ I a). unfold plus. destruct (Z.eqb_spec a o) as [-> | ]; lia.
  - intros a Hl. apply L. destruct (Z.eq_dec a o) as [-> | Hac]; [congruence | ].
    rewrite plus_other in Hl by exact Hac. apply (ivK _ _ _ _ _ I), Hl.
  - intros a v. rewrite RF. intros Hv Hz. apply L. apply (ivR _ _ _ _ _ I a v); assumption.
  - intros a. rewrite PA, KD. apply (ivP _ _ _ _ _ I).
  - intros a b. rewrite KD, PA. intros Hb. destruct (ivC _ _ _ _ _ I a b Hb) as (C1 & C2). split; [apply L; exact C1 | exact C2].
  - intros a. rewrite KD. apply (ivN _ _ _ _ _ I).
  - intros a Hl. rewrite RC. rewrite (referred_ext h h') by (intros; apply RF).
    pose proof (ivrc _ _ _ _ _ I a (proj1 (L a) Hl)) as C.
    unfold held, plus in *. rewrite PA. unfold memb in *. simpl existsb. destruct (Z.eqb_spec a o) as [-> | Hao]; simpl; [ | lia].
    rewrite MB in *. lia.
  - intros d [<- | Hdd].
    + split; [apply L; congruence | ]. rewrite RC, Z.eqb_refl. reflexivity.
    + destruct (ivD _ _ _ _ _ I d Hdd) as (D1 & D2). split; [apply L; exact D1 | ]. rewrite RC.
      destruct (Z.eqb_spec d o) as [-> | ]; [tauto | exact D2].
  - intros a Hl Hd. rewrite RC. simpl in Hd. pose proof (ivL _ _ _ _ _ I a (proj1 (L a) Hl)) as C.
    destruct (Z.eqb_spec a o) as [-> | ]; [exfalso; tauto | ]. apply C. tauto.
  - intros d Hdd. rewrite PA. intros Hp. apply (anch_ext (o :: D) H h); [exact PA | ].
    destruct Hdd as [<- | Hdd]; auto.
Qed.
(** A reference changed. *)
Lemma ref_obs h o x l : h o = Some x ->
  let h' := upd h o (Some (set_refs x l)) in
  (forall a, h' a <> None <-> h a <> None) /\ (forall a, rc_of h' a = rc_of h a) /\
  (forall a, refs_of h' a = if a =? o then l else refs_of h a) /\ (forall a, par_of h' a = par_of h a) /\ (forall a, kids_of h' a = kids_of h a).
Proof.
  intros E h'. subst h'. repeat apply conj; intros a.
  - apply upd_live. congruence.
  - unfold rc_of, upd. destruct (Z.eqb_spec a o) as [-> | ]; [rewrite E; reflexivity | reflexivity].
  - unfold refs_of, upd. destruct (Z.eqb_spec a o) as [-> | ]; [reflexivity | reflexivity].
  - unfold par_of, upd. destruct (Z.eqb_spec a o) as [-> | ]; [rewrite E; reflexivity | reflexivity].
  - unfold kids_of, upd. destruct (Z.eqb_spec a o) as [-> | ]; [rewrite E; reflexivity | reflexivity].
Qed.
Definition one_if (b : bool) : Z := if b then 1 else 0.
(** [K] holds one count for the value stored (when it is a node); afterwards one for the value there was. *)
Lemma ref_inv ds D H K K' h o x k v : NoDup ds -> Inv ds D H K h -> h o = Some x -> (k < length (o_refs x))%nat ->
  (forall a, 0 <= H a <= K' a) -> (v <> 0 -> h v <> None) ->
  (forall a, a <> 0 -> K' a = K a + one_if (nth k (o_refs x) 0 =? a) - one_if (v =? a)) -> K' 0 = 0 ->
  Inv ds D H K' (upd h o (Some (set_refs x (set_nth k v (o_refs x))))).
Proof.
  intros ND I E Hk HK' Hv EK EK0. destruct (ref_obs h o x (set_nth k v (o_refs x)) E) as (L & RC & RF & PA & KD). set (h' := upd _ _ _) in *.
  assert (RX : refs_of h o = o_refs x) by (unfold refs_of; rewrite E; reflexivity).
  assert (Ho : In o ds) by (apply (ivd _ _ _ _ _ I); congruence).
  constructor.
  - destruct (h' 0) eqn:E0; [ | reflexivity]. exfalso. apply (proj1 (L 0)); [congruence | exact (iv0 _ _ _ _ _ I)].
  - intros a Hl. apply (ivd _ _ _ _ _ I), L, Hl.
  - exact HK'.
  - intros a Hl. apply L. destruct (Z.eq_dec a 0) as [-> | Hz]; [lia | ]. rewrite (EK a Hz) in Hl.
    destruct (Z.eqb_spec (nth k (o_refs x) 0) a) as [En | En].
    + apply (ivR _ _ _ _ _ I o); [ | exact Hz]. rewrite RX, <- En. apply nth_In, Hk.
    + apply (ivK _ _ _ _ _ I). unfold one_if in Hl. destruct (v =? a); lia.
  - intros a u. rewrite RF. intros Hu Hz. apply L. destruct (Z.eqb_spec a o) as [-> | Ha].
    + destruct (in_set_nth _ _ _ _ Hu) as [-> | Hi]; [auto | ]. apply (ivR _ _ _ _ _ I o); [rewrite RX; exact Hi | exact Hz].
    + apply (ivR _ _ _ _ _ I a u); assumption.
  - intros a. rewrite PA, KD. apply (ivP _ _ _ _ _ I).
  - intros a b. rewrite KD, PA. intros Hb. destruct (ivC _ _ _ _ _ I a b Hb) as (C1 & C2). split; [apply L; exact C1 | exact C2].
  - intros a. rewrite KD. apply (ivN _ _ _ _ _ I).
  - intros a Hl. rewrite RC. rewrite (referred_upd h h' ds a o ND Ho).
    2:{ intros b Hb. rewrite RF. destruct (Z.eqb_spec b o); [congruence | reflexivity]. }
    rewrite RF, Z.eqb_refl, RX, occ_set by exact Hk.
    rewrite (ivrc _ _ _ _ _ I a (proj1 (L a) Hl)). unfold held. rewrite PA.
    assert (Hz : a <> 0). { intros ->. apply (proj1 (L 0) Hl). exact (iv0 _ _ _ _ _ I). }
    rewrite (EK a Hz). unfold one_if. lia.
  - intros d Hdd. rewrite RC. destruct (ivD _ _ _ _ _ I d Hdd) as (D1 & D2). split; [apply L; exact D1 | exact D2].
  - intros a Hl Hd. rewrite RC. apply (ivL _ _ _ _ _ I); [apply L; exact Hl | exact Hd].
  - intros d Hdd. rewrite PA. intros Hp. apply (anch_ext D H h); [exact PA | ]. apply (ivA _ _ _ _ _ I); assumption.
Qed.
