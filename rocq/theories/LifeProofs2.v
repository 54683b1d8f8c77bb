(** Proofs about Life.v, continued: a release. *)
From Verif Require Import Base Tree Life LifeSpec LifeProofs.

Ltac spl := repeat match goal with |- _ /\ _ => split end.
Definition relspec (ds : list Z) (H : handles) (rel : heap -> Z -> res heap) (f : nat) : Prop :=
  forall D K h o, (alive_n ds h < f)%nat -> Inv ds D H (plus K o 1) h -> (forall a, 0 <= H a <= K a) ->
    exists h', rel h o = Ok h' /\ Inv ds D H K h' /\ frame D 0 h h'.

Lemma frame_alive D o ds h h' : frame D o h h' -> (alive_n ds h' <= alive_n ds h)%nat.
Proof. intros (_ & _ & F & _). apply alive_mono. intros a Ha. specialize (F a). lia. Qed.
Lemma frame_none D o h h' a : frame D o h h' -> h a = None -> h' a = None.
Proof. intros (F & _) E. destruct (h' a) eqn:E'; [ | reflexivity]. exfalso. apply (F a); congruence. Qed.
Lemma frame_upd D o h x y : h o = Some x -> o_rc y <= o_rc x -> frame D o h (upd h o (Some y)).
Proof.
  intros E Hr. repeat apply conj.
  - intros a. apply upd_live. congruence.
  - intros d _ Hd. apply upd_other, Hd.
  - intros a. unfold rc_of, upd. destruct (Z.eqb_spec a o) as [-> | ]; [rewrite E; exact Hr | lia].
  - intros a Ha _. unfold refs_of, kids_of, par_of. rewrite upd_other by exact Ha. auto.
Qed.
Lemma dying_count ds D H K h o : Inv ds D H K h -> In o D -> K o = 0 /\ referred h ds o = 0.
Proof.
  intros I Ho. destruct (ivD _ _ _ _ _ I o Ho) as (L & R). pose proof (ivrc _ _ _ _ _ I o L) as C.
  unfold held in C. rewrite (proj2 (memb_in o D) Ho) in C. pose proof (ivH _ _ _ _ _ I o). pose proof (referred_nonneg h ds o). lia.
Qed.

Lemma drop_ok ds D H K rel f o : NoDup ds -> relspec ds H rel f ->
  forall n k h x, Inv ds (o :: D) H K h -> h o = Some x -> (k + n = length (o_refs x))%nat -> (alive_n ds h < f)%nat ->
  exists h' x', drop_refs rel o n k h = Ok h' /\ Inv ds (o :: D) H K h' /\ frame D o h h' /\ h' o = Some x' /\
    o_kids x' = o_kids x /\ o_par x' = o_par x /\ length (o_refs x') = length (o_refs x) /\
    (forall j, (j < k)%nat -> nth j (o_refs x') 0 = nth j (o_refs x) 0) /\
    (forall j, (k <= j)%nat -> nth j (o_refs x') 0 = 0).
Proof.
  intros ND R. induction n as [ | n IH]; intros k h x I E Hk Hf.
  - simpl. exists h, x. spl; auto using frame_refl. intros j Hj. apply nth_overflow. lia.
  - cbn [drop_refs]. unfold at_. rewrite E. cbn [bind].
    assert (O0 : o <> 0) by (intros ->; rewrite (iv0 _ _ _ _ _ I) in E; discriminate).
    destruct (Z.eqb_spec (nth k (o_refs x) 0) 0) as [Ez | Ez]; cbn [bind].
    + destruct (IH (S k) h x I E) as (h' & x' & A1 & A2 & A3 & A4 & A5 & A6 & A7 & A8 & A9); [lia | exact Hf | ].
      exists h', x'. spl; auto.
      intros j Hj. destruct (Nat.eq_dec j k) as [-> | Hn]; [rewrite A8 by lia; exact Ez | apply A9; lia].
    + set (v := nth k (o_refs x) 0) in *. set (x1 := set_refs x (set_nth k 0 (o_refs x))).
      assert (I1 : Inv ds (o :: D) H (plus K v 1) (upd h o (Some x1))).
      { apply (ref_inv ds (o :: D) H K); auto; [lia | | | ].
        - intros a. pose proof (ivH _ _ _ _ _ I a). unfold plus. destruct (a =? v); lia.
        - intros a Ha. fold v. unfold plus, one_if. rewrite (Z.eqb_sym v a).
          destruct (a =? v); destruct (Z.eqb_spec 0 a); try congruence; lia.
        - rewrite plus_other by congruence. pose proof (ivK _ _ _ _ _ I 0) as C. pose proof (ivH _ _ _ _ _ I 0).
          destruct (Z.eq_dec (K 0) 0); [assumption | ]. exfalso. apply C; [lia | exact (iv0 _ _ _ _ _ I)]. }
      assert (F1 : frame D o h (upd h o (Some x1))) by (apply (frame_upd D o h x); [exact E | simpl; lia]).
      destruct (R (o :: D) K (upd h o (Some x1)) v) as (h2 & B1 & B2 & B3); [ | exact I1 | exact (ivH _ _ _ _ _ I) | ].
      { pose proof (frame_alive _ _ ds _ _ F1). lia. }
      rewrite B1. cbn [bind].
      destruct (frame_weaken _ _ _ _ B3) as (B4 & B5); [rewrite upd_other by congruence; exact (iv0 _ _ _ _ _ I) | ].
      specialize (B5 O0). rewrite upd_same in B5.
      destruct (IH (S k) h2 x1 B2 B5) as (h' & x' & A1 & A2 & A3 & A4 & A5 & A6 & A7 & A8 & A9).
      { unfold x1. simpl. rewrite set_nth_length. lia. }
      { pose proof (frame_alive _ _ ds _ _ F1). pose proof (frame_alive _ _ ds _ _ B4). lia. }
      exists h', x'. spl; auto.
      * eauto using frame_trans.
      * rewrite A7. simpl. apply set_nth_length.
      * intros j Hj. rewrite A8 by lia. simpl. rewrite nth_set_nth.
        destruct (Nat.eqb_spec j k); [lia | reflexivity].
      * intros j Hj. destruct (Nat.eq_dec j k) as [-> | Hn]; [ | apply A9; lia].
        rewrite A8 by lia. simpl. rewrite nth_set_nth, Nat.eqb_refl.
        destruct (Nat.ltb_spec k (length (o_refs x))); [reflexivity | lia].
Qed.

Lemma clear_ok ds D H K rel f o : NoDup ds -> relspec ds H rel f ->
  forall n h x, Inv ds (o :: D) H K h -> ~ In o D -> h o = Some x -> n = length (o_kids x) -> (alive_n ds h < f)%nat ->
  exists h' x', clear_kids rel o n h = Ok h' /\ Inv ds (o :: D) H K h' /\ frame D o h h' /\ h' o = Some x' /\
    o_kids x' = [] /\ o_par x' = o_par x /\ o_refs x' = o_refs x.
Proof.
  intros ND R. induction n as [ | n IH]; intros h x I Hn E Hk Hf; cbn [clear_kids]; unfold at_; rewrite E; cbn [bind].
  - destruct (o_kids x) eqn:Ek; [ | discriminate]. exists h, x. spl; auto using frame_refl.
  - destruct (o_kids x) as [ | c l] eqn:Ek; [discriminate | ].
    assert (O0 : o <> 0) by (intros ->; rewrite (iv0 _ _ _ _ _ I) in E; discriminate).
    assert (Hkid : In c (kids_of h o)) by (unfold kids_of; rewrite E, Ek; left; reflexivity).
    destruct (ivC _ _ _ _ _ I o c Hkid) as (C1 & C2).
    assert (Cn : ~ In c (o :: D)) by (apply (kid_not_dying _ _ _ _ _ o c I); [left; reflexivity | exact Hkid]).
    destruct (detach_inv _ _ _ _ _ c I C1) as (h1 & A1 & A2 & L & RC & RF & PA & KD & SM).
    { right. right. rewrite C2. apply (anch_not_dying _ _ _ _ _ _ I). left. reflexivity. }
    rewrite A1. cbn [bind].
    assert (HE : held (o :: D) h c = 1).
    { unfold held. rewrite (memb_nin _ _ Cn), C2. destruct (Z.eqb_spec o 0); [congruence | reflexivity]. }
    rewrite HE in A2.
    assert (Hcn : o <> c) by (intros ->; apply Cn; left; reflexivity).
    assert (F1 : frame D o h h1).
    { repeat apply conj.
      - intros a. apply L.
      - intros d Hd Ho. apply SM; [intros ->; apply Cn; right; exact Hd | ].
        intros Hi. destruct (ivC _ _ _ _ _ I d c Hi). congruence.
      - intros a. rewrite RC. lia.
      - intros a Ha Hl. rewrite RF, KD, PA. split; [reflexivity | split].
        + apply remove_one_nin. intros Hi. destruct (ivC _ _ _ _ _ I a c Hi). congruence.
        + destruct (Z.eqb_spec a c) as [-> | ]; [right; auto | left; reflexivity]. }
    destruct (R (o :: D) K h1 c) as (h2 & B1 & B2 & B3); [ | exact A2 | exact (ivH _ _ _ _ _ I) | ].
    { pose proof (frame_alive _ _ ds _ _ F1). lia. }
    rewrite B1. cbn [bind].
    assert (H10 : h1 0 = None) by exact (frame_none _ _ _ _ _ F1 (iv0 _ _ _ _ _ I)).
    destruct (frame_weaken _ _ _ _ B3 H10) as (B4 & B5). specialize (B5 O0).
    destruct (h1 o) as [x1 | ] eqn:E1; [ | exfalso; apply (proj2 (L o)); congruence].
    assert (K1 : o_kids x1 = l).
    { pose proof (KD o) as Q. unfold kids_of in Q. rewrite E1, E, Ek in Q. simpl in Q. rewrite Z.eqb_refl in Q. exact Q. }
    assert (P1 : o_par x1 = o_par x).
    { pose proof (PA o) as Q. unfold par_of in Q. rewrite E1, E in Q. destruct (Z.eqb_spec o c); [congruence | exact Q]. }
    assert (R1 : o_refs x1 = o_refs x).
    { pose proof (RF o) as Q. unfold refs_of in Q. rewrite E1, E in Q. exact Q. }
    destruct (IH h2 x1 B2 Hn B5) as (h' & x' & D1 & D2 & D3 & D4 & D5 & D6 & D7).
    { rewrite K1. simpl in Hk. lia. }
    { pose proof (frame_alive _ _ ds _ _ F1). pose proof (frame_alive _ _ ds _ _ B4). lia. }
    exists h', x'. spl; auto; try congruence. eauto using frame_trans.
Qed.

Definition destroyed (D : list Z) (o : Z) (h h' : heap) : Prop :=
  (forall a, h' a <> None -> h a <> None) /\ h' o = None /\
  (forall d, In d D -> d <> o -> ~ In o (kids_of h d) -> h' d = h d) /\
  (forall a, rc_of h' a <= rc_of h a) /\
  (forall a, h' a <> None -> refs_of h' a = refs_of h a /\ kids_of h' a = remove_one o (kids_of h a) /\
     (par_of h' a = par_of h a \/ (par_of h' a = 0 /\ h' (par_of h a) = None))).

Lemma all_zero l v : (forall j, nth j l 0 = 0) -> In v l -> v = 0.
Proof. intros Hz Hi. destruct (In_nth l v 0 Hi) as (j & _ & <-). apply Hz. Qed.

Lemma destroy_ok ds D H K rel f h o : NoDup ds -> relspec ds H rel f -> Inv ds (o :: D) H K h -> ~ In o D -> (alive_n ds h < f)%nat ->
  exists h', destroy rel h o = Ok h' /\ Inv ds D H K h' /\ destroyed D o h h'.
Proof.
  intros ND R I Hn Hf. destruct (ivD _ _ _ _ _ I o (or_introl eq_refl)) as (Ho & _).
  unfold destroy, at_. destruct (h o) as [x | ] eqn:E; [ | congruence]. cbn [bind].
  assert (O0 : o <> 0) by (intros ->; rewrite (iv0 _ _ _ _ _ I) in E; discriminate).
  destruct (drop_ok ds D H K rel f o ND R (length (o_refs x)) 0 h x I E eq_refl Hf)
    as (h1 & x1 & A1 & A2 & A3 & A4 & A5 & A6 & A7 & A8 & A9).
  rewrite A1. cbn [bind].
  assert (Hf1 : (alive_n ds h1 < f)%nat) by (pose proof (frame_alive _ _ ds _ _ A3); lia).
  destruct (clear_ok ds D H K rel f o ND R (length (o_kids x)) h1 x1 A2 Hn A4 ltac:(congruence) Hf1)
    as (h2 & x2 & B1 & B2 & B3 & B4 & B5 & B6 & B7).
  rewrite B1. cbn [bind].
  pose proof (frame_trans _ _ _ _ _ A3 B3) as F2.
  destruct (detach_inv _ _ _ _ _ o B2) as (h3 & C1 & C2 & L & RC & RF & PA & KD & SM); [congruence | left; left; reflexivity | ].
  rewrite C1. cbn [bind]. eexists. split; [reflexivity | ].
  assert (HE : held (o :: D) h2 o = 0).
  { unfold held. rewrite (proj2 (memb_in o (o :: D)) (or_introl eq_refl)). reflexivity. }
  rewrite HE in C2.
  assert (R2 : forall v, In v (refs_of h3 o) -> v = 0).
  { intros v. rewrite RF. unfold refs_of. rewrite B4, B7. apply all_zero. intros j. apply A9. lia. }
  assert (K3 : kids_of h3 o = []) by (rewrite KD; unfold kids_of; rewrite B4, B5; reflexivity).
  assert (P3 : par_of h3 o = 0) by (rewrite PA, Z.eqb_refl; reflexivity).
  destruct (dying_count _ _ _ _ _ o C2 (or_introl eq_refl)) as (Ko & Ro). rewrite plus_same, Z.add_0_r in Ko.
  assert (NR : forall a, ~ In o (refs_of h3 a)).
  { intros a Hi. pose proof (live_refs _ _ _ Hi) as Hl. apply (ivd _ _ _ _ _ C2) in Hl. pose proof (referred_in h3 ds o a Hl Hi). lia. }
  assert (NK : forall a, ~ In o (kids_of h3 a)).
  { intros a Hi. destruct (ivC _ _ _ _ _ C2 a o Hi) as (_ & Hp). rewrite P3 in Hp. subst a.
    apply live_kids in Hi. apply Hi. exact (iv0 _ _ _ _ _ C2). }
  assert (NP : forall a, par_of h3 a <> o).
  { intros a Hp. assert (Q : par_of h3 a <> 0) by congruence. pose proof (ivP _ _ _ _ _ C2 a Q) as Hi. rewrite Hp, K3 in Hi. exact Hi. }
  set (h4 := upd h3 o None).
  assert (Q4 : forall a, a <> o -> h4 a = h3 a) by (intros; apply upd_other; assumption).
  assert (Qo : h4 o = None) by apply upd_same.
  assert (L4 : forall a, h4 a <> None -> h3 a <> None /\ a <> o).
  { intros a Ha. destruct (Z.eq_dec a o) as [-> | Hao]; [congruence | ]. rewrite <- Q4 by exact Hao. auto. }
  assert (RF4 : forall a, refs_of h4 a = if a =? o then [] else refs_of h3 a).
  { intros a. unfold refs_of. destruct (Z.eqb_spec a o) as [-> | Hao]; [rewrite Qo; reflexivity | rewrite Q4 by exact Hao; reflexivity]. }
  assert (KD4 : forall a, kids_of h4 a = if a =? o then [] else kids_of h3 a).
  { intros a. unfold kids_of. destruct (Z.eqb_spec a o) as [-> | Hao]; [rewrite Qo; reflexivity | rewrite Q4 by exact Hao; reflexivity]. }
  assert (PA4 : forall a, par_of h4 a = par_of h3 a).
  { intros a. unfold par_of at 1. destruct (Z.eq_dec a o) as [-> | Hao]; [rewrite Qo, P3; reflexivity | rewrite Q4 by exact Hao; reflexivity]. }
  assert (RC4 : forall a, a <> o -> rc_of h4 a = rc_of h3 a) by (intros a Ha; unfold rc_of; rewrite Q4 by exact Ha; reflexivity).
  assert (AN : forall a, anch (o :: D) H h3 a -> anch D H h4 a).
  { induction 1 as [a Ha | a Hna Hp Ha IHa]; [apply anc_handle; exact Ha | ].
    apply anc_up; [simpl in Hna; tauto | rewrite PA4; exact Hp | rewrite PA4; exact IHa]. }
  split.
  - constructor.
    + rewrite Q4 by congruence. exact (iv0 _ _ _ _ _ C2).
    + intros a Ha. apply (ivd _ _ _ _ _ C2), L4, Ha.
    + intros a. pose proof (ivH _ _ _ _ _ B2 a). assumption.
    + intros a Ha. destruct (Z.eq_dec a o) as [-> | Hao]; [lia | ]. rewrite Q4 by exact Hao.
      apply (ivK _ _ _ _ _ C2). rewrite plus_other by exact Hao. exact Ha.
    + intros a v. rewrite RF4. destruct (a =? o); [intros [] | ]. intros Hv Hz.
      assert (v <> o) by (intros ->; exact (NR a Hv)). rewrite Q4 by assumption. exact (ivR _ _ _ _ _ C2 a v Hv Hz).
    + intros a. rewrite PA4. intros Hp. rewrite KD4. destruct (Z.eqb_spec (par_of h3 a) o) as [Ep | Ep]; [exfalso; exact (NP a Ep) | ].
      exact (ivP _ _ _ _ _ C2 a Hp).
    + intros a c. rewrite KD4. destruct (a =? o); [intros [] | ]. intros Hc. rewrite PA4.
      assert (c <> o) by (intros ->; exact (NK a Hc)). rewrite Q4 by assumption. exact (ivC _ _ _ _ _ C2 a c Hc).
    + intros a. rewrite KD4. destruct (a =? o); [constructor | apply (ivN _ _ _ _ _ C2)].
    + intros a Ha. destruct (L4 a Ha) as (Hl & Hao). rewrite RC4 by exact Hao.
      rewrite (ivrc _ _ _ _ _ C2 a Hl), plus_other by exact Hao.
      rewrite (referred_upd h3 h4 ds a o ND).
      2:{ apply (ivd _ _ _ _ _ C2). apply L. congruence. }
      2:{ intros b Hb. rewrite RF4. destruct (Z.eqb_spec b o); [congruence | reflexivity]. }
      rewrite (occ_nin a (refs_of h3 o)).
      2:{ intros Hi. apply R2 in Hi. subst a. apply Hl. exact (iv0 _ _ _ _ _ C2). }
      rewrite RF4, Z.eqb_refl. simpl. unfold held. rewrite PA4. unfold memb. simpl.
      destruct (Z.eqb_spec a o); [congruence | ]. simpl. lia.
    + intros d Hd. assert (d <> o) by (intros ->; tauto). rewrite RC4, Q4 by assumption.
      apply (ivD _ _ _ _ _ C2). right. exact Hd.
    + intros a Ha Hd. destruct (L4 a Ha) as (Hl & Hao). rewrite RC4 by exact Hao. apply (ivL _ _ _ _ _ C2 a Hl).
      simpl. intros [Eo | Hi]; [congruence | tauto].
    + intros d Hd. rewrite PA4. intros Hp. apply AN, (ivA _ _ _ _ _ C2); [right; exact Hd | exact Hp].
  - destruct F2 as (G1 & G2 & G3 & G4). repeat apply conj.
    + intros a Ha. apply G1, L, (L4 a Ha).
    + exact Qo.
    + intros d Hd Hdo Hk. rewrite Q4 by exact Hdo. rewrite SM; [apply G2; assumption | exact Hdo | ].
      intros Hi. apply Hk. destruct (G4 d Hdo) as (_ & <- & _); [exact (live_kids _ _ _ Hi) | exact Hi].
    + intros a. destruct (Z.eq_dec a o) as [-> | Hao].
      * unfold rc_of at 1. rewrite Qo. destruct (ivD _ _ _ _ _ I o (or_introl eq_refl)) as (_ & ->). lia.
      * rewrite RC4, RC by exact Hao. apply G3.
    + intros a Ha. destruct (L4 a Ha) as (Hl & Hao). apply L in Hl. destruct (G4 a Hao Hl) as (J1 & J2 & J3).
      rewrite RF4, KD4, PA4. destruct (Z.eqb_spec a o) as [Eo | _]; [congruence | ]. rewrite RF, KD, PA.
      destruct (Z.eqb_spec a o) as [Eo | _]; [congruence | ].
      rewrite J1, J2. split; [reflexivity | split; [reflexivity | ]].
      destruct J3 as [J3 | (J3 & [J4 | J4])]; [left; exact J3 | right; split; [exact J3 | ] | right; split; [exact J3 | ]].
      * destruct (h4 (par_of h a)) eqn:Ep; [ | reflexivity]. exfalso.
        assert (h4 (par_of h a) <> None) as Hq by congruence. destruct (L4 _ Hq) as (Hq1 & _). apply L in Hq1. congruence.
      * rewrite J4. exact Qo.
Qed.

Lemma release_ok ds H : NoDup ds -> forall f, relspec ds H (release f) f.
Proof.
  intros ND. induction f as [ | f IH]; intros D K h o Hf I HK; [lia | ].
  assert (Ho : h o <> None).
  { apply (ivK _ _ _ _ _ I). rewrite plus_same. pose proof (HK o). lia. }
  cbn [release]. unfold at_. destruct (h o) as [x | ] eqn:E; [ | congruence]. cbn [bind].
  assert (O0 : o <> 0) by (intros ->; rewrite (iv0 _ _ _ _ _ I) in E; discriminate).
  assert (Hn : ~ In o D).
  { intros Hd. destruct (dying_count _ _ _ _ _ o I Hd) as (C & _). rewrite plus_same in C. pose proof (HK o). lia. }
  assert (RX : rc_of h o = o_rc x) by (unfold rc_of; rewrite E; reflexivity).
  pose proof (ivrc _ _ _ _ _ I o ltac:(congruence)) as C. rewrite plus_same, RX in C.
  pose proof (HK o) as HKo. pose proof (held_range D h o) as HR. pose proof (referred_nonneg h ds o) as RN.
  assert (KE : forall a, plus (plus K o 1) o (-1) a = K a) by (intros a; unfold plus; destruct (a =? o); lia).
  destruct (Z.eqb_spec (o_rc x - 1) 0) as [Er | Er].
  - assert (H0 : held D h o = 0) by lia.
    assert (P0 : par_of h o = 0).
    { unfold held in H0. rewrite (memb_nin _ _ Hn) in H0. destruct (Z.eqb_spec (par_of h o) 0); [assumption | lia]. }
    assert (I1 : Inv ds (o :: D) H K (upd h o (Some (set_rc x (o_rc x - 1))))).
    { rewrite Er. apply (Inv_K _ _ _ (plus (plus K o 1) o (held D h o - 1))).
      - intros a. rewrite H0. apply KE.
      - apply last_inv; auto; try lia.
        + rewrite plus_same. lia.
        + intros d Hd Hp. assert (AA : forall a, anch D H h a -> anch (o :: D) H h a).
          { induction 1 as [a Ha | a Hna Hpa Ha IHa]; [apply anc_handle; exact Ha | ].
            apply anc_up; [ | exact Hpa | exact IHa]. simpl. intros [-> | Hi]; [congruence | tauto]. }
          apply AA, (ivA _ _ _ _ _ I); assumption. }
    destruct (rc_obs h o x (o_rc x - 1) E) as (L & RC & RF & PA & KD). set (h1 := upd _ _ _) in *.
    assert (AD : (alive_n ds h1 < alive_n ds h)%nat).
    { apply (alive_dec ds h h1 o).
      - apply (ivd _ _ _ _ _ I). congruence.
      - lia.
      - rewrite RC, Z.eqb_refl. exact Er.
      - intros a. rewrite RC. destruct (Z.eqb_spec a o); [lia | auto]. }
    destruct (destroy_ok ds D H K (release f) f h1 o ND IH I1 Hn) as (h' & B1 & B2 & B3); [lia | ].
    exists h'. split; [exact B1 | split; [exact B2 | ]].
    assert (NK : forall a, ~ In o (kids_of h a)).
    { intros a Hi. destruct (ivC _ _ _ _ _ I a o Hi) as (_ & Hp). rewrite P0 in Hp. subst a.
      apply live_kids in Hi. apply Hi. exact (iv0 _ _ _ _ _ I). }
    destruct B3 as (G1 & G2 & G3 & G4 & G5). repeat apply conj.
    + intros a Ha. apply L, G1, Ha.
    + intros d Hd _. assert (d <> o) by (intros ->; tauto). rewrite G3; auto.
      * apply upd_other. assumption.
      * rewrite KD. apply NK.
    + intros a. specialize (G4 a). rewrite RC in G4. destruct (Z.eqb_spec a o) as [Eo | ]; [rewrite Eo in *; lia | lia].
    + intros a _ Ha. destruct (G5 a Ha) as (J1 & J2 & J3). rewrite RF, KD, PA in *.
      rewrite (remove_one_nin _ _ (NK a)) in J2. split; [exact J1 | split; [exact J2 | ]].
      destruct J3 as [J3 | (J3 & J4)]; [left; exact J3 | right; auto].
  - assert (1 <= o_rc x) by (rewrite <- RX; apply (ivL _ _ _ _ _ I); [congruence | exact Hn]).
    eexists. split; [reflexivity | ]. split.
    + apply (Inv_K _ _ _ (plus (plus K o 1) o (-1))); [exact KE | ].
      replace (o_rc x - 1) with (o_rc x + -1) by lia. apply rc_inv; auto; [rewrite plus_same; lia | lia].
    + destruct (rc_obs h o x (o_rc x - 1) E) as (L & RC & RF & PA & KD). set (h1 := upd _ _ _) in *.
      repeat apply conj.
      * intros a. apply L.
      * intros d Hd _. apply upd_other. intros ->. tauto.
      * intros a. rewrite RC. destruct (Z.eqb_spec a o) as [-> | ]; lia.
      * intros a _ _. rewrite RF, KD, PA. auto.
Qed.
