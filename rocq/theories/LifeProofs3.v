(** Proofs about Life.v, continued: the operations and runs of them. *)
From Verif Require Import Base Tree Life LifeSpec LifeProofs LifeProofs2.

Definition good (s : st) (H : handles) : Prop := NoDup (s_dom s) /\ Inv (s_dom s) [] H H (s_heap s).

Lemma max_ge ds a : In a ds -> a <= fold_right Z.max 0 ds.
Proof. induction ds as [ | d ds IH]; simpl; [intros [] | ]. intros [-> | Hi]; [lia | specialize (IH Hi); lia]. Qed.
Lemma max_nonneg ds : 0 <= fold_right Z.max 0 ds.
Proof. induction ds as [ | d ds IH]; simpl; lia. Qed.

Lemma good0 : good s0 (fun _ => 0).
Proof.
  split; [constructor | ]. constructor; unfold refs_of, kids_of, par_of, s0; cbn [s_heap s_dom]; intros; try tauto; try congruence; try lia; try constructor; match goal with Q : In _ [] |- _ => destruct Q end.
Qed.
Lemma occ_repeat a n : a <> 0 -> occ a (repeat 0 n) = 0.
Proof.
  intros Ha. apply occ_nin. intros Hi. apply repeat_spec in Hi. congruence.
Qed.
Lemma new_ok s H n : good s H -> good (Mk (create (s_heap s) (fresh s) n) (fresh s :: s_dom s)) (plus H (fresh s) 1).
Proof.
  intros (ND & I). set (a0 := fresh s).
  assert (P : 0 < a0) by (unfold a0, fresh; pose proof (max_nonneg (s_dom s)); lia).
  assert (F : ~ In a0 (s_dom s)) by (intros Hi; apply max_ge in Hi; unfold a0, fresh in Hi; lia).
  assert (N : s_heap s a0 = None).
  { destruct (s_heap s a0) eqn:E; [ | reflexivity]. exfalso. apply F, (ivd _ _ _ _ _ I). congruence. }
  split; [constructor; assumption | ]. simpl. unfold create. set (h := s_heap s) in *. set (x0 := Obj 1 0 [] (repeat 0 n)).
  assert (Z0 : forall v a, In v (refs_of (upd h a0 (Some x0)) a) -> v <> 0 -> In v (refs_of h a) /\ a <> a0).
  { intros v a. unfold refs_of, upd. destruct (Z.eqb_spec a a0) as [-> | Ha]; [ | auto]. simpl. intros Hi Hv. apply repeat_spec in Hi. congruence. }
  assert (K0 : forall a, kids_of (upd h a0 (Some x0)) a = kids_of h a).
  { intros a. unfold kids_of, upd. destruct (Z.eqb_spec a a0) as [-> | Ha]; [rewrite N; reflexivity | reflexivity]. }
  assert (P0 : forall a, par_of (upd h a0 (Some x0)) a = par_of h a).
  { intros a. unfold par_of, upd. destruct (Z.eqb_spec a a0) as [-> | Ha]; [rewrite N; reflexivity | reflexivity]. }
  assert (L0 : forall a, upd h a0 (Some x0) a <> None <-> a = a0 \/ h a <> None).
  { intros a. unfold upd. destruct (Z.eqb_spec a a0) as [-> | Ha]; [split; [tauto | congruence] | tauto]. }
  constructor.
  - rewrite upd_other by lia. exact (iv0 _ _ _ _ _ I).
  - intros a Ha. apply L0 in Ha. simpl. destruct Ha as [-> | Ha]; [left; reflexivity | right; apply (ivd _ _ _ _ _ I), Ha].
  - intros a. pose proof (ivH _ _ _ _ _ I a). unfold plus. destruct (a =? a0); lia.
  - intros a Ha. apply L0. destruct (Z.eq_dec a a0) as [-> | Hn]; [left; reflexivity | right].
    rewrite plus_other in Ha by exact Hn. exact (ivK _ _ _ _ _ I a Ha).
  - intros a v Hv Hz. destruct (Z0 v a Hv Hz) as (Hi & _). apply L0. right. exact (ivR _ _ _ _ _ I a v Hi Hz).
  - intros a. rewrite P0, K0. apply (ivP _ _ _ _ _ I).
  - intros a c. rewrite K0, P0. intros Hc. destruct (ivC _ _ _ _ _ I a c Hc) as (C1 & C2). split; [apply L0; right; exact C1 | exact C2].
  - intros a. rewrite K0. apply (ivN _ _ _ _ _ I).
  - intros a Ha. cbn [referred].
    assert (AZ : a <> 0).
    { intros ->. apply L0 in Ha. destruct Ha as [Ha | Ha]; [lia | ]. apply Ha. exact (iv0 _ _ _ _ _ I). }
    replace (occ a (refs_of (upd h a0 (Some x0)) a0)) with 0.
    2:{ unfold refs_of. rewrite upd_same. simpl. symmetry. apply occ_repeat, AZ. }
    rewrite (referred_ext h).
    2:{ intros b Hb. unfold refs_of. rewrite upd_other; [reflexivity | ]. intros ->. tauto. }
    unfold held. simpl. rewrite P0. apply L0 in Ha.
    destruct (Z.eq_dec a a0) as [-> | Hn].
    + unfold rc_of. rewrite upd_same. simpl. rewrite plus_same.
      assert (H a0 = 0).
      { pose proof (ivH _ _ _ _ _ I a0). destruct (Z.eq_dec (H a0) 0); [assumption | ]. exfalso. apply (ivK _ _ _ _ _ I a0); [lia | exact N]. }
      unfold par_of. rewrite N. simpl. rewrite referred_none; [lia | ]. intros b Hb. apply (ivR _ _ _ _ _ I b a0 Hb); [lia | exact N].
    + destruct Ha as [Ha | Ha]; [congruence | ]. unfold rc_of. rewrite upd_other, plus_other by exact Hn.
      change (rc_of h a = H a + (if par_of h a =? 0 then 0 else 1) + (0 + referred h (s_dom s) a)).
      rewrite (ivrc _ _ _ _ _ I a Ha). unfold held. simpl. lia.
  - intros d [].
  - intros a Ha _. apply L0 in Ha. unfold rc_of, upd. destruct (Z.eqb_spec a a0) as [-> | Hn]; [simpl; lia | ].
    destruct Ha as [Ha | Ha]; [congruence | ]. apply (ivL _ _ _ _ _ I a Ha). tauto.
  - intros d [].
Qed.

Lemma attach_inv ds H K h c p b : Inv ds [] H K h -> par_of h c = 0 -> h c <> None -> h p <> None -> p <> c -> 0 < K c ->
  (forall a, 0 <= H a <= plus K c (-1) a) ->
  exists h', add_child h p c b = Ok h' /\ Inv ds [] H (plus K c (-1)) h' /\ (forall a, h' a <> None -> h a <> None).
Proof.
  intros I Hpc Hc Hp Hne HKc HH. unfold add_child, at_. destruct (h c) as [y | ] eqn:Ey; [ | congruence]. cbn [bind].
  rewrite upd_other by exact Hne. destruct (h p) as [x | ] eqn:Ex; [ | congruence]. cbn [bind]. eexists. split; [reflexivity | ].
  set (h' := upd _ p _).
  assert (P : forall a, h' a = if a =? p then Some (set_kids x (insert_before c b (o_kids x))) else if a =? c then Some (set_par y p) else h a) by reflexivity.
  assert (P0 : p <> 0) by (intros ->; rewrite (iv0 _ _ _ _ _ I) in Ex; discriminate).
  assert (L : forall a, h' a <> None <-> h a <> None).
  { intros a. rewrite P. destruct (Z.eqb_spec a p) as [-> | Ha]; [split; congruence | ].
    destruct (Z.eqb_spec a c) as [-> | Hb]; [split; congruence | reflexivity]. }
  assert (RC : forall a, rc_of h' a = rc_of h a).
  { intros a. unfold rc_of. rewrite P. destruct (Z.eqb_spec a p) as [-> | Ha]; [rewrite Ex; reflexivity | ].
    destruct (Z.eqb_spec a c) as [-> | Hb]; [rewrite Ey; reflexivity | reflexivity]. }
  assert (RF : forall a, refs_of h' a = refs_of h a).
  { intros a. unfold refs_of. rewrite P. destruct (Z.eqb_spec a p) as [-> | Ha]; [rewrite Ex; reflexivity | ].
    destruct (Z.eqb_spec a c) as [-> | Hb]; [rewrite Ey; reflexivity | reflexivity]. }
  assert (PA : forall a, par_of h' a = if a =? c then p else par_of h a).
  { intros a. unfold par_of. rewrite P. destruct (Z.eqb_spec a p) as [-> | Ha].
    - rewrite Ex. destruct (Z.eqb_spec p c); [congruence | reflexivity].
    - destruct (Z.eqb_spec a c) as [-> | Hb]; reflexivity. }
  assert (KD : forall a, kids_of h' a = if a =? p then insert_before c b (kids_of h a) else kids_of h a).
  { intros a. unfold kids_of. rewrite P. destruct (Z.eqb_spec a p) as [-> | Ha]; [rewrite Ex; reflexivity | ].
    destruct (Z.eqb_spec a c) as [-> | Hb]; [rewrite Ey; reflexivity | reflexivity]. }
  assert (NK : forall a, ~ In c (kids_of h a)).
  { intros a Hi. destruct (ivC _ _ _ _ _ I a c Hi) as (_ & Hq). rewrite Hpc in Hq. subst a.
    apply live_kids in Hi. apply Hi. exact (iv0 _ _ _ _ _ I). }
  split; [ | intros a; apply L].
  constructor.
  - destruct (h' 0) eqn:E0; [ | reflexivity]. exfalso. apply (proj1 (L 0)); [congruence | exact (iv0 _ _ _ _ _ I)].
  - intros a Ha. apply (ivd _ _ _ _ _ I), L, Ha.
  - exact HH.
  - intros a Ha. apply L. destruct (Z.eq_dec a c) as [-> | Hac]; [congruence | ].
    rewrite plus_other in Ha by exact Hac. apply (ivK _ _ _ _ _ I), Ha.
  - intros a v. rewrite RF. intros Hv Hn. apply L. apply (ivR _ _ _ _ _ I a v); assumption.
  - intros a. rewrite PA. destruct (Z.eqb_spec a c) as [-> | Hac].
    + intros _. rewrite KD, Z.eqb_refl. apply insert_in. left. reflexivity.
    + intros Hq. rewrite KD. pose proof (ivP _ _ _ _ _ I a Hq) as Hi. destruct (par_of h a =? p); [apply insert_in; right; exact Hi | exact Hi].
  - intros a d. rewrite KD, PA. intros Hd.
    assert (Hd' : (a = p /\ d = c) \/ In d (kids_of h a)).
    { destruct (Z.eqb_spec a p) as [-> | Hap]; [ | auto]. apply insert_in in Hd. tauto. }
    destruct Hd' as [(-> & ->) | Hi].
    + rewrite Z.eqb_refl. split; [apply L; congruence | reflexivity].
    + destruct (ivC _ _ _ _ _ I a d Hi) as (C1 & C2). split; [apply L; exact C1 | ].
      destruct (Z.eqb_spec d c) as [-> | _]; [exfalso; exact (NK a Hi) | exact C2].
  - intros a. rewrite KD. destruct (a =? p); [ | apply (ivN _ _ _ _ _ I)].
    apply insert_nodup; [apply (ivN _ _ _ _ _ I) | apply NK].
  - intros a Ha. rewrite RC, (ivrc _ _ _ _ _ I a (proj1 (L a) Ha)).
    rewrite (referred_ext h h') by (intros; apply RF).
    unfold held, plus. simpl. rewrite PA. destruct (Z.eqb_spec a c) as [-> | Hac]; [ | reflexivity].
    rewrite Hpc. destruct (Z.eqb_spec p 0); [congruence | ]. simpl. lia.
  - intros d [].
  - intros a Ha Hn. rewrite RC. apply (ivL _ _ _ _ _ I); [apply L; exact Ha | exact Hn].
  - intros d [].
Qed.

Lemma K_zero ds D H K h : Inv ds D H K h -> K 0 = 0.
Proof.
  intros I. pose proof (ivH _ _ _ _ _ I 0). destruct (Z.eq_dec (K 0) 0); [assumption | ]. exfalso.
  apply (ivK _ _ _ _ _ I 0); [lia | exact (iv0 _ _ _ _ _ I)].
Qed.

Lemma set_parent_split h c p b : c <> b -> c <> 0 ->
  set_parent h c p b = (do h <- set_parent h c 0 0; if p =? 0 then Ok h else add_child h p c b).
Proof.
  intros H1 H2. unfold set_parent. apply Z.eqb_neq in H1, H2. rewrite H1, H2. destruct (at_ h c) as [ | | | y]; try reflexivity. cbn [bind].
  destruct (if o_par y =? 0 then Ok h else remove_child h (o_par y) c); reflexivity.
Qed.

Lemma anchored_anch H h c a : anchored H h a -> anch [c] H h a \/ anch [c] H h (par_of h c).
Proof.
  induction 1 as [a Ha | a Hp Ha IH].
  - left. apply anc_handle, Ha.
  - destruct IH as [IH | IH]; [ | right; exact IH].
    destruct (Z.eq_dec a c) as [-> | Hn]; [right; exact IH | ]. left. apply anc_up; auto. simpl. intros [E | []]. congruence.
Qed.

Lemma kids_nz ds D H K h a : Inv ds D H K h -> ~ In 0 (kids_of h a).
Proof. intros I Hi. destruct (ivC _ _ _ _ _ I a 0 Hi) as (Hl & _). apply Hl. exact (iv0 _ _ _ _ _ I). Qed.

Lemma frame0_obs D h h' a x y : frame D 0 h h' -> h 0 = None -> h a = Some x -> h' a = Some y ->
  o_refs y = o_refs x /\ o_kids y = o_kids x /\ (o_par y = o_par x \/ (o_par y = 0 /\ h' (o_par x) = None)).
Proof.
  intros F H0 E E'. assert (A0 : a <> 0) by congruence.
  destruct F as (_ & _ & _ & F). destruct (F a A0) as (F1 & F2 & F3); [congruence | ].
  unfold refs_of, kids_of, par_of in *. rewrite E, E' in *. split; [exact F1 | split; [exact F2 | ]].
  destruct F3 as [F3 | (F3 & [F4 | F4])]; [left; exact F3 | right; auto | left; congruence].
Qed.

Definition none_made (o : op) (h h' : heap) : Prop := match o with New _ => True | _ => forall a, h' a <> None -> h a <> None end.
Lemma step_ok s H o : good s H -> pre H s o ->
  exists s', exec s o = Ok s' /\ good s' (after H s o) /\ kept_by o (s_heap s) (s_heap s') /\ none_made o (s_heap s) (s_heap s').
Proof.
  intros (ND & I) Pr. destruct s as [h ds]. cbn [s_heap s_dom] in *.
  pose proof (alive_le ds h) as AL.
  destruct o as [n | a | a | a k v | c p b | c | c]; cbn [exec after pre s_heap s_dom kept_by none_made] in *.
  - eexists. split; [reflexivity | ]. split; [ | split; exact Logic.I]. apply (new_ok (Mk h ds) H n). split; assumption.
  - unfold add_ref, at_. destruct (h a) as [x | ] eqn:E; [ | exfalso; apply Pr; exact E]. cbn [bind].
    eexists. split; [reflexivity | ]. split; [ | split; [exact Logic.I | intros b; apply upd_live; congruence]]. split; [exact ND | ]. simpl.
    apply (Inv_H _ H).
    { intros b. pose proof (ivH _ _ _ _ _ I b). unfold plus. destruct (b =? a); lia. }
    assert (1 <= rc_of h a) as R1 by (apply (ivL _ _ _ _ _ I); [congruence | tauto]).
    unfold rc_of in R1. rewrite E in R1. apply rc_inv; auto; simpl; lia.
  - set (K := plus H a (-1)).
    assert (HK : forall b, 0 <= K b <= K b).
    { intros b. pose proof (ivH _ _ _ _ _ I b). unfold K, plus. destruct (Z.eqb_spec b a); subst; lia. }
    assert (I1 : Inv ds [] K (plus K a 1) h).
    { apply (Inv_H _ H). { intros b. specialize (HK b). unfold plus at 1. destruct (b =? a); lia. }
      apply (Inv_K _ _ _ H); [ | exact I]. intros b. unfold K, plus. destruct (b =? a); lia. }
    destruct (release_ok ds K ND (S (length ds)) [] K h a) as (h' & R1 & R2 & R3); [lia | exact I1 | exact HK | ].
    rewrite R1. cbn [bind]. eexists. split; [reflexivity | ]. split; [split; assumption | ].
    simpl. split; [ | exact (proj1 R3)]. intros b x y E E'. exact (frame0_obs _ _ _ b x y R3 (iv0 _ _ _ _ _ I) E E').
  - destruct Pr as ((x & E & Hk) & Hv). unfold set_ref. unfold at_ at 1. rewrite E. cbn [bind].
    assert (R1 : 1 <= rc_of h a) by (apply (ivL _ _ _ _ _ I); [congruence | tauto]).
    destruct (Z.eqb_spec (nth k (o_refs x) 0) v) as [Ev | Ev]; cbn [bind].
    { eexists. split; [reflexivity | ]. split; [split; assumption | ]. simpl. split; [ | auto]. intros b x1 y1 E1 E2.
      rewrite E1 in E2. injection E2 as <-. split; [ | auto]. destruct (Z.eqb_spec b a) as [-> | ]; [ | reflexivity].
      rewrite E in E1. injection E1 as <-. subst v.
      clear. revert k. induction (o_refs x) as [ | r l IH]; intros [ | k]; simpl; try reflexivity. f_equal. apply IH. }
    assert (ST : exists h1 x1, (if v =? 0 then Ok h else add_ref h v) = Ok h1 /\ Inv ds [] H (if v =? 0 then H else plus H v 1) h1 /\
      h1 a = Some x1 /\ o_refs x1 = o_refs x /\ (forall b, h1 b <> None <-> h b <> None) /\
      (forall b, refs_of h1 b = refs_of h b) /\ (forall b, kids_of h1 b = kids_of h b) /\ (forall b, par_of h1 b = par_of h b)).
    { destruct (Z.eqb_spec v 0) as [Ez | Ez].
      - exists h, x. spl; auto. intros b. reflexivity.
      - destruct Hv as [Hv | Hv]; [congruence | ]. unfold add_ref, at_. destruct (h v) as [y | ] eqn:Ey; [ | exfalso; apply Hv; exact Ey].
        cbn [bind]. destruct (rc_obs h v y (o_rc y + 1) Ey) as (L & RC & RF & PA & KD).
        assert (1 <= rc_of h v) as R2 by (apply (ivL _ _ _ _ _ I); [congruence | tauto]).
        unfold rc_of in R2. rewrite Ey in R2.
        assert (I1 : Inv ds [] H (plus H v 1) (upd h v (Some (set_rc y (o_rc y + 1))))) by (apply rc_inv; auto; simpl; lia).
        eexists. exists (if a =? v then set_rc y (o_rc y + 1) else x). spl; [reflexivity | exact I1 | | | exact L | exact RF | exact KD | exact PA].
        + unfold upd. destruct (a =? v); [reflexivity | exact E].
        + destruct (Z.eqb_spec a v) as [-> | ]; [ | reflexivity]. rewrite E in Ey. injection Ey as <-. reflexivity. }
    destruct ST as (h1 & x1 & S1 & S2 & S3 & S4 & L1 & RF1 & KD1 & PA1). rewrite S1. cbn [bind]. unfold at_. rewrite S3. cbn [bind].
    set (v0 := nth k (o_refs x) 0) in *. set (x2 := set_refs x1 (set_nth k v (o_refs x1))). set (h2 := upd h1 a (Some x2)).
    set (K2 := if v0 =? 0 then H else plus H v0 1).
    assert (HK2 : forall b, 0 <= H b <= K2 b).
    { intros b. pose proof (ivH _ _ _ _ _ I b). unfold K2. destruct (v0 =? 0); [lia | ]. unfold plus. destruct (b =? v0); lia. }
    assert (I2 : Inv ds [] H K2 h2).
    { apply (ref_inv ds [] H (if v =? 0 then H else plus H v 1)); auto.
      - rewrite S4. exact Hk.
      - intros Hz. apply L1. destruct Hv as [Hv | Hv]; [congruence | exact Hv].
      - intros b Hb. rewrite S4. fold v0. unfold K2, plus, one_if.
        rewrite (Z.eqb_sym v0 b), (Z.eqb_sym v b).
        destruct (Z.eqb_spec v0 0), (Z.eqb_spec v 0), (Z.eqb_spec b v0), (Z.eqb_spec b v); subst; try congruence; lia.
      - unfold K2. pose proof (K_zero _ _ _ _ _ I). destruct (Z.eqb_spec v0 0); [assumption | ]. rewrite plus_other by congruence. assumption. }
    destruct (ref_obs h1 a x1 (set_nth k v (o_refs x1)) S3) as (L2 & RC2 & RF2 & PA2 & KD2). fold x2 in L2, RC2, RF2, PA2, KD2. fold h2 in L2, RC2, RF2, PA2, KD2.
    assert (RES : exists h', (if v0 =? 0 then Ok h2 else release (S (length ds)) h2 v0) = Ok h' /\ Inv ds [] H H h' /\ frame [] 0 h2 h').
    { unfold K2 in I2. destruct (v0 =? 0).
      - exists h2. spl; [reflexivity | exact I2 | apply frame_refl].
      - apply (release_ok ds H ND (S (length ds)) [] H h2 v0); [pose proof (alive_le ds h2); lia | exact I2 | apply (ivH _ _ _ _ _ I)]. }
    destruct RES as (h' & R2 & R3 & R4). cbn [bind]. rewrite R2. cbn [bind].
    eexists. split; [reflexivity | ]. split; [split; assumption | ]. simpl. split; [ | intros b Hb; apply L1, L2, (proj1 R4), Hb]. intros b xb yb Eb Eb'.
    assert (E2 : exists z, h2 b = Some z).
    { destruct (h2 b) as [z | ] eqn:Ez; [eauto | ]. exfalso. destruct R4 as (R4 & _). apply (R4 b); congruence. }
    destruct E2 as (z & Ez).
    destruct (frame0_obs _ _ _ b z yb R4 (iv0 _ _ _ _ _ I2) Ez Eb') as (A1 & A2 & A3).
    pose proof (RF2 b) as Q1. pose proof (KD2 b) as Q2. pose proof (PA2 b) as Q3.
    rewrite RF1 in Q1. rewrite KD1 in Q2. rewrite PA1 in Q3. unfold refs_of, kids_of, par_of in Q1, Q2, Q3. rewrite Eb, Ez in Q1, Q2, Q3.
    rewrite A1, A2, Q2, Q1, S4. rewrite Q3 in A3. split; [ | split; [reflexivity | exact A3]].
    destruct (Z.eqb_spec b a) as [-> | ]; [ | reflexivity]. rewrite E in Eb. injection Eb as <-. reflexivity.
  - destruct Pr as (Hc & Hh & Hp & Hcb & _).
    assert (C0 : c <> 0) by (intros ->; apply Hc; exact (iv0 _ _ _ _ _ I)).
    rewrite set_parent_split by assumption.
    destruct (detach_inv _ _ _ _ _ c I Hc) as (h1 & A1 & A2 & L & RC & RF & PA & KD & SM); [right; left; reflexivity | ].
    rewrite A1. cbn [bind].
    assert (HE : held [] h c = if par_of h c =? 0 then 0 else 1) by reflexivity.
    destruct (Z.eqb_spec p 0) as [Ep | Ep]; cbn [bind].
    + eexists. split; [reflexivity | ]. split; [ | split; [exact Logic.I | intros a; apply L]]. split; [exact ND | ]. simpl.
      apply (Inv_K _ _ _ (plus H c (held [] h c))).
      { intros a. unfold plus. rewrite HE. destruct (a =? c); destruct (par_of h c =? 0); lia. }
      apply (Inv_H _ H); [ | exact A2].
      intros a. pose proof (ivH _ _ _ _ _ I a). unfold plus. rewrite HE. destruct (a =? c); destruct (par_of h c =? 0); lia.
    + destruct Hp as [Hp | (Hp & Hne)]; [congruence | ].
      set (H' := plus H c ((if par_of h c =? 0 then 0 else 1) - 1)).
      assert (HH' : forall a, 0 <= H' a).
      { intros a. pose proof (ivH _ _ _ _ _ I a). unfold H', plus. destruct (Z.eqb_spec a c) as [-> | ]; [ | lia].
        destruct (Z.eqb_spec (par_of h c) 0) as [Eq | ]; [specialize (Hh Eq); lia | lia]. }
      assert (EQ : forall a, plus (plus H c (held [] h c)) c (-1) a = H' a).
      { intros a. unfold H', plus. rewrite HE. destruct (a =? c); destruct (par_of h c =? 0); lia. }
      assert (A3 : Inv ds [] H' (plus H c (held [] h c)) h1).
      { apply (Inv_H _ H); [ | exact A2]. intros a. split; [apply HH' | ]. rewrite <- EQ. unfold plus at 1. destruct (a =? c); lia. }
      destruct (attach_inv ds H' _ h1 c p b A3) as (h2 & B1 & B2 & B3).
      * rewrite PA, Z.eqb_refl. reflexivity.
      * apply L, Hc.
      * apply L, Hp.
      * exact Hne.
      * rewrite plus_same, HE. pose proof (ivH _ _ _ _ _ I c). destruct (Z.eqb_spec (par_of h c) 0) as [Eq | ]; [specialize (Hh Eq); lia | lia].
      * intros a. rewrite EQ. split; [apply HH' | lia].
      * rewrite B1. cbn [bind]. eexists. split; [reflexivity | ]. split; [ | split; [exact Logic.I | intros a Ha; apply L, B3, Ha]]. split; [exact ND | ]. simpl.
        apply (Inv_K _ _ _ _ _ _ EQ), B2.
  - assert (Hc : h c <> None) by (apply live_par; exact Pr). unfold detach_release.
    destruct (detach_inv _ _ _ _ _ c I Hc) as (h1 & A1 & A2 & L & RC & RF & PA & KD & SM); [right; left; reflexivity | ].
    rewrite A1. cbn [bind].
    assert (HE : held [] h c = 1) by (unfold held; simpl; destruct (Z.eqb_spec (par_of h c) 0); [congruence | reflexivity]).
    rewrite HE in A2.
    destruct (release_ok ds H ND (S (length ds)) [] H h1 c) as (h' & R1 & R2 & R3); [ | exact A2 | apply (ivH _ _ _ _ _ I) | ].
    { pose proof (alive_le ds h1). lia. }
    rewrite R1. cbn [bind]. eexists. split; [reflexivity | ]. split; [split; assumption | ]. simpl. split; [ | intros a Ha; apply L, (proj1 R3), Ha]. intros a x y Ha E E'.
    assert (E2 : exists z, h1 a = Some z).
    { destruct (h1 a) as [z | ] eqn:Ez; [eauto | ]. exfalso. destruct R3 as (R3 & _). apply (R3 a); congruence. }
    destruct E2 as (z & Ez).
    destruct (frame0_obs _ _ _ a z y R3 (iv0 _ _ _ _ _ A2) Ez E') as (B1 & B2 & B3).
    pose proof (RF a) as Q1. pose proof (KD a) as Q2. pose proof (PA a) as Q3.
    unfold refs_of, kids_of, par_of in Q1, Q2, Q3. rewrite E, Ez in Q1, Q2, Q3.
    destruct (Z.eqb_spec a c); [congruence | ]. rewrite B1, B2, Q1, Q2. rewrite Q3 in B3. auto.
  - destruct Pr as (Hp & Han & x & E & Hr). cbn [release]. unfold at_. rewrite E. cbn [bind].
    replace (o_rc x - 1) with 0 by lia. rewrite Z.eqb_refl.
    assert (HE : held [] h c = 1) by (unfold held; simpl; destruct (Z.eqb_spec (par_of h c) 0); [congruence | reflexivity]).
    pose proof (ivrc _ _ _ _ _ I c ltac:(congruence)) as C. unfold rc_of in C. rewrite E, HE, Hr in C.
    pose proof (ivH _ _ _ _ _ I c) as HHc. pose proof (referred_nonneg h ds c) as RN.
    assert (I1 : Inv ds [c] H H (upd h c (Some (set_rc x 0)))).
    { apply (Inv_K _ _ _ (plus H c (held [] h c - 1))).
      - intros a. unfold plus. rewrite HE. destruct (a =? c); lia.
      - apply last_inv; auto; try lia.
        + intros _. destruct (anchored_anch H h c _ Han) as [Q | Q]; exact Q.
        + intros d []. }
    destruct (rc_obs h c x 0 E) as (L & RC & RF & PA & KD). set (h1 := upd _ _ _) in *.
    assert (AD : (alive_n ds h1 < alive_n ds h)%nat).
    { apply (alive_dec ds h h1 c).
      - apply (ivd _ _ _ _ _ I). congruence.
      - unfold rc_of. rewrite E. lia.
      - rewrite RC, Z.eqb_refl. reflexivity.
      - intros a. rewrite RC. destruct (Z.eqb_spec a c); [lia | auto]. }
    destruct (destroy_ok ds [] H H (release (length ds)) (length ds) h1 c ND (release_ok ds H ND _) I1) as (h' & B1 & B2 & B3); [tauto | lia | ].
    rewrite B1. cbn [bind]. eexists. split; [reflexivity | ]. split; [split; assumption | ]. simpl.
    destruct B3 as (GL & G0 & _ & _ & G). split; [ | intros a Ha; apply L, GL, Ha]. split; [exact G0 | ]. intros a xa ya Ea Ea'. destruct (G a) as (J1 & J2 & J3); [congruence | ].
    rewrite RF in J1. rewrite KD in J2. rewrite PA in J3. unfold refs_of, kids_of, par_of in J1, J2, J3. rewrite Ea, Ea' in J1, J2, J3. auto.
Qed.

Lemma run_good s H : run s H -> good s H.
Proof.
  induction 1 as [ | s H o s' R IH P E]; [apply good0 | ].
  destruct (step_ok s H o IH P) as (s1 & E1 & G & _ & _). rewrite E in E1. injection E1 as <-. exact G.
Qed.

Lemma run_all l : forall s H, run s H -> by_rules H s l -> exists s', exec_all s l = Ok s' /\ run s' (after_all H s l).
Proof.
  induction l as [ | o l IH]; intros s H R B; cbn [by_rules exec_all after_all] in *; [eauto | ].
  destruct B as (P & B). destruct (exec s o) as [ | | | s1] eqn:E; try contradiction. cbn [bind].
  apply IH; [apply (run_step s H o s1); assumption | exact B].
Qed.

Lemma referred_ex h ds v : 1 <= referred h ds v -> exists b, In v (refs_of h b).
Proof.
  induction ds as [ | d ds IH]; cbn [referred]; [lia | ]. intros Hr.
  destruct (in_dec Z.eq_dec v (refs_of h d)) as [Hi | Hn]; [eauto | ]. rewrite (occ_nin _ _ Hn) in Hr. apply IH. lia.
Qed.
Lemma max_rank (rank : Z -> nat) ds : exists M, forall a, In a ds -> (rank a <= M)%nat.
Proof.
  induction ds as [ | d ds (M & IH)]; [exists O; intros a [] | ]. exists (Nat.max M (rank d)).
  intros a [-> | Hi]; [lia | specialize (IH a Hi); lia].
Qed.
Lemma all_gone s H : good s H -> (forall a, H a = 0) -> acyclic (s_heap s) -> forall a, s_heap s a = None.
Proof.
  intros (_ & I) H0 (rank & AC). destruct (max_rank rank (s_dom s)) as (M & HM). set (h := s_heap s) in *.
  assert (UP : forall a, h a <> None -> exists b, h b <> None /\ (rank a < rank b)%nat).
  { intros a Ha. assert (AZ : a <> 0) by (intros ->; apply Ha; exact (iv0 _ _ _ _ _ I)).
    pose proof (ivrc _ _ _ _ _ I a Ha) as C. pose proof (ivL _ _ _ _ _ I a Ha (fun x => x)) as L1. rewrite H0 in C.
    destruct (Z.eq_dec (par_of h a) 0) as [Ep | Ep].
    - unfold held in C. simpl in C. rewrite Ep in C. simpl in C. destruct (referred_ex h (s_dom s) a) as (b & Hb); [lia | ].
      exists b. split; [exact (live_refs _ _ _ Hb) | apply AC; auto].
    - pose proof (ivP _ _ _ _ _ I a Ep) as Hk. exists (par_of h a). split; [exact (live_kids _ _ _ Hk) | apply AC; auto]. }
  assert (NO : forall n a, (M - rank a < n)%nat -> h a <> None -> False).
  { induction n as [ | n IH]; intros a Hn Ha; [lia | ]. destruct (UP a Ha) as (b & Hb & Hr).
    apply (IH b); [ | exact Hb]. pose proof (HM b (ivd _ _ _ _ _ I b Hb)). lia. }
  intros a. destruct (h a) eqn:E; [ | reflexivity]. exfalso. apply (NO (S (M - rank a)) a); [lia | congruence].
Qed.
Lemma released s H a s' : good s H -> 0 < H a -> holders s H a = 1 -> exec s (Release a) = Ok s' -> s_heap s' a = None.
Proof.
  intros G P HO E. destruct (step_ok s H (Release a) G P) as (s1 & E1 & G1 & K1 & M1). rewrite E in E1. injection E1 as <-.
  destruct G as (_ & I). destruct G1 as (_ & I1). cbn [after kept_by none_made] in *. unfold holders in HO.
  pose proof (referred_nonneg (s_heap s) (s_dom s) a) as RN.
  assert (AZ : a <> 0) by (intros ->; pose proof (K_zero _ _ _ _ _ I); lia).
  destruct (s_heap s' a) as [y | ] eqn:Ey; [ | reflexivity]. exfalso.
  pose proof (ivK _ _ _ _ _ I a P) as La. destruct (s_heap s a) as [x | ] eqn:Ex; [ | congruence].
  pose proof (ivrc _ _ _ _ _ I1 a ltac:(congruence)) as C. pose proof (ivL _ _ _ _ _ I1 a ltac:(congruence) (fun z => z)) as L1.
  rewrite plus_same in C. destruct (K1 a x y Ex Ey) as (_ & _ & J3).
  assert (P0 : par_of (s_heap s) a = 0) by (destruct (Z.eqb_spec (par_of (s_heap s) a) 0); [assumption | lia]).
  assert (R0 : referred (s_heap s) (s_dom s) a = 0) by (destruct (par_of (s_heap s) a =? 0); lia).
  assert (P1 : par_of (s_heap s') a = 0).
  { unfold par_of in *. rewrite Ex in P0. rewrite Ey. destruct J3 as [J3 | (J3 & _)]; congruence. }
  unfold held in C. simpl in C. rewrite P1 in C. simpl in C. rewrite P0 in HO. simpl in HO.
  destruct (referred_ex (s_heap s') (s_dom s') a) as (b & Hb); [lia | ].
  destruct (s_heap s' b) as [yb | ] eqn:Eb; [ | apply live_refs in Hb; congruence].
  destruct (s_heap s b) as [xb | ] eqn:Exb.
  - destruct (K1 b xb yb Exb Eb) as (J1 & _). unfold refs_of in Hb. rewrite Eb, J1 in Hb.
    assert (Q : In a (refs_of (s_heap s) b)) by (unfold refs_of; rewrite Exb; exact Hb).
    pose proof (referred_in (s_heap s) (s_dom s) a b (ivd _ _ _ _ _ I b ltac:(congruence)) Q). lia.
  - apply (M1 b); congruence.
Qed.
