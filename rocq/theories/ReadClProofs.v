(** Proofs about ReadCl.v. *)
From Verif Require Import Base Tree Life LifeSpec LifeProofs LifeProofs2 LifeProofs3 ReadCl.

Lemma next_in_app c pre l : ~ In c pre -> next_in c (pre ++ c :: l) = hd 0 l.
Proof.
  induction pre as [ | x pre IH]; simpl; intros Hn; [rewrite Z.eqb_refl; reflexivity | ].
  destruct (Z.eqb_spec x c); [exfalso; tauto | ]. apply IH. tauto.
Qed.
Lemma remove_one_app c pre l : ~ In c pre -> remove_one c (pre ++ c :: l) = pre ++ l.
Proof.
  induction pre as [ | x pre IH]; simpl; intros Hn; [rewrite Z.eqb_refl; reflexivity | ].
  destruct (Z.eqb_spec x c); [exfalso; tauto | ]. f_equal. apply IH. tauto.
Qed.

(** A child deleted changes nothing for its brothers that only their parent holds. *)
Lemma brother s H cl b c s' : run s H -> 0 < H cl -> par_of (s_heap s) b = cl -> par_of (s_heap s) c = cl -> b <> c -> c <> cl ->
  rc_of (s_heap s) b = 1 -> exec s (DeleteChild b) = Ok s' ->
  run s' H /\ kids_of (s_heap s') cl = remove_one b (kids_of (s_heap s) cl) /\ kids_of (s_heap s') c = kids_of (s_heap s) c /\
  (rc_of (s_heap s) c = 1 -> rc_of (s_heap s') c = 1).
Proof.
  intros R Hcl Pb Pc Hbc Hccl Rb E.
  destruct (run_good _ _ R) as (_ & I).
  assert (CL0 : cl <> 0) by (intros ->; pose proof (K_zero _ _ _ _ _ I); lia).
  assert (P : pre H s (DeleteChild b)).
  { simpl. rewrite Pb. split; [exact CL0 | ]. split; [apply an_handle; exact Hcl | ].
    unfold rc_of in Rb. destruct (s_heap s b) as [x | ]; [eauto | lia]. }
  pose proof (run_step s H (DeleteChild b) s' R P E) as R'. cbn [after] in R'.
  destruct (step_ok s H (DeleteChild b) (run_good _ _ R) P) as (s1 & E1 & _ & K & M). rewrite E in E1. injection E1 as <-.
  cbn [kept_by none_made] in K, M. destruct K as (Kb & K). destruct (run_good _ _ R') as (_ & I').
  assert (Lcl : s_heap s cl <> None) by (apply (ivK _ _ _ _ _ I); exact Hcl).
  assert (Lcl' : s_heap s' cl <> None) by (apply (ivK _ _ _ _ _ I'); exact Hcl).
  destruct (s_heap s cl) as [xc | ] eqn:Ec; [ | congruence]. destruct (s_heap s' cl) as [yc | ] eqn:Ec'; [ | congruence].
  destruct (K cl xc yc Ec Ec') as (_ & K2 & _).
  assert (KC : kids_of (s_heap s') cl = remove_one b (kids_of (s_heap s) cl)) by (unfold kids_of; rewrite Ec, Ec'; exact K2).
  assert (Hc : In c (kids_of (s_heap s') cl)).
  { rewrite KC. apply remove_one_in; [ | congruence]. rewrite <- Pc. apply (ivP _ _ _ _ _ I). congruence. }
  destruct (ivC _ _ _ _ _ I' cl c Hc) as (Lc' & Pc').
  pose proof (M c Lc') as Lc.
  destruct (s_heap s c) as [x | ] eqn:Ex; [ | congruence]. destruct (s_heap s' c) as [y | ] eqn:Ey; [ | congruence].
  destruct (K c x y Ex Ey) as (_ & K3 & _).
  split; [exact R' | split; [exact KC | split]].
  - unfold kids_of. rewrite Ex, Ey, K3. apply remove_one_nin. intros Hi.
    assert (Hi' : In b (kids_of (s_heap s) c)) by (unfold kids_of; rewrite Ex; exact Hi).
    destruct (ivC _ _ _ _ _ I c b Hi') as (_ & Q). congruence.
  - intros Rc. assert (Lx : s_heap s c <> None) by congruence. assert (Ly : s_heap s' c <> None) by congruence.
    pose proof (ivrc _ _ _ _ _ I c Lx) as C. pose proof (ivrc _ _ _ _ _ I' c Ly) as C'.
    unfold held in C, C'. simpl in C, C'. rewrite Pc in C. rewrite Pc' in C'. destruct (Z.eqb_spec cl 0); [congruence | ].
    pose proof (ivH _ _ _ _ _ I c). pose proof (referred_nonneg (s_heap s) (s_dom s) c).
    assert (R0 : referred (s_heap s') (s_dom s') c = 0).
    { apply referred_none. intros a Ha. pose proof (live_refs _ _ _ Ha) as La'. pose proof (M a La') as La.
      destruct (s_heap s a) as [xa | ] eqn:Exa; [ | congruence]. destruct (s_heap s' a) as [ya | ] eqn:Eya; [ | congruence].
      destruct (K a xa ya Exa Eya) as (K4 & _). unfold refs_of in Ha. rewrite Eya, K4 in Ha.
      assert (Ha' : In c (refs_of (s_heap s) a)) by (unfold refs_of; rewrite Exa; exact Ha).
      pose proof (referred_in (s_heap s) (s_dom s) c a (ivd _ _ _ _ _ I a ltac:(congruence)) Ha'). lia. }
    lia.
Qed.

Section S.
Context (kd : Z -> kind) (readable : Z -> bool).
Notation unread := (unread kd readable).
Notation read_loop := (read_loop kd readable).

Lemma unread_kids h h' b : (h b <> None <-> h' b <> None) -> kids_of h' b = kids_of h b -> unread h' b = unread h b.
Proof.
  intros L K. unfold ReadCl.unread. destruct (kd b); try reflexivity.
  unfold kids_of in K. destruct (h b) as [x | ], (h' b) as [y | ]; simpl in *; try reflexivity.
  - rewrite K. reflexivity.
  - exfalso. apply (proj1 L); congruence.
  - exfalso. apply (proj2 L); congruence.
Qed.

Lemma read_loop_ok H cl : kd cl = KOther -> forall l s pr fuel ch, run s H -> 0 < H cl -> kids_of (s_heap s) cl = pr ++ l ->
  (forall c, In c l -> unread (s_heap s) c = true -> rc_of (s_heap s) c = 1) -> (length l < fuel)%nat ->
  exists s', read_loop fuel s cl (hd 0 l) ch = Ok (s', ch || existsb (unread (s_heap s)) l) /\ run s' H /\
    kids_of (s_heap s') cl = pr ++ filter (fun c => negb (unread (s_heap s) c)) l /\
    (forall a, s_heap s' a <> None -> s_heap s a <> None) /\ (forall c, In c l -> unread (s_heap s) c = true -> s_heap s' c = None).
Proof.
  intros KO. induction l as [ | b l IH]; intros s pr fuel ch R Hcl Kl Rc Hf; (destruct fuel as [ | fuel]; [simpl in Hf; lia | ]).
  - simpl. rewrite orb_false_r. exists s. split; [reflexivity | ]. split; [exact R | ]. split; [exact Kl | ]. split; [auto | intros c []].
  - destruct (run_good _ _ R) as (_ & I).
    assert (CL0 : cl <> 0) by (intros ->; pose proof (K_zero _ _ _ _ _ I); lia).
    assert (Hb : In b (kids_of (s_heap s) cl)) by (rewrite Kl; apply in_or_app; right; left; reflexivity).
    destruct (ivC _ _ _ _ _ I cl b Hb) as (Lb & Pb).
    assert (B0 : b <> 0) by (intros ->; apply Lb; exact (iv0 _ _ _ _ _ I)).
    pose proof (ivN _ _ _ _ _ I cl) as ND. rewrite Kl in ND.
    assert (Bn : ~ In b pr /\ ~ In b l).
    { apply NoDup_remove_2 in ND. split; intros Hi; apply ND, in_or_app; tauto. }
    cbn [ReadCl.read_loop hd]. destruct (Z.eqb_spec b 0); [congruence | ].
    unfold at_ at 1. destruct (s_heap s b) as [y | ] eqn:Ey; [ | congruence]. cbn [bind].
    assert (Py : o_par y = cl) by (unfold par_of in Pb; rewrite Ey in Pb; exact Pb). rewrite Py.
    unfold at_. pose proof (live_kids _ _ _ Hb) as Lcl. destruct (s_heap s cl) as [x | ] eqn:Ex; [ | congruence]. cbn [bind].
    assert (Kx : o_kids x = pr ++ b :: l) by (unfold kids_of in Kl; rewrite Ex in Kl; exact Kl).
    rewrite Kx, next_in_app by tauto. cbn [existsb filter].
    destruct (unread (s_heap s) b) eqn:Ub; cbn [negb].
    + pose proof (Rc b (or_introl eq_refl) Ub) as Rb.
      assert (Hbc : b <> cl) by (intros ->; unfold ReadCl.unread in Ub; rewrite KO in Ub; discriminate).
      assert (P : pre H s (DeleteChild b)).
      { simpl. rewrite Pb. split; [exact CL0 | ]. split; [apply an_handle; exact Hcl | ].
        unfold rc_of in Rb. rewrite Ey in Rb. eauto. }
      destruct (step_ok s H (DeleteChild b) (run_good _ _ R) P) as (s1 & E1 & G1 & K1 & M1). rewrite E1. cbn [bind].
      pose proof (run_step s H (DeleteChild b) s1 R P E1) as R1. cbn [after] in R1.
      assert (BR : forall c, In c l -> c <> cl -> kids_of (s_heap s1) c = kids_of (s_heap s) c /\ (rc_of (s_heap s) c = 1 -> rc_of (s_heap s1) c = 1)).
      { intros c Hc Hccl. assert (Hck : In c (kids_of (s_heap s) cl)) by (rewrite Kl; apply in_or_app; right; right; exact Hc).
        destruct (ivC _ _ _ _ _ I cl c Hck) as (_ & Pc).
        destruct (brother s H cl b c s1 R Hcl Pb Pc) as (_ & _ & A & B); auto. intros ->. tauto. }
      assert (K1' : kids_of (s_heap s1) cl = pr ++ l).
      { destruct (run_good _ _ R1) as (_ & I1). assert (Lcl1 : s_heap s1 cl <> None) by (apply (ivK _ _ _ _ _ I1); exact Hcl).
        destruct (s_heap s1 cl) as [x1 | ] eqn:Ex1; [ | congruence]. cbn [kept_by] in K1. destruct K1 as (_ & K1).
        destruct (K1 cl x x1 Ex Ex1) as (_ & K2 & _). unfold kids_of. rewrite Ex1, K2, Kx. apply remove_one_app. tauto. }
      assert (UN : forall c, In c l -> unread (s_heap s1) c = unread (s_heap s) c).
      { intros c Hc. destruct (Z.eq_dec c cl) as [-> | Hccl]; [unfold ReadCl.unread; rewrite KO; reflexivity | ].
        apply unread_kids; [ | apply BR; assumption].
        destruct (run_good _ _ R1) as (_ & I1). split; intros _.
        - apply (ivC _ _ _ _ _ I1 cl c). rewrite K1'. apply in_or_app. right. exact Hc.
        - apply (ivC _ _ _ _ _ I cl c). rewrite Kl. apply in_or_app. right. right. exact Hc. }
      destruct (IH s1 pr fuel true R1 Hcl K1') as (s' & A1 & A2 & A3 & A4 & A5).
      * intros c Hc Uc. rewrite UN in Uc by exact Hc.
        destruct (Z.eq_dec c cl) as [-> | Hccl]; [unfold ReadCl.unread in Uc; rewrite KO in Uc; discriminate | ].
        apply BR; auto. apply Rc; [right; exact Hc | exact Uc].
      * simpl in Hf. lia.
      * exists s'. cbn [kept_by none_made] in K1, M1. split; [ | split; [exact A2 | split; [ | split]]].
        -- rewrite A1. rewrite orb_true_l, !orb_true_r. reflexivity.
        -- rewrite A3. f_equal. apply filter_ext_in. intros c Hc. rewrite UN by exact Hc. reflexivity.
        -- intros a Ha. apply M1, A4, Ha.
        -- intros c [<- | Hc] Uc.
           ++ destruct (s_heap s' b) eqn:Es; [ | reflexivity]. exfalso. apply (A4 b); [congruence | apply K1].
           ++ apply A5; [exact Hc | rewrite UN by exact Hc; exact Uc].
    + destruct (IH s (pr ++ [b]) fuel ch R Hcl) as (s' & A1 & A2 & A3 & A4 & A5).
      * rewrite Kl, <- app_assoc. reflexivity.
      * intros c Hc. apply Rc. right. exact Hc.
      * simpl in Hf. lia.
      * exists s'. split; [rewrite A1; reflexivity | split; [exact A2 | ]]. split; [rewrite A3, <- app_assoc; reflexivity | ].
        split; [exact A4 | ]. intros c [<- | Hc] Uc; [congruence | apply A5; assumption].
Qed.
End S.
