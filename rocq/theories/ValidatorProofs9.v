(** Proofs about mkvalidator: what a run without errors tells of the file. *)
From Verif Require Import Base BaseProofs Vint EbmlId EbmlIdSpec EbmlIdProofs IntElt IntEltSpec IntEltProofs EltHead Ebml Stream Tree TreeRead TreeSpec TreeProofs Create CreateSpec CreateProofs CreateProofs2 Frame BlockTime BlockTimeProofs Cues CuesSpec CuesProofs Str StrSpec StrProofs BlockProofs MkSchema MkSpec MkProofs Validator ValidatorSpec ValidatorProofs ValidatorProofs2 ValidatorProofs4 ValidatorProofs5 ValidatorProofs8.

Lemma clean_app a b : clean (a ++ b) <-> clean a /\ clean b.
Proof. apply Forall_app. Qed.
Lemma clean_cons m l : clean (m :: l) <-> ~ counted m /\ clean l.
Proof. apply Forall_cons_iff. Qed.
Lemma clean_err c l : clean (Err c :: l) -> False.
Proof. rewrite clean_cons. cbn. tauto. Qed.
Lemma clean_fatal c l : clean (Fatal c :: l) -> False.
Proof. rewrite clean_cons. cbn. tauto. Qed.
Lemma clean_when b c : clean (when b (Err c)) -> b = false.
Proof. destruct b; [intros H; destruct (clean_err _ _ H)|reflexivity]. Qed.
(** The elements main keeps. *)
Definition kept (g : seg) (e : elt) : Prop :=
  g_info g = Some e \/ g_tracks g = Some e \/ g_chapters g = Some e \/ g_tags g = Some e \/ g_cues g = Some e \/ g_att g = Some e \/
  g_seek g = Some e \/ g_seek2 g = Some e \/ exists c, In c (g_clusters g) /\ vc_elt c = e.
Definition checked (prof : Z) (e : elt) : Prop := exists l, check_profile prof e = Ok l /\ clean l.
Definition pick (c : Z) (old : option elt) (x : lv1) : option elt :=
  match old with Some e => Some e | None => if is_type c (l_elt x) then Some (l_elt x) else None end.
Lemma opt_id {A} (a : option A) : match a with Some e => Some e | None => None end = a.
Proof. destruct a; reflexivity. Qed.
Section V.
Context (td : Z -> Z) (prof : Z) (o : opts).
Lemma kept_ok e r : check_kept prof e = Ok r -> clean (fst r) -> checked prof e.
Proof.
  unfold check_kept. destruct (check_unknown e) as [mu v]. intros H C. apply bind_inv in H. destruct H as (mp & E & H). injection H as <-. cbn [fst] in C. apply clean_app in C. exists mp. tauto.
Qed.
Lemma keep_ok s e g r : keep prof s e g = Ok r -> clean (fst r) -> exists s', snd r = Some s' /\ x_seg s' = g /\ checked prof e.
Proof.
  unfold keep. intros H C. apply bind_inv in H. destruct H as (k & E & H). injection H as <-. cbn [fst snd] in *. eexists. split; [reflexivity|]. split; [reflexivity|]. eapply kept_ok; eassumption.
Qed.
Definition live_pick (c : Z) (old : option elt) (x : lv1) : option elt := if o_live o then old else pick c old x.
(** What one element adds. *)
Definition grown (g g' : seg) (x : lv1) : Prop :=
  g_head g' = g_head g /\ g_info g' = pick cInfo (g_info g) x /\ g_tracks g' = pick cTracks (g_tracks g) x /\ g_tags g' = pick cTags (g_tags g) x /\
  g_cues g' = live_pick cCues (g_cues g) x /\ g_chapters g' = live_pick cChapters (g_chapters g) x /\ g_att g' = live_pick cAttachments (g_att g) x /\
  g_seek g' = live_pick cSeekHead (g_seek g) x /\ g_clusters g' = g_clusters g ++ (if is_type cCluster (l_elt x) then [l_what x] else []).
Lemma type_other c c' e : is_type c e = true -> c_id (mk c) <> c_id (mk c') -> is_type c' e = false.
Proof. unfold is_type. lia. Qed.
Definition must_read (x : lv1) : bool :=
  existsb (fun c => is_type c (l_elt x)) ([cCluster; cInfo; cTracks; cTags] ++ (if o_live o then [] else [cSeekHead; cCues; cChapters; cAttachments])).
Lemma level1_step s x r : level1 td o prof s x = Ok r -> clean (fst r) -> exists s', snd r = Some s' /\ grown (x_seg s) (x_seg s') x /\
  (must_read x = true -> l_ok x = true) /\
  (forall e, kept (x_seg s') e -> kept (x_seg s) e \/ (e = l_elt x /\ checked prof e)) /\
  (is_type cTags (l_elt x) = true -> g_tags (x_seg s) = None) /\
  (is_type cAttachments (l_elt x) = true -> o_live o = false /\ g_att (x_seg s) = None) /\
  (is_type cChapters (l_elt x) = true -> o_live o = false).
Proof.
  assert (T : forall c c', is_type c (l_elt x) = true -> (c_id (mk c) =? c_id (mk c')) = false -> is_type c' (l_elt x) = false) by (intros; eapply type_other; [eassumption|lia]).
  intros H C. unfold level1 in H. cbv zeta in H.
  destruct (is_type cCluster (l_elt x)) eqn:T1; [|destruct (is_type cSeekHead (l_elt x)) eqn:T2; [|destruct (is_type cInfo (l_elt x)) eqn:T3; [|destruct (is_type cTracks (l_elt x)) eqn:T4; [|destruct (is_type cCues (l_elt x)) eqn:T5; [|destruct (is_type cChapters (l_elt x)) eqn:T6; [|destruct (is_type cTags (l_elt x)) eqn:T7; [|destruct (is_type cAttachments (l_elt x)) eqn:T8]]]]]]].
  all: match goal with Tc : is_type ?c _ = true |- _ =>
      try pose proof (T c cCluster Tc ltac:(vm_compute; reflexivity)); try pose proof (T c cSeekHead Tc ltac:(vm_compute; reflexivity));
      try pose proof (T c cInfo Tc ltac:(vm_compute; reflexivity)); try pose proof (T c cTracks Tc ltac:(vm_compute; reflexivity));
      try pose proof (T c cCues Tc ltac:(vm_compute; reflexivity)); try pose proof (T c cChapters Tc ltac:(vm_compute; reflexivity));
      try pose proof (T c cTags Tc ltac:(vm_compute; reflexivity)); try pose proof (T c cAttachments Tc ltac:(vm_compute; reflexivity)) | _ => idtac end; clear T.
  all: unfold grown, live_pick, pick, must_read, kept; destruct (o_live o) eqn:L; cbn [existsb app]; repeat match goal with E : is_type _ _ = _ |- _ => rewrite E end; clear - td prof o H C L.
  all: destruct s as [[gh gi gt gc gg gq ga gs gs2 gl] xv xt xm xd xp]; cbn [x_seg g_head g_info g_tracks g_chapters g_tags g_cues g_att g_seek g_seek2 g_clusters] in *.
  all: destruct (l_ok x) eqn:K; try (injection H as <-; cbn [fst] in C; first [destruct (clean_fatal _ _ C)|destruct (clean_err _ _ C)]).
  all: repeat match goal with H : (let '(_, _) := match ?a with Some _ => _ | None => _ end in _) = Ok _ |- _ => destruct a end.
  all: repeat match goal with H : match ?a with Some _ => _ | None => _ end = Ok _ |- _ => destruct a end.
  all: try (injection H as <-; cbn [fst] in C; first [destruct (clean_fatal _ _ C)|destruct (clean_err _ _ C)]).
  all: try (destruct (keep_ok _ _ _ _ H C) as (s' & -> & HS & HC)).
  all: try (apply bind_inv in H; destruct H as ([m0 so] & E & H)).
  all: try (apply bind_inv in H; destruct H as ([[[m ti] mx] vd] & E' & H)).
  all: try (apply ok_inj in H; subst r; cbn [fst snd] in C |- *).
  all: try match type of E with keep _ _ _ _ = _ => assert (C0 : clean m0) by (try apply clean_app in C; tauto); destruct (keep_ok _ _ _ _ E C0) as (s' & HSo & HS & HC); cbn [snd] in HSo; subst so | check_kept _ _ = _ => assert (HC : checked prof (l_elt x)) by (apply (kept_ok _ _ E); cbn [fst]; try apply clean_app in C; tauto) end.
  all: eexists; (split; [reflexivity|]); try rewrite HS; cbn [x_seg with_prev g_head g_info g_tracks g_chapters g_tags g_cues g_att g_seek g_seek2 g_clusters orb]; rewrite ?app_nil_r.
  all: cbn [app orb]; rewrite ?opt_id.
  all: split; [repeat (split; [reflexivity|]); try reflexivity|].
  all: split; [intros MR; first [reflexivity|discriminate MR|(cbn in MR; discriminate MR)|idtac]|split; [|split; [|split]; try discriminate; try reflexivity; try (split; reflexivity)]].
  all: try (intros _; discriminate).
  all: intros ee Q; first [left; exact Q|idtac].
  all: repeat match type of Q with _ \/ _ => destruct Q as [Q|Q]; [first [left; tauto | (injection Q as <-; right; split; [reflexivity|exact HC])]|] end; try (left; tauto).
  all: destruct Q as (c & Hc & <-); apply in_app_iff in Hc; destruct Hc as [Hc|[<-|[]]]; [left; do 8 right; eauto|right; split; [reflexivity|exact HC]].
Qed.
(** The first of the class, in the list. *)
Definition sel (c : Z) (old : option elt) (l : list lv1) : option elt :=
  match old with Some e => Some e | None => match find (fun x => is_type c (l_elt x)) l with Some x => Some (l_elt x) | None => None end end.
Lemma sel_step c old x l : sel c (pick c old x) l = sel c old (x :: l).
Proof. unfold sel, pick. destruct old; [reflexivity|]. cbn [find]. destruct (is_type c (l_elt x)); reflexivity. Qed.
Lemma level1s_clean l : forall s r, level1s td o prof s l = Ok r -> clean (fst r) -> exists s', snd r = Some s' /\ g_head (x_seg s') = g_head (x_seg s) /\
  g_info (x_seg s') = sel cInfo (g_info (x_seg s)) l /\ g_tracks (x_seg s') = sel cTracks (g_tracks (x_seg s)) l /\ g_tags (x_seg s') = sel cTags (g_tags (x_seg s)) l /\
  (o_live o = false -> g_cues (x_seg s') = sel cCues (g_cues (x_seg s)) l /\ g_chapters (x_seg s') = sel cChapters (g_chapters (x_seg s)) l /\
     g_att (x_seg s') = sel cAttachments (g_att (x_seg s)) l /\ g_seek (x_seg s') = sel cSeekHead (g_seek (x_seg s)) l) /\
  g_clusters (x_seg s') = g_clusters (x_seg s) ++ map l_what (filter (fun x => is_type cCluster (l_elt x)) l) /\
  (forall x, In x l -> must_read x = true -> l_ok x = true) /\
  (forall e, kept (x_seg s') e -> kept (x_seg s) e \/ checked prof e) /\
  (forall a x b, l = a ++ x :: b -> is_type cTags (l_elt x) = true -> sel cTags (g_tags (x_seg s)) a = None) /\
  (forall a x b, l = a ++ x :: b -> is_type cAttachments (l_elt x) = true -> o_live o = false /\ sel cAttachments (g_att (x_seg s)) a = None) /\
  (forall x, In x l -> is_type cChapters (l_elt x) = true -> o_live o = false).
Proof.
  induction l as [|x l IH]; intros s r H C; cbn [level1s] in H.
  - injection H as <-. exists s. split; [reflexivity|]. unfold sel. cbn [find map filter]. rewrite !opt_id, app_nil_r. repeat (split; [reflexivity|]). split; [intros _; auto|]. split; [reflexivity|]. split; [intros ? []|]. split; [auto|]. split; [intros [|? ?]; discriminate|]. split; [intros [|? ?]; discriminate|intros ? []].
  - apply bind_inv in H. destruct H as (y & E & H).
    assert (Cy : clean (fst y)). { destruct (snd y); [apply bind_inv in H; destruct H as (z & _ & H)|]; injection H as <-; cbn [fst] in C; [apply clean_app in C; tauto|exact C]. }
    destruct (level1_step s x y E Cy) as (s1 & E1 & (G1 & G2 & G3 & G4 & G5 & G6 & G7 & G8 & G9) & M & K & T1 & T2 & T3). rewrite E1 in H. apply bind_inv in H. destruct H as (z & Ez & H). apply ok_inj in H. subst r. cbn [fst snd] in *. apply clean_app in C. destruct C as [_ Cz].
    destruct (IH s1 z Ez Cz) as (s' & -> & I1 & I2 & I3 & I4 & I5 & I6 & I7 & I8 & I9 & I10 & I11). exists s'. split; [reflexivity|]. rewrite I1, I2, I3, I4, I6, G1, G2, G3, G4, G9, !sel_step. repeat (split; [reflexivity|]).
    split; [|split; [|split; [|split; [|split; [|split]]]]].
    + intros L. destruct (I5 L) as (-> & -> & -> & ->). unfold live_pick in G5, G6, G7, G8. rewrite L in *. rewrite G5, G6, G7, G8, !sel_step. auto.
    + cbn [filter]. rewrite <- app_assoc. f_equal. destruct (is_type cCluster (l_elt x)); reflexivity.
    + intros x' [<-|Hx]; [exact M|exact (I7 x' Hx)].
    + intros e He. destruct (I8 e He) as [He'|He']; [|auto]. destruct (K e He') as [?|[-> ?]]; auto.
    + intros a x' b Eq Tx. destruct a as [|a0 a]; injection Eq as -> Eq; [unfold sel; cbn [find]; rewrite (T1 Tx); reflexivity|]. rewrite <- sel_step, <- G4. exact (I9 a x' b Eq Tx).
    + intros a x' b Eq Tx. destruct a as [|a0 a]; injection Eq as -> Eq; [destruct (T2 Tx) as [L ->]; split; [exact L|reflexivity]|]. destruct (I10 a x' b Eq Tx) as [L Q]. split; [exact L|]. rewrite <- sel_step. unfold live_pick in G7. rewrite L in G7. rewrite <- G7. exact Q.
    + intros x' [<-|Hx]; [exact T3|exact (I11 x' Hx)].
Qed.
(** After the level 1 elements. *)
Lemma finish_clean fuel s l : finish td fuel o prof s = Ok l -> clean l ->
  (exists e, g_info (x_seg s) = Some e) /\ (g_clusters (x_seg s) <> [] -> exists t, g_tracks (x_seg s) = Some t) /\
  (forall h, g_seek (x_seg s) = Some h -> exists m, check_seek_head (x_seg s) true h = Ok m /\ clean m) /\
  (forall t, g_tracks (x_seg s) = Some t -> exists m, check_tracks td prof (g_att (x_seg s)) t = Ok m /\ clean m) /\
  (forall p, x_prev s = Some p -> e_end (g_head (x_seg s)) = INVALID_FILEPOS \/ e_end (g_head (x_seg s)) = e_end (einfo p)).
Proof.
  unfold finish. cbv zeta. intros H C. destruct (g_info (x_seg s)) as [e|]; [|injection H as <-; destruct (clean_fatal _ _ C)]. split; [eauto|].
  apply bind_inv in H. destruct H as (m2 & E2 & H). apply bind_inv in H. destruct H as (m3 & E3 & H). apply bind_inv in H. destruct H as ([[m4 ti] more] & E4 & H). destruct more; [apply bind_inv in H; destruct H as (m5 & E5 & H)|]; apply ok_inj in H; subst l; rewrite !clean_app in C.
  - split; [|split; [|split]].
    + intros N. unfold check_clusters in E4. cbv zeta in E4. destruct (g_clusters (x_seg s)); [contradiction|]. destruct (g_tracks (x_seg s)); [eauto|]. binds; discriminate.
    + intros h Eh. rewrite Eh in E2. exists m2. tauto.
    + intros t Et. rewrite Et in E5. exists m5. tauto.
    + intros p Ep. rewrite Ep in C. destruct C as [C _]. apply clean_when in C. destruct (Z.eqb_spec (e_end (g_head (x_seg s))) INVALID_FILEPOS); [left; assumption|right]. cbn [negb andb] in C. destruct (Z.eqb_spec (e_end (g_head (x_seg s))) (e_end (einfo p))); [assumption|discriminate].
  - exfalso. destruct C as (_ & _ & _ & C). apply fine_clusters in E4. cbn [fst snd ended] in E4. destruct E4 as (a & c & -> & _). apply clean_app in C. destruct C as [_ C]. exact (clean_fatal _ _ C).
Qed.
End V.
Lemma got_doc td prof e : elem cHead e -> exists s, (do d <- got td prof cDocType e; text_of d) = Ok s /\ doc_is e s.
Proof.
  intros He. destruct (elem_master cHead e He) as (i & chk & ch & ->); [vm_compute; reflexivity|]. unfold got, get_child.
  assert (Hl : listed cHead cDocType) by mk_side. pose proof (lookup_ok cHead _ cDocType He Hl) as H. unfold lookup in H. cbn [children] in H. destruct (find_child mk (c_id (mk cDocType)) ch) as [d|] eqn:F.
  - destruct H as [H1 [H2 Hk]]. cbn [bind fst]. inversion H2 as [j v c' Hk' Hi Hlf|j k jch c' Hk' Hc' HF]; subst; cbn [einfo] in Hk; rewrite Hk in Hk'; injection Hk' as <-; [|exfalso; vm_compute in Hc'; discriminate].
    destruct Hlf as [->|(s & r & -> & Hp)]; unfold text_of, string_value, opt_res.
    + exists []. split; [reflexivity|]. right; left. exists j. auto.
    + rewrite cstr_plain by exact Hp. exists s. split; [reflexivity|]. left. exists j, r. auto.
  - eexists. split; [vm_compute; reflexivity|]. right; right. split; [exact H|reflexivity].
Qed.
Lemma head_clean td o h m v p : check_head td o h = Ok (m, v, p) -> (forall b e, h = Some (b, e) -> elem cHead e) -> clean m ->
  exists e i chk ch prof doc ver, h = Some (true, e) /\ e = Master i chk ch /\ chk <> 1 /\ p = Some prof /\ doc_is e doc /\ int_is cDocTypeVersion e ver /\ doc_profile (o_divx o) doc ver prof.
Proof.
  unfold check_head. intros H HE C. destruct h as [[[|] e]|]; [|injection H as <- <- <-; destruct (clean_fatal _ _ C)|injection H as <- <- <-; destruct (clean_fatal _ _ C)].
  specialize (HE true e eq_refl). destruct e as [i w|i chk ch]; [discriminate|]. destruct (Z.eqb_spec chk 1) as [Q|Q]; [injection H as <- <- <-; destruct (clean_fatal _ _ C)|]. cbv zeta in H.
  destruct (check_unknown (Master i chk ch)) as [mu vd]. apply bind_inv in H. destruct H as (rv & _ & H). apply bind_inv in H. destruct H as (il & _ & H). apply bind_inv in H. destruct H as (sl & _ & H).
  destruct (got_doc td ANY_PROFILE (Master i chk ch) HE) as (doc & Ed & Td). apply bind_inv in H. destruct H as (d & E1 & H). rewrite E1 in Ed. cbn [bind] in Ed. rewrite Ed in H. cbn [bind] in H.
  exists (Master i chk ch), i, chk, ch. revert H C. generalize (mu ++ when (1 <? rv) (Lost 5) ++ when (4 <? il) (Lost 6) ++ when (8 <? sl) (Lost 7)). intros m0 H C.
  destruct (list_eqb doc MATROSKA) eqn:M.
  - apply list_eqb_eq in M. cbn [negb andb] in H. destruct (got_int_ok td ANY_PROFILE cHead (Master i chk ch) cDocTypeVersion HE) as (ver & Ev & Hv & _); try mk_side. rewrite Ev in H. cbn [bind] in H. apply bind_inv in H. destruct H as (rver & _ & H).
    destruct (mk_profile o ver) as [mp prof] eqn:MP. injection H as <- <- <-. exists prof, doc, ver. split; [reflexivity|]. split; [reflexivity|]. split; [exact Q|]. split; [reflexivity|]. split; [exact Td|]. split; [exact Hv|]. right. split; [exact M|].
    unfold mk_profile in MP. destruct (o_divx o); [injection MP as _ <-; left; split; reflexivity|right; split; [reflexivity|]].
    destruct (Z.eqb_spec ver 5); [injection MP as _ <-; unfold P_V5; lia|]. destruct (Z.eqb_spec ver 4); [injection MP as _ <-; unfold P_V4; lia|]. destruct (Z.eqb_spec ver 3); [injection MP as _ <-; unfold P_V3; lia|]. destruct (Z.eqb_spec ver 2); [injection MP as _ <-; unfold P_V2; lia|]. destruct (Z.eqb_spec ver 1); [injection MP as _ <-; unfold P_V1; lia|]. injection MP as _ <-. lia.
  - destruct (list_eqb doc WEBM) eqn:W; cbn [negb andb] in H; [|injection H as <- <- <-; apply clean_app in C; destruct C as [_ C]; destruct (clean_fatal _ _ C)].
    apply list_eqb_eq in W. destruct (got_int_ok td ANY_PROFILE cHead (Master i chk ch) cDocTypeVersion HE) as (ver & Ev & Hv & _); try mk_side. rewrite Ev in H. cbn [bind] in H. apply bind_inv in H. destruct H as (rver & _ & H). injection H as <- <- <-.
    exists P_WEBM, doc, ver. split; [reflexivity|]. split; [reflexivity|]. split; [exact Q|]. split; [reflexivity|]. split; [exact Td|]. split; [exact Hv|]. left. split; [exact W|reflexivity].
Qed.
Lemma checked_lawful prof e : shaped e -> checked prof e -> lawful prof e.
Proof.
  intros Hs (l & El & C) c x Hx Hv. destruct (profile_ok prof e Hs) as (l' & E & H). rewrite E in El. injection El as ->. assert (In (Err c) l) as Q by (apply H; eauto). unfold clean in C. rewrite Forall_forall in C. exact (C _ Q I).
Qed.
Section F.
Context (f : source) (i : info) (HS : elem cSegment (Master i 0 (map l_elt (f_level1 f)))).
Lemma l1_type x c : listed cSegment c -> In x (f_level1 f) -> (is_type c (l_elt x) = true <-> of_class c (l_elt x)).
Proof.
  intros Hl Hx. unfold is_type. rewrite Z.eqb_eq. apply (child_iff cSegment _ c (l_elt x) HS Hl). cbn [kids]. apply in_map. exact Hx.
Qed.
Lemma l1_shaped x c : listed cSegment c -> In x (f_level1 f) -> of_class c (l_elt x) -> elem c (l_elt x).
Proof.
  intros Hl Hx Hc. apply (child_class cSegment i 0 (map l_elt (f_level1 f)) c _ HS Hl); [apply in_map; exact Hx|apply class_id; exact Hc].
Qed.
Lemma sel_split c a b : listed cSegment c -> f_level1 f = a ++ b ->
  match sel c None a with Some e => exists a1 x a2, a = a1 ++ x :: a2 /\ l_elt x = e /\ of_class c e /\ Forall (fun y => ~ of_class c (l_elt y)) a1 | None => Forall (fun y => ~ of_class c (l_elt y)) a end.
Proof.
  intros Hl E. unfold sel. assert (HA : forall x, In x a -> (is_type c (l_elt x) = true <-> of_class c (l_elt x))) by (intros x Hx; apply l1_type; [exact Hl|rewrite E; apply in_app_iff; left; exact Hx]). clear E. induction a as [|x a IH]; cbn [find]; [constructor|].
  assert (Hx := HA x (or_introl eq_refl)). assert (HA' : forall y, In y a -> (is_type c (l_elt y) = true <-> of_class c (l_elt y))) by (intros y Hy; apply HA; right; exact Hy). specialize (IH HA').
  destruct (is_type c (l_elt x)) eqn:T.
  - exists [], x, a. split; [reflexivity|]. split; [reflexivity|]. split; [apply Hx; reflexivity|constructor].
  - assert (N : ~ of_class c (l_elt x)) by (intros Q; apply Hx in Q; discriminate). destruct (find _ a) as [y|].
    + destruct IH as (a1 & z & a2 & -> & E1 & E2 & E3). exists (x :: a1), z, a2. split; [reflexivity|]. split; [exact E1|]. split; [exact E2|constructor; assumption].
    + constructor; assumption.
Qed.
Lemma sel_first c e : listed cSegment c -> (sel c None (f_level1 f) = Some e <-> first_level1 c f e).
Proof.
  intros Hl. pose proof (sel_split c (f_level1 f) [] Hl ltac:(rewrite app_nil_r; reflexivity)) as H. split.
  - intros E. rewrite E in H. destruct H as (a & x & b & H1 & H2 & H3). exists a, x, b. auto.
  - intros (a & x & b & E & Ex & Hc & Hn). destruct (sel c None (f_level1 f)) as [e'|].
    + destruct H as (a' & x' & b' & E' & <- & Hc' & Hn'). f_equal. fold (l_elt x) in Ex. subst e. rewrite E in E'. clear E. f_equal. revert a' E' Hn'. induction a as [|y a IH]; intros [|y' a'] E' Hn'; cbn [app] in E'.
      * congruence.
      * injection E' as -> E'. apply Forall_cons_iff in Hn'. destruct Hn' as [N _]. contradiction.
      * injection E' as -> E'. apply Forall_cons_iff in Hn. destruct Hn as [N _]. contradiction.
      * injection E' as -> E'. apply Forall_cons_iff in Hn, Hn'. apply (IH (proj2 Hn) a' E' (proj2 Hn')).
    + rewrite E in H. apply Forall_app in H. destruct H as [_ H]. apply Forall_cons_iff in H. destruct H as [N _]. fold (l_elt x) in Ex. subst e. contradiction.
Qed.
End F.
