(** The theorems on string elements: calls in order end well, elements do not disturb each other, and
    tidy histories give everything back. *)
From Verif Require Import Base BaseProofs Ebml Stream Tree StrMem StrMemSpec StrMemProofs StrMemProofs2.

Lemma step_done h m o : happens h m -> orderly h = true -> in_order h o = true -> exists m' r, step m o = Done (m', r).
Proof.
  intros H D I. pose proof (happens_owned h m H) as O. pose proof (happens_sound h m H D) as S. unfold step.
  destruct o as [d sd ok|d n|k s ok|k nd src ok|k|k wd|k wd|k ok|k]; cbn [in_order] in I;
    try (destruct (m_elts m k) as [e|] eqn:E; [|eauto]; destruct (S k e E) as (S1 & S2 & S3 & S4)).
  - unfold create_elt. destruct sd; [|cbn; eauto]. destruct d; [|cbn; eauto].
    unfold set_value. cbn [new_elt s_set obind]. destruct ok; cbn [salloc obind]; cbn; eauto.
  - cbn. eauto.
  - destruct (set_value_done m k e s ok O E) as (m' & e' & c & ->). cbn. eauto.
  - destruct (read_data_done m e nd src ok) as (m' & e' & c & ->). cbn. eauto.
  - unfold get_text. destruct (s_buf e) as [b|] eqn:B; [|cbn; eauto].
    destruct (stext_sound m e S4 ltac:(congruence)) as (b1 & l & t & _ & _ & _ & T & _). rewrite B in T. rewrite T. cbn. eauto.
  - destruct (update_sound m e wd S4 S3) as (e2 & n2 & -> & _); [|cbn; eauto].
    rewrite S1, S2. destruct (valued h k); [auto|]. right. destruct wd; [discriminate|]. auto.
  - destruct (render_sound m e wd S4 S3) as (e2 & n2 & -> & _); [|cbn; eauto].
    rewrite S1, S2. destruct (valued h k); [auto|]. right. cbn in I. now apply negb_true_iff in I.
  - destruct (copy_sound m e S4 (S3 ltac:(congruence)) ok) as (m1 & e1 & -> & _). cbn [obind].
    destruct e1; cbn; eauto.
  - destruct (own_free m k e O E) as (m' & ->). cbn. eauto.
Qed.

(** ** What is told *)
Lemma tells_iff m k t : tells m k t <-> exists e, m_elts m k = Some e /\ get_text m e = Done t.
Proof.
  unfold tells, step. split.
  - intros (m' & E). destruct (m_elts m k) as [e|]; [|discriminate]. exists e. split; [auto|].
    destruct (get_text m e); try discriminate. cbn in E. congruence.
  - intros (e & -> & ->). exists m. reflexivity.
Qed.
Lemma get_text_same m m' e e' : s_buf e' = s_buf e -> (forall b, s_buf e = Some b -> m_blocks m' b = m_blocks m b) ->
  get_text m' e' = get_text m e.
Proof.
  intros B H. unfold get_text. rewrite B. destruct (s_buf e) as [b|]; [|auto]. cbn. rewrite (H b eq_refl). auto.
Qed.

Lemma set_tells m k s m' : ~ In 0 s -> step m (OSet k s true) = Done (m', RCode ERR_NONE) -> tells m' k s.
Proof.
  intros N E. unfold step in E. destruct (m_elts m k) as [e|] eqn:Ek; [|discriminate].
  destruct (set_value m e s true) as [| | |[[m1 e1] c]] eqn:V; try discriminate. cbn [obind] in E. injection E as <- ->.
  apply set_value_sound in V. destruct V as (_ & _ & _ & _ & b & V2 & V3).
  apply tells_iff. exists e1. unfold with_elt. cbn [m_elts]. rewrite put_same. split; [auto|]. unfold get_text. rewrite V2. cbn. rewrite V3.
  rewrite ctext_app by auto. auto.
Qed.
Lemma read_tells h m k src ok m' n : happens h m -> orderly h = true -> size_told m k n ->
  step m (ORead k false (Some src) ok) = Done (m', RCode ERR_NONE) ->
  0 <= n <= zlen src /\ exists t, text_of t (firstn (Z.to_nat n) src) /\ tells m' k t.
Proof.
  intros H D (e0 & Ek & <-) E. pose proof (happens_sound h m H D k e0 Ek) as (_ & _ & _ & S4 & _).
  unfold step in E. rewrite Ek in E.
  destruct (read_data m e0 false (Some src) ok) as [| | |[[m1 e1] c]] eqn:V; try discriminate. cbn [obind] in E. injection E as <- ->.
  apply read_data_sound in V; [|auto]. destruct V as (_ & _ & _ & V4 & V5). cbn in V4.
  destruct V5 as [(V5 & _)|(_ & b & bs & [= <-] & V7 & V8 & V9)]; [congruence|]. split; [auto|].
  destruct (ctext_end (firstn (Z.to_nat (s_size e0)) src)) as (t & T1 & T2 & _). exists t. split; [auto|].
  apply tells_iff. exists e1. unfold with_elt. cbn [m_elts]. rewrite put_same. split; [auto|]. unfold get_text. rewrite V8. cbn. rewrite V9, T1. auto.
Qed.
Lemma others_tell h m o m' r k t : happens h m -> step m o = Done (m', r) -> target o <> Some k -> tells m k t -> tells m' k t.
Proof.
  intros H E N T. pose proof (happens_owned h m H) as O. apply tells_iff in T. destruct T as (f & Ef & Tf). apply tells_iff.
  pose proof (made_free m O) as MF. assert (Km : k <> m_made m) by congruence.
  unfold step in E. destruct o as [d sd ok|d n|j s ok|j nd src ok|j|j wd|j wd|j ok|j].
  - destruct (create_elt m d sd ok) as [| | |[m1 e]] eqn:C; try discriminate. cbn [obind add_elt] in E. injection E as <- <-.
    pose proof (create_change _ _ _ _ _ _ C) as (C1 & _). pose proof (change_elts _ _ _ _ C1) as (C5 & C6).
    exists f. cbn [m_elts]. rewrite C5, C6, put_other by auto. split; [auto|]. rewrite <- Tf. apply get_text_same; [auto|]. cbn [m_blocks].
    intros b Eb. eapply change_new_other; eauto.
  - cbn [add_elt] in E. injection E as <- <-. exists f. cbn [m_elts]. rewrite put_other by auto. split; [auto|]. rewrite <- Tf. apply get_text_same; auto.
  - assert (Nj : k <> j) by (intros ->; apply N; reflexivity).
    destruct (m_elts m j) as [e|] eqn:Ej; [|injection E as <- <-; eauto].
    destruct (set_value m e s ok) as [| | |[[m1 e1] c]] eqn:V; try discriminate. cbn [obind] in E. injection E as <- <-.
    apply set_value_change in V. pose proof (change_elts _ _ _ _ V) as (C5 & C6).
    exists f. unfold with_elt. cbn [m_elts]. rewrite C5, put_other by auto. split; [auto|]. rewrite <- Tf. apply get_text_same; [auto|]. cbn [m_blocks].
    intros b Eb. exact (change_other m j e m1 _ k f b O Ej V Nj Ef Eb).
  - assert (Nj : k <> j) by (intros ->; apply N; reflexivity).
    destruct (m_elts m j) as [e|] eqn:Ej; [|injection E as <- <-; eauto].
    destruct (read_data m e nd src ok) as [| | |[[m1 e1] c]] eqn:V; try discriminate. cbn [obind] in E. injection E as <- <-.
    apply read_data_change in V. pose proof (change_elts _ _ _ _ V) as (C5 & C6).
    exists f. unfold with_elt. cbn [m_elts]. rewrite C5, put_other by auto. split; [auto|]. rewrite <- Tf. apply get_text_same; [auto|]. cbn [m_blocks].
    intros b Eb. exact (change_other m j e m1 _ k f b O Ej V Nj Ef Eb).
  - assert (X : m' = m). { destruct (m_elts m j) as [e|]; [|congruence]. destruct (get_text m e); try discriminate. cbn in E. congruence. }
    subst. eauto.
  - destruct (m_elts m j) as [e|] eqn:Ej; [|injection E as <- <-; eauto].
    destruct (update_size m e wd) as [| | |[e1 n1]] eqn:U; try discriminate. cbn [obind] in E. injection E as <- <-.
    apply update_size_buf in U. destruct U as (U1 & _). unfold with_elt. cbn [m_elts].
    destruct (Nat.eq_dec k j) as [->|Nj].
    + exists e1. rewrite put_same. split; [auto|]. rewrite Ej in Ef. injection Ef as ->. rewrite <- Tf. apply get_text_same; auto.
    + exists f. rewrite put_other by auto. split; [auto|]. rewrite <- Tf. apply get_text_same; auto.
  - destruct (m_elts m j) as [e|] eqn:Ej; [|injection E as <- <-; eauto].
    destruct (render m e wd) as [| | |[e1 n1]] eqn:U; try discriminate. cbn [obind] in E. injection E as <- <-.
    apply render_buf in U. destruct U as (U1 & _). unfold with_elt. cbn [m_elts].
    destruct (Nat.eq_dec k j) as [->|Nj].
    + exists e1. rewrite put_same. split; [auto|]. rewrite Ej in Ef. injection Ef as ->. rewrite <- Tf. apply get_text_same; auto.
    + exists f. rewrite put_other by auto. split; [auto|]. rewrite <- Tf. apply get_text_same; auto.
  - destruct (m_elts m j) as [e|] eqn:Ej; [|injection E as <- <-; eauto].
    destruct (copy_elt m e ok) as [| | |[m1 e1]] eqn:C; try discriminate. cbn [obind] in E.
    apply copy_change in C. destruct e1 as [g|]; cbn [add_elt] in E; injection E as <- <-; [|subst; eauto].
    destruct C as (C & _). pose proof (change_elts _ _ _ _ C) as (C5 & C6).
    exists f. cbn [m_elts]. rewrite C5, C6, put_other by auto. split; [auto|]. rewrite <- Tf. apply get_text_same; [auto|]. cbn [m_blocks].
    intros b Eb. eapply change_new_other; eauto.
  - assert (Nj : k <> j) by (intros ->; apply N; reflexivity).
    destruct (m_elts m j) as [e|] eqn:Ej; [|injection E as <- <-; eauto].
    destruct (sfree m (s_buf e)) as [| | |m1] eqn:F; try discriminate. cbn [obind] in E. injection E as <- <-.
    assert (C : change m (s_buf e) m1 None). { apply sfree_done in F. destruct F as [->|(i & Ei & Eb & ->)]; econstructor; eauto. }
    pose proof (change_elts _ _ _ _ C) as (C5 & C6).
    exists f. unfold with_elt. cbn [m_elts]. rewrite C5, put_other by auto. split; [auto|]. rewrite <- Tf. apply get_text_same; [auto|]. cbn [m_blocks].
    intros b Eb. exact (change_other m j e m1 _ k f b O Ej C Nj Ef Eb).
Qed.
Lemma copy_tells h m k ok m' j t : happens h m -> orderly h = true -> in_order h (OCopy k ok) = true ->
  step m (OCopy k ok) = Done (m', RNew (Some j)) -> tells m k t -> tells m' j t /\ m_elts m j = None.
Proof.
  intros H D I E T. pose proof (happens_owned h m H) as O. apply tells_iff in T. destruct T as (f & Ef & Tf).
  destruct (happens_sound h m H D k f Ef) as (S1 & S2 & S3 & S4). cbn [in_order] in I.
  unfold step in E. rewrite Ef in E.
  destruct (copy_sound m f S4 (S3 ltac:(congruence)) ok) as (m1 & e1 & C & C1). rewrite C in E. cbn [obind] in E.
  apply copy_change in C. destruct e1 as [g|]; cbn [add_elt] in E; [|discriminate]. injection E as <- <-.
  destruct C as (C & C2 & _). destruct C1 as (_ & C1). pose proof (change_elts _ _ _ _ C) as (C5 & C6).
  rewrite C6. split; [|apply made_free; auto]. apply tells_iff. exists g. cbn [m_elts]. rewrite put_same. split; [auto|].
  unfold get_text in *. specialize (S3 ltac:(congruence)). destruct (s_buf f) as [b|]; [|congruence].
  specialize (C1 t Tf). destruct (s_buf g) as [b'|]; [|congruence]. cbn in *. exact C1.
Qed.

(** ** Nothing is lost *)
Definition all_held (m : smem) : Prop := forall b, m_blocks m b <> None -> exists k e, m_elts m k = Some e /\ s_buf e = Some b.
Definition tidy_inv (h : history) (m : smem) : Prop :=
  (forall k e, m_elts m k = Some e -> is_some (s_buf e) = stored h k /\ (s_buf e <> None -> s_set e = true) /\ (valued h k = true -> s_set e = true)) /\
  all_held m.
Definition lossless (m : smem) (b0 : option nat) (m1 : smem) (b1 : option nat) : Prop :=
  forall b, m_blocks m1 b <> None -> (m_blocks m b <> None /\ b0 <> Some b) \/ b1 = Some b.

Lemma change_lossless m m1 b1 : change m None m1 b1 -> lossless m None m1 b1.
Proof.
  intros C b Hb. inversion C; subst; cbn [m_blocks] in Hb; unfold put in Hb; try discriminate;
    repeat match goal with
           | H : context [Nat.eqb ?a ?b] |- _ => destruct (Nat.eqb_spec a b); subst
           end; try congruence; auto; left; split; auto; discriminate.
Qed.
Lemma set_lossless m e s ok m' e' c : (s_buf e <> None -> s_set e = true) -> set_value m e s ok = Done (m', e', c) ->
  lossless m (s_buf e) m' (s_buf e') /\ is_some (s_buf e') = ok /\ c = (if ok then ERR_NONE else ERR_OUT_OF_MEMORY) /\
  s_set e' = (s_set e || ok).
Proof.
  intros N V. destruct (s_buf e) as [b|] eqn:B.
  - unfold set_value in V. rewrite N in V by discriminate. rewrite B in V. cbn [sfree] in V.
    destruct (m_blocks m b) eqn:Eb; cbn [obind] in V; [|discriminate].
    rewrite N by discriminate.
    destruct ok; cbn [salloc] in V; injection V as <- <- <-; cbn [s_buf s_set is_some m_blocks m_next]; (split; [|cbn; auto]).
    + intros b' H. cbn [m_blocks] in H. unfold put in H. destruct (Nat.eqb_spec b' (m_next m)); subst; auto.
      destruct (Nat.eqb_spec b' b); [congruence|]. left. split; [auto|congruence].
    + intros b' H. cbn [m_blocks] in H. unfold put in H. destruct (Nat.eqb_spec b' b); [congruence|]. left. split; [auto|congruence].
  - pose proof (set_value_change _ _ _ _ _ _ _ V) as C. rewrite B in C. split; [apply change_lossless; auto|].
    unfold set_value in V. rewrite B in V. cbn [sfree] in V.
    destruct (s_set e); cbn [obind] in V; destruct ok; cbn [salloc] in V; injection V as <- <- <-; cbn; auto.
Qed.
Lemma read_tidy m e nd src ok m' e' c : s_buf e = None -> read_data m e nd src ok = Done (m', e', c) ->
  is_some (s_buf e') = (negb nd && (c =? ERR_NONE)) /\ s_set e' = (negb nd && (c =? ERR_NONE)).
Proof.
  intros B. unfold read_data. destruct nd. { intros [= <- <- <-]. cbn. rewrite B. auto. }
  destruct src as [src|]; [|cbn; intros [= <- <- <-]; cbn; auto].
  destruct (2 ^ 64 - 2 <? s_size e mod 2 ^ 64). { cbn; intros [= <- <- <-]; cbn; auto. }
  destruct ok; cbn [salloc]; [|intros [= <- <- <-]; cbn; rewrite B; auto].
  destruct (zlen src <? s_size e).
  - cbn [sfree obind m_blocks]. rewrite put_same. intros [= <- <- <-]. cbn. auto.
  - intros [= <- <- <-]. cbn. auto.
Qed.
Lemma held_elt m k e m1 e1 : all_held m -> m_elts m k = Some e -> m_elts m1 = m_elts m -> lossless m (s_buf e) m1 (s_buf e1) ->
  all_held (with_elt m1 k (Some e1)).
Proof.
  intros A Ek Em L b Hb. unfold with_elt in *. cbn [m_blocks m_elts] in *. rewrite Em. destruct (L b Hb) as [(H1 & H2)|H1].
  - destruct (A b H1) as (j & f & Ej & Ef). exists j, f. rewrite put_other; [auto|]. intros ->. congruence.
  - exists k, e1. rewrite put_same. auto.
Qed.
Lemma held_new m m1 e1 : owned m -> all_held m -> m_elts m1 = m_elts m -> m_made m1 = m_made m -> lossless m None m1 (s_buf e1) ->
  all_held (SMem (m_blocks m1) (m_next m1) (put (m_elts m1) (m_made m1) (Some e1)) (S (m_made m1))).
Proof.
  intros O A Em Ed L b Hb. pose proof (made_free m O) as MF. cbn [m_blocks m_elts] in *. rewrite Em, Ed. destruct (L b Hb) as [(H1 & H2)|H1].
  - destruct (A b H1) as (j & f & Ej & Ef). exists j, f. rewrite put_other; [auto|]. intros ->. congruence.
  - exists (m_made m), e1. rewrite put_same. auto.
Qed.

Lemma step_tidy h m o m' r : happens h m -> tidy_inv h m -> tidy ((o, r) :: h) = true -> step m o = Done (m', r) -> tidy_inv ((o, r) :: h) m'.
Proof.
  intros H (S & A) I E. pose proof (happens_owned h m H) as O. pose proof (made_free m O) as MF.
  cbn [tidy] in I. apply andb_prop in I. destruct I as (I & _). unfold step in E.
  destruct o as [d sd ok|d n|k s ok|k nd src ok|k|k wd|k wd|k ok|k].
  - destruct (create_elt m d sd ok) as [| | |[m1 e]] eqn:C; try discriminate. cbn [obind add_elt] in E. injection E as <- <-.
    pose proof (create_change _ _ _ _ _ _ C) as (C1 & C2 & C3 & C4). pose proof (change_elts _ _ _ _ C1) as (C5 & C6). split.
    + intros j f. cbn [m_elts valued stored made]. rewrite C5, C6. unfold put. destruct (Nat.eqb_spec j (m_made m)) as [->|Nj].
      * intros [= <-]. rewrite Nat.eqb_refl, C3, C4. split; [auto|]. split; [|auto]. intros X. destruct (s_buf e); [|congruence]. cbn in C4. auto.
      * intros Ej. replace (Nat.eqb (m_made m) j) with false by (symmetry; apply Nat.eqb_neq; auto). apply S; auto.
    + apply (held_new m); auto. apply change_lossless. auto.
  - cbn [add_elt] in E. injection E as <- <-. split.
    + intros j f. cbn [m_elts valued stored made] in *. unfold put. destruct (Nat.eqb_spec j (m_made m)) as [->|Nj].
      * intros [= <-]. rewrite Nat.eqb_refl. cbn. repeat split; auto; congruence.
      * intros Ej. replace (Nat.eqb (m_made m) j) with false by (symmetry; apply Nat.eqb_neq; auto). apply S; auto.
    + apply (held_new m m); auto. apply change_lossless. constructor.
  - destruct (m_elts m k) as [e|] eqn:Ek.
    + destruct (set_value m e s ok) as [| | |[[m1 e1] c]] eqn:V; try discriminate. cbn [obind] in E. injection E as <- <-.
      destruct (S k e Ek) as (S1 & S2 & S3). pose proof (set_value_change _ _ _ _ _ _ _ V) as C. pose proof (change_elts _ _ _ _ C) as (C5 & C6).
      destruct (set_lossless _ _ _ _ _ _ _ S2 V) as (L & L1 & L2 & L3). split; [|eapply held_elt; eauto].
      intros j f. unfold with_elt. cbn [m_elts valued stored went_well]. rewrite C5. unfold put. destruct (Nat.eqb_spec j k) as [->|Nj].
      * intros [= <-]. rewrite Nat.eqb_refl. rewrite L1, L2, L3. destruct ok; cbn.
        -- rewrite orb_true_r. auto.
        -- rewrite orb_false_r. split; [auto|]. split; [|auto]. intros X. destruct (s_buf e1); [discriminate|congruence].
      * intros Ej. replace (Nat.eqb k j) with false by (symmetry; apply Nat.eqb_neq; auto). cbn [andb]. apply S; auto.
    + injection E as <- <-. split; [|auto]. intros j f Ej. cbn [valued stored went_well]. rewrite andb_false_r. apply S; auto.
  - destruct (m_elts m k) as [e|] eqn:Ek.
    + destruct (read_data m e nd src ok) as [| | |[[m1 e1] c]] eqn:V; try discriminate. cbn [obind] in E. injection E as <- <-.
      destruct (S k e Ek) as (S1 & S2 & S3). apply negb_true_iff in I. rewrite I in S1.
      assert (B : s_buf e = None) by (destruct (s_buf e); [discriminate|auto]).
      pose proof (read_data_change _ _ _ _ _ _ _ _ V) as C. pose proof (change_elts _ _ _ _ C) as (C5 & C6).
      destruct (read_tidy _ _ _ _ _ _ _ _ B V) as (L1 & L3). split.
      2: { eapply held_elt; eauto. rewrite B in C |- *. apply change_lossless. auto. }
      intros j f. unfold with_elt. cbn [m_elts valued stored went_well]. rewrite C5. unfold put. destruct (Nat.eqb_spec j k) as [->|Nj].
      * intros [= <-]. rewrite Nat.eqb_refl, L1, L3. split; [auto|]. split; [|auto]. intros X. rewrite <- L1. destruct (s_buf e1); [auto|congruence].
      * intros Ej. replace (Nat.eqb k j) with false by (symmetry; apply Nat.eqb_neq; auto). apply S; auto.
    + injection E as <- <-. split; [|auto]. intros j f Ej. cbn [valued stored]. apply S; auto.
  - assert (X : m' = m). { destruct (m_elts m k) as [e|]; [|congruence]. destruct (get_text m e); try discriminate. cbn in E. congruence. }
    subst. split; [|auto]. intros j f Ej. cbn [valued stored]. apply S; auto.
  - destruct (m_elts m k) as [e|] eqn:Ek; [|injection E as <- <-; split; [|auto]; intros j f Ej; cbn [valued stored]; apply S; auto].
    destruct (update_size m e wd) as [| | |[e1 n1]] eqn:U; try discriminate. cbn [obind] in E. injection E as <- <-.
    apply update_size_buf in U. destruct U as (U1 & U2 & U3). split.
    + intros j f. unfold with_elt. cbn [m_elts valued stored]. unfold put. destruct (Nat.eqb_spec j k) as [->|Nj]; [|apply S].
      intros [= <-]. rewrite U1, U2. apply S; auto.
    + eapply held_elt; eauto. rewrite U1. intros b Hb. destruct (s_buf e) as [i|]; [|left; split; [auto|discriminate]].
      destruct (Nat.eq_dec i b) as [->|]; [auto|left; split; [auto|congruence]].
  - destruct (m_elts m k) as [e|] eqn:Ek; [|injection E as <- <-; split; [|auto]; intros j f Ej; cbn [valued stored]; apply S; auto].
    destruct (render m e wd) as [| | |[e1 n1]] eqn:U; try discriminate. cbn [obind] in E. injection E as <- <-.
    apply render_buf in U. destruct U as (U1 & U2 & U3). split.
    + intros j f. unfold with_elt. cbn [m_elts valued stored]. unfold put. destruct (Nat.eqb_spec j k) as [->|Nj]; [|apply S].
      intros [= <-]. rewrite U1, U2. apply S; auto.
    + eapply held_elt; eauto. rewrite U1. intros b Hb. destruct (s_buf e) as [i|]; [|left; split; [auto|discriminate]].
      destruct (Nat.eq_dec i b) as [->|]; [auto|left; split; [auto|congruence]].
  - destruct (m_elts m k) as [e|] eqn:Ek; [|injection E as <- <-; split; [|auto]; intros j f Ej; cbn [valued stored made]; apply S; auto].
    destruct (copy_elt m e ok) as [| | |[m1 e1]] eqn:C; try discriminate. cbn [obind] in E.
    apply copy_change in C. destruct e1 as [g|]; cbn [add_elt] in E; injection E as <- <-.
    + destruct C as (C & C2 & C3 & _). pose proof (change_elts _ _ _ _ C) as (C5 & C6). destruct (S k e Ek) as (S1 & S2 & S3). split.
      * intros j f. cbn [m_elts valued stored made]. rewrite C5, C6. unfold put. destruct (Nat.eqb_spec j (m_made m)) as [->|Nj].
        -- intros [= <-]. rewrite Nat.eqb_refl, C3. split; [destruct (s_buf g); [auto|congruence]|]. auto.
        -- intros Ej. replace (Nat.eqb (m_made m) j) with false by (symmetry; apply Nat.eqb_neq; auto). apply S; auto.
      * apply (held_new m); auto. apply change_lossless. auto.
    + subst m1. split; [|auto]. intros j f Ej. cbn [valued stored made]. apply S; auto.
  - destruct (m_elts m k) as [e|] eqn:Ek; [|injection E as <- <-; split; [|auto]; intros j f Ej; cbn [valued stored]; apply S; auto].
    destruct (sfree m (s_buf e)) as [| | |m1] eqn:F; try discriminate. cbn [obind] in E. injection E as <- <-.
    assert (Q : m_elts m1 = m_elts m /\ forall b, m_blocks m1 b <> None -> m_blocks m b <> None /\ s_buf e <> Some b).
    { unfold sfree in F. destruct (s_buf e) as [i|]; [|injection F as <-; split; [auto|]; intros; split; [auto|discriminate]].
      destruct (m_blocks m i) eqn:Ei; [|discriminate]. injection F as <-. split; [auto|]. cbn [m_blocks]. intros b. unfold put.
      destruct (Nat.eqb_spec b i); [congruence|]. intros X. split; [auto|congruence]. }
    destruct Q as (Q1 & Q2). split.
    + intros j f. unfold with_elt. cbn [m_elts valued stored]. rewrite Q1. unfold put. destruct (Nat.eqb_spec j k) as [->|Nj]; [discriminate|]. apply S.
    + intros b Hb. unfold with_elt in *. cbn [m_blocks m_elts] in *. destruct (Q2 b Hb) as (H1 & H2). destruct (A b H1) as (j & f & Ej & Ef).
      exists j, f. rewrite Q1, put_other; [auto|]. intros ->. congruence.
Qed.
Lemma happens_tidy h m : happens h m -> tidy h = true -> tidy_inv h m.
Proof.
  induction 1 as [|h m o m' r H IH E]; intros D.
  - split; [discriminate|]. intros b X. cbn in X. congruence.
  - eapply step_tidy; eauto. apply IH. cbn [tidy] in D. apply andb_prop in D. apply D.
Qed.
