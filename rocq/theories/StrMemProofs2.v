(** What string elements tell, and what is left of them. *)
From Verif Require Import Base BaseProofs Ebml Stream Tree StrMem StrMemSpec StrMemProofs.

Lemma next_free m : owned m -> m_blocks m (m_next m) = None.
Proof.
  intros (_ & _ & O3 & _). destruct (m_blocks m (m_next m)) eqn:E; [|auto].
  exfalso. specialize (O3 (m_next m)). rewrite E in O3. assert (Some l <> None) by discriminate. specialize (O3 H). lia.
Qed.
Lemma made_free m : owned m -> m_elts m (m_made m) = None.
Proof.
  intros (_ & _ & _ & O4). destruct (m_elts m (m_made m)) eqn:E; [|auto].
  exfalso. specialize (O4 (m_made m)). rewrite E in O4. assert (Some s <> None) by discriminate. specialize (O4 H). lia.
Qed.
Lemma change_other m k e m1 b1 j f b : owned m -> m_elts m k = Some e -> change m (s_buf e) m1 b1 ->
  j <> k -> m_elts m j = Some f -> s_buf f = Some b -> m_blocks m1 b = m_blocks m b.
Proof.
  intros O Ek C N Ej Eb. pose proof (next_free m O) as F. destruct O as (O1 & O2 & O3 & O4).
  pose proof (O1 _ _ _ Ej Eb) as B.
  assert (X : forall i, s_buf e = Some i -> b <> i). { intros i Ei ->. apply N. eapply O2; eauto. }
  assert (Y : b <> m_next m) by congruence.
  inversion C; subst; cbn [m_blocks]; rewrite ?put_other by auto; auto.
Qed.
Lemma change_new_other m m1 b1 j f b : owned m -> change m None m1 b1 ->
  m_elts m j = Some f -> s_buf f = Some b -> m_blocks m1 b = m_blocks m b.
Proof.
  intros O C Ej Eb. pose proof (next_free m O) as F. destruct O as (O1 & O2 & O3 & O4).
  pose proof (O1 _ _ _ Ej Eb) as B.
  assert (Y : b <> m_next m) by congruence.
  inversion C; subst; cbn [m_blocks]; rewrite ?put_other by auto; auto; discriminate.
Qed.

(** ** Texts *)
Lemma ctext_app t r : ~ In 0 t -> ctext (t ++ 0 :: r) = Some t.
Proof.
  induction t as [|c t IH]; cbn; [auto|]. intros N. destruct (Z.eqb_spec c 0); [exfalso; auto|].
  rewrite IH by auto. reflexivity.
Qed.
Lemma ctext_spec l t : ctext l = Some t -> ~ In 0 t /\ exists r, l = t ++ 0 :: r.
Proof.
  revert t. induction l as [|c l IH]; cbn; [discriminate|]. intros t.
  destruct (Z.eqb_spec c 0) as [->|N].
  - intros [= <-]. split; [auto|]. exists l. reflexivity.
  - destruct (ctext l) as [u|] eqn:E; cbn; [|discriminate]. intros [= <-]. destruct (IH u eq_refl) as (A & r & ->).
    split; [|exists r; reflexivity]. intros [->|I]; auto.
Qed.
Lemma ctext_end bs : exists t, ctext (bs ++ [0]) = Some t /\ text_of t bs /\ zlen t <= zlen bs.
Proof.
  induction bs as [|c bs IH]; cbn [app ctext].
  - exists []. cbn. split; [auto|]. split; [|lia]. split; [auto|]. auto.
  - destruct (Z.eqb_spec c 0) as [->|N].
    + exists []. split; [auto|]. rewrite zlen_cons. split; [|pose proof (zlen_nonneg bs); cbn; lia]. split; [auto|]. right. exists bs. reflexivity.
    + destruct IH as (t & -> & (T1 & T2) & T3). exists (c :: t). cbn [option_map]. split; [auto|]. rewrite !zlen_cons. split; [|lia].
      split. { intros [->|I]; auto. } destruct T2 as [->|(r & ->)]; [auto|right; exists r; reflexivity].
Qed.
Lemma scopy_text l t n : ctext l = Some t -> zlen t < Z.of_nat n ->
  exists r, scopy l n = Some r /\ ctext r = Some t /\ length r = n.
Proof.
  revert t n. induction l as [|c l IH]; intros t n; cbn [ctext]; [discriminate|].
  destruct (Z.eqb_spec c 0) as [->|N].
  - intros [= <-] L. destruct n as [|n]; [cbn in L; lia|]. cbn [scopy]. rewrite Z.eqb_refl.
    exists (repeat 0 (S n)). split; [auto|]. split; [reflexivity|apply repeat_length].
  - destruct (ctext l) as [u|] eqn:E; cbn [option_map]; [|discriminate]. intros [= <-]. rewrite zlen_cons. intros L.
    destruct n as [|n]; [pose proof (zlen_nonneg u); lia|]. cbn [scopy]. rewrite (proj2 (Z.eqb_neq c 0) N).
    destruct (IH u n eq_refl ltac:(lia)) as (r & -> & R1 & R2). cbn [option_map]. exists (c :: r). split; [auto|].
    cbn [ctext length]. rewrite (proj2 (Z.eqb_neq c 0) N), R1. split; [reflexivity|lia].
Qed.

(** ** Orderly histories *)
Definition sound_buf (m : smem) (e : selt) : Prop :=
  -1 <= s_size e /\
  match s_buf e with
  | None => True
  | Some b => exists l t, m_blocks m b = Some l /\ ctext l = Some t /\ zlen t <= s_size e < zlen l
  end.
Definition sound (h : history) (m : smem) : Prop :=
  forall k e, m_elts m k = Some e ->
    s_set e = valued h k /\ is_some (s_def e) = defaulted h k /\ (s_set e = true -> s_buf e <> None) /\ sound_buf m e.

Lemma sound_buf_same m m' e : (forall b, s_buf e = Some b -> m_blocks m' b = m_blocks m b) -> sound_buf m e -> sound_buf m' e.
Proof.
  intros H (A & B). split; [auto|]. destruct (s_buf e) as [b|]; [|auto]. rewrite (H b eq_refl). auto.
Qed.

Lemma set_value_sound m e s m' e' c : set_value m e s true = Done (m', e', c) ->
  s_set e' = true /\ s_def e' = s_def e /\ c = ERR_NONE /\ s_size e' = zlen s /\
  exists b, s_buf e' = Some b /\ m_blocks m' b = Some (s ++ [0]).
Proof.
  unfold set_value, obind. destruct (if s_set e then _ else _) as [| | |m1]; try discriminate.
  cbn [salloc]. intros [= <- <- <-]. cbn. do 4 (split; [reflexivity|]). exists (m_next m1). split; [auto|]. apply put_same.
Qed.
Lemma firstn_zlen {A} (l : list A) n : 0 <= n <= zlen l -> zlen (firstn (Z.to_nat n) l) = n.
Proof. intros H. unfold zlen in *. rewrite firstn_length. lia. Qed.
Lemma read_data_sound m e nd src ok m' e' c : -1 <= s_size e -> read_data m e nd src ok = Done (m', e', c) ->
  s_def e' = s_def e /\ s_size e' = s_size e /\ s_need e' = s_need e /\ s_set e' = (negb nd && (c =? ERR_NONE)) /\
  ((s_set e' = false /\ (s_buf e' = None \/ (s_buf e' = s_buf e /\ m' = m))) \/
   (s_set e' = true /\ exists b bs, src = Some bs /\ 0 <= s_size e <= zlen bs /\ s_buf e' = Some b /\
      m_blocks m' b = Some (firstn (Z.to_nat (s_size e)) bs ++ [0]))).
Proof.
  intros L. unfold read_data. destruct nd. { intros [= <- <- <-]. cbn. auto 10. }
  destruct src as [src|]; [|cbn; intros [= <- <- <-]; cbn; auto 10].
  destruct (2 ^ 64 - 2 <? s_size e mod 2 ^ 64) eqn:G. { cbn; intros [= <- <- <-]; cbn; auto 10. }
  assert (P : 0 <= s_size e). { destruct (Z.eq_dec (s_size e) (-1)) as [E|]; [|lia]. rewrite E in G. discriminate. }
  destruct ok; cbn [salloc]; [|intros [= <- <- <-]; cbn; auto 10].
  destruct (zlen src <? s_size e) eqn:Q.
  - cbn [sfree obind m_blocks]. rewrite put_same. intros [= <- <- <-]. cbn. auto 10.
  - intros [= <- <- <-]. cbn [s_def s_size s_need s_set s_buf m_blocks]. do 4 (split; [reflexivity|]). right. split; [auto|].
    exists (m_next m), src. split; [auto|]. split; [lia|]. split; [auto|]. apply put_same.
Qed.

Lemma stext_sound m e : sound_buf m e -> s_buf e <> None ->
  exists b l t, s_buf e = Some b /\ m_blocks m b = Some l /\ ctext l = Some t /\ stext m (s_buf e) = Done t /\ zlen t <= s_size e < zlen l.
Proof.
  intros (_ & S) N. destruct (s_buf e) as [b|]; [|congruence]. destruct S as (l & t & B & T & Z).
  exists b, l, t. cbn. rewrite B, T. auto 10.
Qed.
Lemma is_def_done m e : sound_buf m e -> (s_set e = true -> s_buf e <> None) -> exists b, is_def m e = Done b.
Proof.
  intros S N. unfold is_def. destruct (s_def e); [|eauto]. destruct (s_set e); cbn [negb]; [|eauto].
  destruct (stext_sound m e S (N eq_refl)) as (b & t & u & _ & _ & _ & -> & _). cbn. eauto.
Qed.
Lemma update_sound m e wd : sound_buf m e -> (s_set e = true -> s_buf e <> None) ->
  s_set e = true \/ (wd = false /\ is_some (s_def e) = true) ->
  exists e' n, update_size m e wd = Done (e', n) /\ sound_buf m e'.
Proof.
  intros S N C. unfold update_size, needs.
  destruct (s_set e) eqn:Q.
  - destruct (stext_sound m e S (N eq_refl)) as (b & l & t & B & M & T & X & Z).
    assert (D : forall x, s_buf x = s_buf e -> exists d, is_def m x = Done d).
    { intros x Ex. unfold is_def. destruct (s_def x); [|eauto]. destruct (s_set x); cbn [negb]; [|eauto]. rewrite Ex, X. cbn. eauto. }
    assert (W : forall x, s_buf x = s_buf e -> zlen t <= s_size x <= s_size e -> sound_buf m x).
    { intros x Ex Lx. split; [pose proof (zlen_nonneg t); lia|]. rewrite Ex, B. exists l, t. split; [auto|]. split; [auto|lia]. }
    destruct (s_need e); cbn [negb].
    + destruct (D e eq_refl) as (d & Hd).
      destruct wd.
      * cbn [obind]. rewrite X. cbn [obind]. eexists _, _. split; [reflexivity|]. apply W; cbn; [auto|lia].
      * rewrite Hd. cbn [obind]. destruct d; cbn [negb obind].
        -- rewrite Hd. cbn [obind]. eexists _, _. split; [reflexivity|]. apply W; [auto|lia].
        -- rewrite X. cbn [obind].
           destruct (D (SElt (s_def e) (s_set e) true (zlen t) (s_buf e)) eq_refl) as (d2 & H2).
           destruct (D (SElt (s_def e) (s_set e) (s_need e) (zlen t) (s_buf e)) eq_refl) as (d3 & H3).
           match goal with |- context [is_def m ?x] => destruct (D x eq_refl) as (d4 & H4); rewrite H4 end. cbn [obind].
           destruct d4; eexists _, _; (split; [reflexivity|]); apply W; cbn; auto; lia.
    + cbn [obind]. destruct wd; cbn [obind].
      * eexists _, _. split; [reflexivity|]. apply W; cbn; auto; lia.
      * destruct (D e eq_refl) as (d & Hd). rewrite Hd. cbn [obind]. destruct d; eexists _, _; (split; [reflexivity|]); apply W; cbn; auto; lia.
  - destruct C as [C|(-> & C)]; [discriminate|]. destruct (s_def e) as [d|] eqn:Ed; [|discriminate].
    assert (Hd : is_def m e = Done true) by (unfold is_def; rewrite Ed, Q; reflexivity).
    destruct (s_need e); cbn [negb]; rewrite ?Hd; cbn [obind negb]; rewrite Hd; cbn [obind]; eauto.
Qed.
Lemma sbytes_done m e : sound_buf m e -> s_buf e <> None -> exists bs, sbytes m (s_buf e) (s_size e) = Done bs.
Proof.
  intros S N. destruct (stext_sound m e S N) as (b & l & t & B & M & T & X & Z). rewrite B. cbn. rewrite M.
  pose proof (zlen_nonneg t). replace ((0 <=? s_size e) && (s_size e <=? zlen l)) with true by lia. eauto.
Qed.
Lemma render_sound m e wd : sound_buf m e -> (s_set e = true -> s_buf e <> None) ->
  s_set e = true \/ (wd && is_some (s_def e)) = false ->
  exists e' n, render m e wd = Done (e', n) /\ sound_buf m e'.
Proof.
  intros S N C. unfold render. destruct (s_set e) eqn:Q; cbn [obind].
  - cbn [negb]. destruct (is_def_done m e S ltac:(rewrite Q; auto)) as (d & Hd).
    assert (E : exists d', (if wd then Done false else is_def m e) = Done d') by (destruct wd; eauto).
    destruct E as (d' & ->). cbn [obind]. destruct d'; [eauto|].
    assert (E : exists n, needs m e wd = Done n).
    { unfold needs. destruct (s_need e); cbn [negb]; [|eauto]. destruct wd; [eauto|]. rewrite Hd. cbn. eauto. }
    destruct E as (n & ->). cbn [obind]. destruct n.
    + destruct (update_sound m e wd S ltac:(rewrite Q; auto) (or_introl Q)) as (e1 & n1 & U & S1). rewrite U. cbn [obind].
      apply update_size_buf in U. destruct U as (U & _).
      destruct (sbytes_done m e1 S1) as (bs & ->). { rewrite U. auto. } cbn [obind]. eauto.
    + cbn [obind]. destruct (sbytes_done m e S (N eq_refl)) as (bs & ->). cbn [obind]. eauto.
  - destruct C as [C|C]; [discriminate|]. destruct wd; cbn [obind negb]; [|eauto].
    unfold is_def. destruct (s_def e); [discriminate|]. cbn [obind negb]. eauto.
Qed.
Lemma copy_sound m e : sound_buf m e -> s_buf e <> None -> forall ok,
  exists m' e', copy_elt m e ok = Done (m', e') /\
    match e' with
    | None => True
    | Some f => sound_buf m' f /\ (forall t, stext m (s_buf e) = Done t -> stext m' (s_buf f) = Done t)
    end.
Proof.
  intros S N ok. destruct (stext_sound m e S N) as (b & l & t & B & M & T & X & Z). pose proof (zlen_nonneg t).
  unfold copy_elt. destruct ok; cbn [negb obind salloc]; [|eexists _, _; split; [reflexivity|exact I]].
  destruct (Z.to_nat (s_size e + 1)) as [|n] eqn:En; [lia|]. rewrite B, M.
  destruct (scopy_text l t (Datatypes.S n) T ltac:(lia)) as (r & -> & R1 & R2). cbn [obind]. eexists _, _. split; [reflexivity|].
  split.
  - unfold sound_buf. cbn [s_size s_buf m_blocks]. split; [lia|]. exists r, t. rewrite put_same. split; [auto|]. split; [auto|].
    unfold zlen in *. lia.
  - intros u. rewrite B in X. rewrite X. intros [= <-]. cbn [s_buf stext m_blocks]. rewrite put_same, R1. auto.
Qed.

Lemma step_sound h m o m' r : happens h m -> sound h m -> in_order h o = true -> set_worked o = true ->
  step m o = Done (m', r) -> sound ((o, r) :: h) m'.
Proof.
  intros H S I W E. pose proof (happens_owned h m H) as O. pose proof (made_free m O) as MF. unfold step in E.
  destruct o as [d sd ok|d n|k s ok|k nd src ok|k|k wd|k wd|k ok|k].
  - destruct (create_elt m d sd ok) as [| | |[m1 e]] eqn:C; try discriminate. cbn [obind add_elt] in E. injection E as <- <-.
    pose proof (create_change _ _ _ _ _ _ C) as (C1 & C2 & C3 & C4). pose proof (change_elts _ _ _ _ C1) as (C5 & C6).
    intros j f. cbn [m_elts valued defaulted made]. rewrite C5, C6. unfold put. destruct (Nat.eqb_spec j (m_made m)) as [->|Nj].
    + intros [= <-]. rewrite Nat.eqb_refl, C3, C2. split; [auto|]. split; [auto|]. split.
      { intros X. rewrite X in C4. destruct (s_buf e); [discriminate|]. cbn in C4. congruence. }
      unfold create_elt in C. destruct sd; [|injection C as <- <-; split; cbn; [unfold INVALID_FILEPOS; lia|auto]].
      destruct d as [s|]; [|injection C as <- <-; split; cbn; [unfold INVALID_FILEPOS; lia|auto]].
      destruct (set_value m (new_elt (Some s)) s ok) as [| | |[[m2 e2] c]] eqn:V; try discriminate. cbn [obind] in C. injection C as -> ->.
      destruct ok.
      * apply set_value_sound in V. destruct V as (_ & _ & _ & V1 & b & V2 & V3). destruct (ctext_end s) as (t & T1 & T2 & T3).
        pose proof (zlen_nonneg s). split; [lia|]. rewrite V2. cbn [m_blocks]. exists (s ++ [0]), t. split; [auto|]. split; [auto|]. rewrite zlen_app. cbn. lia.
      * cbn in V. injection V as <- <- <-. split; cbn; [pose proof (zlen_nonneg s); lia|auto].
    + intros Ej. replace (Nat.eqb (m_made m) j) with false by (symmetry; apply Nat.eqb_neq; auto).
      destruct (S j f Ej) as (S1 & S2 & S3 & S4). do 3 (split; [auto|]). eapply sound_buf_same; [|exact S4]. cbn [m_blocks].
      intros b Eb. eapply change_new_other; eauto.
  - cbn [add_elt] in E. injection E as <- <-. intros j f. cbn [m_elts valued defaulted made in_order] in *. unfold put.
    destruct (Nat.eqb_spec j (m_made m)) as [->|Nj].
    + intros [= <-]. rewrite Nat.eqb_refl. cbn. repeat split; auto; try discriminate. cbn. lia.
    + intros Ej. replace (Nat.eqb (m_made m) j) with false by (symmetry; apply Nat.eqb_neq; auto). apply S; auto.
  - destruct (m_elts m k) as [e|] eqn:Ek.
    + cbn in W. subst ok. destruct (set_value m e s true) as [| | |[[m1 e1] c]] eqn:V; try discriminate. cbn [obind] in E. injection E as <- <-.
      pose proof (set_value_change _ _ _ _ _ _ _ V) as C. apply set_value_sound in V. destruct V as (V1 & V0 & -> & V2 & b & V3 & V4).
      pose proof (change_elts _ _ _ _ C) as (C5 & C6).
      intros j f. unfold with_elt. cbn [m_elts valued defaulted went_well]. rewrite C5. unfold put. destruct (Nat.eqb_spec j k) as [->|Nj].
      * intros [= <-]. rewrite Nat.eqb_refl. cbn [andb Z.eqb ERR_NONE]. destruct (S k e Ek) as (S1 & S2 & S3 & S4). rewrite V0.
        do 2 (split; [auto|]). split; [congruence|]. destruct (ctext_end s) as (t & T1 & T2 & T3).
        pose proof (zlen_nonneg s). split; [lia|]. rewrite V3. cbn [m_blocks]. exists (s ++ [0]), t. split; [auto|]. split; [auto|]. rewrite zlen_app. cbn. lia.
      * intros Ej. replace (Nat.eqb k j) with false by (symmetry; apply Nat.eqb_neq; auto). cbn [andb].
        destruct (S j f Ej) as (S1 & S2 & S3 & S4). do 3 (split; [auto|]). eapply sound_buf_same; [|exact S4]. cbn [m_blocks].
        intros b' Eb. exact (change_other m k e m1 _ j f b' O Ek C Nj Ej Eb).
    + injection E as <- <-. intros j f Ej. cbn [valued defaulted went_well]. rewrite andb_false_r. apply S; auto.
  - destruct (m_elts m k) as [e|] eqn:Ek.
    + destruct (read_data m e nd src ok) as [| | |[[m1 e1] c]] eqn:V; try discriminate. cbn [obind] in E. injection E as <- <-.
      destruct (S k e Ek) as (S1 & S2 & S3 & S4).
      pose proof (read_data_change _ _ _ _ _ _ _ _ V) as C. pose proof (read_data_sound _ _ _ _ _ _ _ _ (proj1 S4) V) as (V1 & V2 & V3 & V4 & V5).
      pose proof (change_elts _ _ _ _ C) as (C5 & C6).
      intros j f. unfold with_elt. cbn [m_elts valued defaulted went_well]. rewrite C5. unfold put. destruct (Nat.eqb_spec j k) as [->|Nj].
      * intros [= <-]. rewrite Nat.eqb_refl. split; [auto|]. rewrite V1. split; [auto|].
        destruct V5 as [(V5 & V6)|(V5 & b & bs & V6 & V7 & V8 & V9)].
        -- split; [congruence|]. destruct V6 as [V6|(V6 & ->)]; [split; [rewrite V2; apply S4|rewrite V6; auto]|].
           destruct S4 as (A & B). split; [rewrite V2; auto|]. rewrite V6, V2. exact B.
        -- split; [congruence|]. split; [lia|]. rewrite V8. cbn [m_blocks].
           destruct (ctext_end (firstn (Z.to_nat (s_size e)) bs)) as (t & T1 & T2 & T3). rewrite firstn_zlen in T3 by auto.
           eexists _, t. split; [exact V9|]. split; [auto|]. rewrite zlen_app, firstn_zlen by auto. rewrite V2. cbn. lia.
      * intros Ej. replace (Nat.eqb k j) with false by (symmetry; apply Nat.eqb_neq; auto).
        destruct (S j f Ej) as (S1' & S2' & S3' & S4'). do 3 (split; [auto|]). eapply sound_buf_same; [|exact S4']. cbn [m_blocks].
        intros b' Eb. exact (change_other m k e m1 _ j f b' O Ek C Nj Ej Eb).
    + injection E as <- <-. intros j f Ej. cbn [valued defaulted]. apply S; auto.
  - assert (X : m' = m). { destruct (m_elts m k) as [e|]; [|congruence]. destruct (get_text m e); try discriminate. cbn in E. congruence. }
    subst. intros j f Ej. cbn [valued defaulted]. apply S; auto.
  - destruct (m_elts m k) as [e|] eqn:Ek; [|injection E as <- <-; intros j f Ej; cbn [valued defaulted]; apply S; auto].
    destruct (update_size m e wd) as [| | |[e1 n1]] eqn:U; try discriminate. cbn [obind] in E. injection E as <- <-.
    destruct (S k e Ek) as (S1 & S2 & S3 & S4). cbn [in_order] in I.
    destruct (update_sound m e wd S4 S3) as (e2 & n2 & U2 & S5).
    { rewrite S1, S2. destruct (valued h k); [auto|]. right. destruct wd; [discriminate|]. auto. }
    rewrite U in U2. injection U2 as <- <-. apply update_size_buf in U. destruct U as (U1 & U2 & U3).
    intros j f. unfold with_elt. cbn [m_elts valued defaulted]. unfold put. destruct (Nat.eqb_spec j k) as [->|Nj]; [|apply S].
    intros [= <-]. rewrite U1, U2, U3. auto.
  - destruct (m_elts m k) as [e|] eqn:Ek; [|injection E as <- <-; intros j f Ej; cbn [valued defaulted]; apply S; auto].
    destruct (render m e wd) as [| | |[e1 n1]] eqn:U; try discriminate. cbn [obind] in E. injection E as <- <-.
    destruct (S k e Ek) as (S1 & S2 & S3 & S4). cbn [in_order] in I.
    destruct (render_sound m e wd S4 S3) as (e2 & n2 & U2 & S5).
    { rewrite S1, S2. destruct (valued h k); [auto|]. right. cbn in I. now apply negb_true_iff in I. }
    rewrite U in U2. injection U2 as <- <-. apply render_buf in U. destruct U as (U1 & U2 & U3).
    intros j f. unfold with_elt. cbn [m_elts valued defaulted]. unfold put. destruct (Nat.eqb_spec j k) as [->|Nj]; [|apply S].
    intros [= <-]. rewrite U1, U2, U3. auto.
  - destruct (m_elts m k) as [e|] eqn:Ek; [|injection E as <- <-; intros j f Ej; cbn [valued defaulted made]; apply S; auto].
    destruct (S k e Ek) as (S1 & S2 & S3 & S4). cbn [in_order] in I.
    destruct (copy_sound m e S4 (S3 ltac:(congruence)) ok) as (m1 & e1 & C & C1). rewrite C in E. cbn [obind] in E.
    pose proof (copy_change _ _ _ _ _ C) as C2.
    destruct e1 as [f1|]; cbn [add_elt] in E; injection E as <- <-.
    + destruct C2 as (C2 & C3 & C4 & C5 & _). destruct C1 as (C1 & _). pose proof (change_elts _ _ _ _ C2) as (C6 & C7).
      intros j f. cbn [m_elts valued defaulted made]. rewrite C6, C7. unfold put. destruct (Nat.eqb_spec j (m_made m)) as [->|Nj].
      * intros [= <-]. rewrite Nat.eqb_refl, C4, C5. do 2 (split; [auto|]). split; [auto|]. exact C1.
      * intros Ej. replace (Nat.eqb (m_made m) j) with false by (symmetry; apply Nat.eqb_neq; auto).
        destruct (S j f Ej) as (S1' & S2' & S3' & S4'). do 3 (split; [auto|]). eapply sound_buf_same; [|exact S4']. cbn [m_blocks].
        intros b' Eb. eapply change_new_other; eauto.
    + subst m1. intros j f Ej. cbn [valued defaulted made]. apply S; auto.
  - destruct (m_elts m k) as [e|] eqn:Ek; [|injection E as <- <-; intros j f Ej; cbn [valued defaulted]; apply S; auto].
    destruct (sfree m (s_buf e)) as [| | |m1] eqn:F; try discriminate. cbn [obind] in E. injection E as <- <-.
    intros j f. unfold with_elt. cbn [m_elts valued defaulted].
    assert (C : change m (s_buf e) m1 None). { apply sfree_done in F. destruct F as [->|(i & Ei & Eb & ->)]; econstructor; eauto. }
    pose proof (change_elts _ _ _ _ C) as (C6 & C7). rewrite C6.
    unfold put. destruct (Nat.eqb_spec j k) as [->|Nj]; [discriminate|]. intros Ej.
    destruct (S j f Ej) as (S1' & S2' & S3' & S4'). do 3 (split; [auto|]). eapply sound_buf_same; [|exact S4']. cbn [m_blocks].
    intros b' Eb. exact (change_other m k e m1 _ j f b' O Ek C Nj Ej Eb).
Qed.
Lemma happens_sound h m : happens h m -> orderly h = true -> sound h m.
Proof.
  induction 1 as [|h m o m' r H IH E]; intros D.
  - intros k e. discriminate.
  - cbn [orderly] in D. apply andb_prop in D. destruct D as (D & D3). apply andb_prop in D. destruct D as (D1 & D2). eapply step_sound; eauto.
Qed.
