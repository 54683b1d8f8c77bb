(** Proofs about the storage of string elements. *)
From Verif Require Import Base Ebml Stream Tree StrMem StrMemSpec.

(** ** Ownership *)
Definition owned (m : smem) : Prop :=
  (forall k e b, m_elts m k = Some e -> s_buf e = Some b -> m_blocks m b <> None) /\
  (forall j k e f b, m_elts m j = Some e -> m_elts m k = Some f -> s_buf e = Some b -> s_buf f = Some b -> j = k) /\
  (forall b, m_blocks m b <> None -> (b < m_next m)%nat) /\
  (forall k, m_elts m k <> None -> (k < m_made m)%nat).

Lemma put_same {A} (t : tbl A) k v : put t k v k = v.
Proof. unfold put. now rewrite Nat.eqb_refl. Qed.
Lemma put_other {A} (t : tbl A) k v j : j <> k -> put t k v j = t j.
Proof. intros H. unfold put. destruct (Nat.eqb_spec j k); congruence. Qed.

(** The shapes of a change to one element. *)
(** free or drop what the element had, or keep it; then give it nothing or a new block. *)
Lemma sfree_done m b m' : sfree m b = Done m' ->
  m' = m \/ exists i, b = Some i /\ m_blocks m i <> None /\ m' = SMem (put (m_blocks m) i None) (m_next m) (m_elts m) (m_made m).
Proof.
  unfold sfree. destruct b as [i|]; [|intros [= <-]; auto].
  destruct (m_blocks m i) eqn:E; [|discriminate]. intros [= <-]. right. exists i. rewrite E. split; [auto|]. split; [discriminate|auto].
Qed.
Lemma sfree_null m b m' : sfree m b = Done m' -> b = None -> m' = m.
Proof. intros H ->. cbn in H. congruence. Qed.

(** How the storage can change around an element with buffer [b0]: freed blocks are [b0]'s. *)
Inductive change (m : smem) (b0 : option nat) : smem -> option nat -> Prop :=
| ch_keep : change m b0 m b0
| ch_drop : change m b0 m None
| ch_free i : b0 = Some i -> m_blocks m i <> None ->
    change m b0 (SMem (put (m_blocks m) i None) (m_next m) (m_elts m) (m_made m)) None
| ch_new l : change m b0 (SMem (put (m_blocks m) (m_next m) (Some l)) (S (m_next m)) (m_elts m) (m_made m)) (Some (m_next m))
| ch_tried l : change m b0 (SMem (put (put (m_blocks m) (m_next m) (Some l)) (m_next m) None) (S (m_next m)) (m_elts m) (m_made m)) None
| ch_free_new i l : b0 = Some i -> m_blocks m i <> None ->
    change m b0 (SMem (put (put (m_blocks m) i None) (m_next m) (Some l)) (S (m_next m)) (m_elts m) (m_made m)) (Some (m_next m)).

Lemma set_value_change m e s ok m' e' c : set_value m e s ok = Done (m', e', c) -> change m (s_buf e) m' (s_buf e').
Proof.
  unfold set_value, obind.
  destruct (s_set e).
  - destruct (sfree m (s_buf e)) eqn:F; try discriminate. apply sfree_done in F.
    destruct F as [->|(i & Eb & Eb' & ->)]; destruct ok; cbn [salloc m_blocks m_next m_elts m_made]; intros [= <- <- <-]; cbn [s_buf];
      try rewrite Eb; try constructor; auto.
  - destruct ok; cbn [salloc]; intros [= <- <- <-]; cbn [s_buf]; constructor.
Qed.
Lemma read_data_change m e nd src ok m' e' c : read_data m e nd src ok = Done (m', e', c) -> change m (s_buf e) m' (s_buf e').
Proof.
  unfold read_data. destruct nd. { intros [= <- <- <-]. constructor. }
  destruct src as [src|]; [|cbn; intros [= <- <- <-]; constructor].
  destruct (2 ^ 64 - 2 <? s_size e mod 2 ^ 64). { cbn; intros [= <- <- <-]; constructor. }
  destruct ok; cbn [salloc]; [|intros [= <- <- <-]; constructor].
  destruct (zlen src <? s_size e); [|intros [= <- <- <-]; constructor].
  cbn [sfree obind m_blocks]. rewrite put_same. intros [= <- <- <-]. cbn [s_buf m_blocks m_next m_elts m_made]. constructor.
Qed.

Lemma change_owned m k e m1 b1 e1 : owned m -> m_elts m k = Some e -> change m (s_buf e) m1 b1 -> s_buf e1 = b1 ->
  owned (with_elt m1 k (Some e1)).
Proof.
  intros (O1 & O2 & O3 & O4) Ek C E1.
  assert (N : m_blocks m (m_next m) = None).
  { destruct (m_blocks m (m_next m)) eqn:E; [|auto]. exfalso. specialize (O3 (m_next m)). rewrite E in O3. assert (Some l <> None) by discriminate. specialize (O3 H). lia. }
  assert (K : (k < m_made m)%nat) by (apply O4; congruence).
  inversion C; subst; clear C; unfold owned, with_elt; cbn [m_blocks m_next m_elts m_made];
    (split; [|split; [|split]]); intros; unfold put in *;
    repeat match goal with
           | H : context [Nat.eqb ?a ?b] |- _ => destruct (Nat.eqb_spec a b); subst
           | |- context [Nat.eqb ?a ?b] => destruct (Nat.eqb_spec a b); subst
           | H : Some _ = Some _ |- _ => injection H; clear H; intros; subst
           end; try congruence; try lia; eauto;
    try (match goal with H : _ <> None |- (_ < S _)%nat => apply O3 in H; lia end);
    try (exfalso; match goal with
         | H : m_elts ?mm ?a = Some ?x, H' : s_buf ?x = Some ?b |- _ => apply (O1 _ _ _ H H'); replace b with (m_next mm) by congruence; exact N
         end);
    try (match goal with H : m_elts ?mm k = Some e, H' : s_buf e = s_buf ?f, H'' : s_buf ?f = Some ?b |- _ =>
           rewrite <- H' in *; solve [eauto | symmetry; eauto] end);
    try (match goal with H : m_elts ?mm ?a = Some ?x, H' : s_buf ?x = Some ?i, B : s_buf e = Some ?i |- _ =>
           exfalso; assert (a = k) by (eapply O2; eauto); congruence end).
Qed.
Lemma change_elts m b0 m1 b1 : change m b0 m1 b1 -> m_elts m1 = m_elts m /\ m_made m1 = m_made m.
Proof. intros C. inversion C; auto. Qed.

Lemma new_owned m m1 b1 e1 : owned m -> change m None m1 b1 -> s_buf e1 = b1 ->
  owned (SMem (m_blocks m1) (m_next m1) (put (m_elts m1) (m_made m1) (Some e1)) (S (m_made m1))).
Proof.
  intros (O1 & O2 & O3 & O4) C E1.
  assert (N : m_blocks m (m_next m) = None).
  { destruct (m_blocks m (m_next m)) eqn:E; [|auto]. exfalso. specialize (O3 (m_next m)). rewrite E in O3. assert (Some l <> None) by discriminate. specialize (O3 H). lia. }
  assert (K : m_elts m (m_made m) = None).
  { destruct (m_elts m (m_made m)) eqn:E; [|auto]. exfalso. specialize (O4 (m_made m)). rewrite E in O4. assert (Some s <> None) by discriminate. specialize (O4 H). lia. }
  inversion C; subst; clear C; try discriminate; unfold owned; cbn [m_blocks m_next m_elts m_made];
    (split; [|split; [|split]]); intros; unfold put in *;
    repeat match goal with
           | H : context [Nat.eqb ?a ?b] |- _ => destruct (Nat.eqb_spec a b); subst
           | |- context [Nat.eqb ?a ?b] => destruct (Nat.eqb_spec a b); subst
           | H : Some _ = Some _ |- _ => injection H; clear H; intros; subst
           end; try congruence; try lia; eauto;
    try (match goal with H : m_blocks _ _ <> None |- (_ < S _)%nat => apply O3 in H; lia end);
    try (match goal with H : m_elts _ _ <> None |- (_ < S _)%nat => apply O4 in H; lia end);
    try (exfalso; match goal with
         | H : m_elts ?mm ?a = Some ?x, H' : s_buf ?x = Some ?b |- _ => apply (O1 _ _ _ H H'); replace b with (m_next mm) by congruence; exact N
         end).
Qed.

Lemma update_size_buf m e wd e' n : update_size m e wd = Done (e', n) -> s_buf e' = s_buf e /\ s_set e' = s_set e /\ s_def e' = s_def e.
Proof.
  unfold update_size, obind. destruct (needs m e wd) as [| | |b]; try discriminate.
  destruct b.
  - destruct (stext m (s_buf e)); try discriminate.
    destruct (if wd then _ else _) as [| | |d]; try discriminate. destruct d; intros [= <- <-]; auto.
  - destruct (if wd then _ else _) as [| | |d]; try discriminate. destruct d; intros [= <- <-]; auto.
Qed.
Lemma render_buf m e wd e' n : render m e wd = Done (e', n) -> s_buf e' = s_buf e /\ s_set e' = s_set e /\ s_def e' = s_def e.
Proof.
  unfold render, obind. destruct (if s_set e then _ else _) as [| | |g]; try discriminate.
  destruct g; cbn [negb]; [|intros [= <- <-]; auto].
  destruct (if wd then _ else _) as [| | |d]; try discriminate.
  destruct d; [intros [= <- <-]; auto|].
  destruct (needs m e wd) as [| | |b]; try discriminate.
  destruct b.
  - destruct (update_size m e wd) as [| | |[e1 n1]] eqn:U; try discriminate. apply update_size_buf in U.
    destruct (sbytes _ _ _); try discriminate. intros [= <- <-]. auto.
  - destruct (sbytes _ _ _); try discriminate. intros [= <- <-]. auto.
Qed.
Lemma copy_change m e ok m' e' : copy_elt m e ok = Done (m', e') ->
  match e' with
  | None => m' = m
  | Some f => change m None m' (s_buf f) /\ s_buf f <> None /\ s_set f = s_set e /\ s_def f = s_def e /\ s_need f = s_need e /\ s_size f = s_size e /\ ok = true
  end.
Proof.
  unfold copy_elt, obind. destruct (if negb ok then _ else _) as [| | |bs]; try discriminate.
  destruct ok; cbn [salloc]; intros [= <- <-]; [|reflexivity].
  cbn [s_buf s_set s_def s_need s_size]. split; [constructor|]. repeat split. discriminate.
Qed.
Lemma create_change m d sd ok m' e : create_elt m d sd ok = Done (m', e) ->
  change m None m' (s_buf e) /\ s_def e = d /\ s_set e = (sd && is_some d && ok) /\ is_some (s_buf e) = (sd && is_some d && ok).
Proof.
  unfold create_elt. destruct sd; [|intros [= <- <-]; repeat split; constructor].
  destruct d as [s|]; [|intros [= <- <-]; repeat split; constructor].
  unfold obind, set_value. cbn [new_elt s_set s_buf s_def s_need]. cbn [obind].
  destruct ok; cbn [salloc]; intros [= <- <-]; cbn [s_buf s_set s_def is_some andb]; repeat split; constructor.
Qed.

Lemma step_owned m o m' r : owned m -> step m o = Done (m', r) -> owned m'.
Proof.
  intros O. unfold step.
  destruct o as [d sd ok|d n|k s ok|k nd src ok|k|k wd|k wd|k ok|k].
  - unfold obind. destruct (create_elt m d sd ok) as [| | |[m1 e]] eqn:C; try discriminate.
    apply create_change in C. destruct C as (C & _). cbn [add_elt]. intros [= <- <-]. eapply new_owned; eauto.
  - cbn [add_elt]. intros [= <- <-]. eapply (new_owned m m None); [auto|constructor|reflexivity].
  - destruct (m_elts m k) as [e|] eqn:E; [|intros [= <- <-]; auto].
    unfold obind. destruct (set_value m e s ok) as [| | |[[m1 e1] c]] eqn:C; try discriminate.
    apply set_value_change in C. intros [= <- <-]. eapply change_owned; eauto.
  - destruct (m_elts m k) as [e|] eqn:E; [|intros [= <- <-]; auto].
    unfold obind. destruct (read_data m e nd src ok) as [| | |[[m1 e1] c]] eqn:C; try discriminate.
    apply read_data_change in C. intros [= <- <-]. eapply change_owned; eauto.
  - destruct (m_elts m k) as [e|] eqn:E; [|intros [= <- <-]; auto].
    unfold obind. destruct (get_text m e); try discriminate. intros [= <- <-]; auto.
  - destruct (m_elts m k) as [e|] eqn:E; [|intros [= <- <-]; auto].
    unfold obind. destruct (update_size m e wd) as [| | |[e1 c]] eqn:C; try discriminate.
    apply update_size_buf in C. destruct C as (C & _). intros [= <- <-]. eapply (change_owned m k e m (s_buf e)); eauto. constructor.
  - destruct (m_elts m k) as [e|] eqn:E; [|intros [= <- <-]; auto].
    unfold obind. destruct (render m e wd) as [| | |[e1 c]] eqn:C; try discriminate.
    apply render_buf in C. destruct C as (C & _). intros [= <- <-]. eapply (change_owned m k e m (s_buf e)); eauto. constructor.
  - destruct (m_elts m k) as [e|] eqn:E; [|intros [= <- <-]; auto].
    unfold obind. destruct (copy_elt m e ok) as [| | |[m1 e1]] eqn:C; try discriminate.
    apply copy_change in C. destruct e1 as [f|]; cbn [add_elt]; intros [= <- <-]; [|congruence].
    destruct C as (C & _). eapply new_owned; eauto.
  - destruct (m_elts m k) as [e|] eqn:E; [|intros [= <- <-]; auto].
    unfold obind. destruct (sfree m (s_buf e)) as [| | |m1] eqn:F; try discriminate. intros [= <- <-].
    destruct O as (O1 & O2 & O3 & O4). apply sfree_done in F.
    destruct F as [->|(i & Eb & Ei & ->)]; unfold owned, with_elt; cbn [m_blocks m_next m_elts m_made];
      (split; [|split; [|split]]); intros; unfold put in *;
      repeat match goal with
             | H : context [Nat.eqb ?a ?b] |- _ => destruct (Nat.eqb_spec a b); subst
             | |- context [Nat.eqb ?a ?b] => destruct (Nat.eqb_spec a b); subst
             end; try congruence; eauto.
Qed.
Lemma happens_owned h m : happens h m -> owned m.
Proof.
  induction 1 as [|h m o m' r _ IH S].
  - unfold owned, sm_start. cbn. repeat split; intros; try discriminate; congruence.
  - eapply step_owned; eauto.
Qed.

Lemma needs_no_free m e wd : needs m e wd <> WrongFree.
Proof.
  unfold needs, is_def, obind, stext. destruct (s_need e); cbn [negb]; [|discriminate]. destruct wd; [discriminate|].
  destruct (s_def e); [|discriminate]. destruct (s_set e); cbn [negb]; [|discriminate].
  destruct (s_buf e) as [b|]; [|discriminate]. destruct (m_blocks m b) as [l1|]; [|discriminate]. destruct (ctext l1); discriminate.
Qed.
Lemma is_def_no_free m e : is_def m e <> WrongFree.
Proof.
  unfold is_def, obind, stext. 
  destruct (s_def e); [|discriminate]. destruct (s_set e); cbn [negb]; [|discriminate].
  destruct (s_buf e) as [b|]; [|discriminate]. destruct (m_blocks m b) as [l1|]; [|discriminate]. destruct (ctext l1); discriminate.
Qed.
Lemma stext_no_free m b : stext m b <> WrongFree.
Proof. unfold stext. destruct b as [b|]; [|discriminate]. destruct (m_blocks m b) as [l1|]; [|discriminate]. destruct (ctext l1); discriminate. Qed.
Lemma sbytes_no_free m b n : sbytes m b n <> WrongFree.
Proof. unfold sbytes. destruct b as [b|]; [|destruct (n =? 0); discriminate]. destruct (m_blocks m b) as [l|]; [|discriminate]. destruct (_ && _); discriminate. Qed.
Lemma update_no_free m e wd : update_size m e wd <> WrongFree.
Proof.
  unfold update_size, obind. pose proof (needs_no_free m e wd). destruct (needs m e wd) as [| | |b]; try discriminate; [congruence|].
  pose proof (stext_no_free m (s_buf e)).
  destruct b.
  - destruct (stext m (s_buf e)); try discriminate; [congruence|].
    match goal with |- context [is_def m ?x] => pose proof (is_def_no_free m x) end.
    destruct wd; [discriminate|].
    match goal with |- context [is_def m ?x] => destruct (is_def m x) as [| | |[]] end; try discriminate; congruence.
  - pose proof (is_def_no_free m e). destruct wd; [discriminate|]. destruct (is_def m e) as [| | |[]]; try discriminate; congruence.
Qed.
Lemma render_no_free m e wd : render m e wd <> WrongFree.
Proof.
  unfold render, obind. pose proof (is_def_no_free m e). pose proof (needs_no_free m e wd). pose proof (update_no_free m e wd).
  assert (G : (if s_set e then Done true else if wd then is_def m e else Done false) <> WrongFree)
    by (destruct (s_set e); [discriminate|destruct wd; [auto|discriminate]]).
  destruct (if s_set e then _ else _) as [| | |g]; try discriminate; [congruence|].
  destruct (negb g); [discriminate|].
  assert (D : (if wd then Done false else is_def m e) <> WrongFree) by (destruct wd; [discriminate|auto]).
  destruct (if wd then _ else _) as [| | |d]; try discriminate; [congruence|].
  destruct d; [discriminate|].
  destruct (needs m e wd) as [| | |b]; try discriminate; [congruence|].
  destruct b.
  - destruct (update_size m e wd) as [| | |[e1 n1]]; try discriminate; [congruence|].
    pose proof (sbytes_no_free m (s_buf e1) (s_size e1)). destruct (sbytes _ _ _); try discriminate; congruence.
  - pose proof (sbytes_no_free m (s_buf e) (s_size e)). destruct (sbytes _ _ _); try discriminate; congruence.
Qed.

Lemma own_free m k e : owned m -> m_elts m k = Some e -> exists m', sfree m (s_buf e) = Done m'.
Proof.
  intros (O1 & _) E. unfold sfree. destruct (s_buf e) as [b|] eqn:B; [|eauto].
  specialize (O1 _ _ _ E B). destruct (m_blocks m b); [eauto|congruence].
Qed.
Lemma set_value_done m k e s ok : owned m -> m_elts m k = Some e -> exists m' e' c, set_value m e s ok = Done (m', e', c).
Proof.
  intros O E. unfold set_value. destruct (own_free m k e O E) as (m' & F).
  destruct (s_set e); [rewrite F|]; cbn [obind]; destruct ok; cbn [salloc]; eauto.
Qed.
Lemma read_data_done m e nd src ok : exists m' e' c, read_data m e nd src ok = Done (m', e', c).
Proof.
  unfold read_data. destruct nd; [eauto|]. destruct src as [src|]; [|cbn; eauto].
  destruct (_ <? _ mod _); [cbn; eauto|]. destruct ok; cbn [salloc]; [|eauto].
  destruct (zlen src <? s_size e); [|eauto]. cbn [sfree m_blocks]. rewrite put_same. cbn [obind]. eauto.
Qed.

Lemma step_no_free h m o : happens h m -> step m o <> WrongFree.
Proof.
  intros H. apply happens_owned in H. unfold step.
  destruct o as [d sd ok|d n|k s ok|k nd src ok|k|k wd|k wd|k ok|k]; try (destruct (m_elts m k) as [e|] eqn:E; [|discriminate]).
  - unfold create_elt. destruct sd; [|discriminate]. destruct d; [|discriminate].
    unfold set_value. cbn [new_elt s_set obind]. destruct ok; cbn [salloc obind]; discriminate.
  - discriminate.
  - destruct (set_value_done m k e s ok H E) as (m' & e' & c & ->). discriminate.
  - destruct (read_data_done m e nd src ok) as (m' & e' & c & ->). discriminate.
  - unfold get_text. destruct (s_buf e) as [b|]; [|discriminate].
    unfold obind. pose proof (stext_no_free m (Some b)). destruct (stext m (Some b)); try discriminate; congruence.
  - unfold obind. pose proof (update_no_free m e wd). destruct (update_size m e wd) as [| | |[]]; try discriminate; congruence.
  - unfold obind. pose proof (render_no_free m e wd). destruct (render m e wd) as [| | |[]]; try discriminate; congruence.
  - unfold copy_elt. destruct ok; cbn [negb obind salloc]; [|discriminate].
    destruct (Z.to_nat (s_size e + 1)); [discriminate|]. destruct (s_buf e) as [b|]; [|discriminate].
    destruct (m_blocks m b) as [l|]; [|discriminate]. destruct (scopy l (S n)); discriminate.
  - destruct (own_free m k e H E) as (m' & ->). discriminate.
Qed.
