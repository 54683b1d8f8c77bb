(** Proofs about mkvalidator: video tracks and tracks. *)
From Coq Require Import Znumtheory.
From Verif Require Import Base BaseProofs EbmlId EbmlIdSpec EbmlIdProofs IntElt IntEltSpec IntEltProofs EltHead Ebml Stream Tree TreeRead TreeSpec TreeProofs Create CreateSpec CreateProofs CreateProofs2 Frame BlockTime BlockTimeProofs Cues CuesSpec CuesProofs Str StrSpec StrProofs StrProofs3 MkSchema MkSpec MkProofs Validator ValidatorSpec ValidatorProofs.

(** gcd is Euclid's. *)
Lemma gcd_ok : forall k fuel a b, 0 <= a -> 0 < b < 2 ^ Z.of_nat k -> (2 * k <= fuel)%nat -> Validator.gcd fuel a b = Ok (Z.gcd a b).
Proof.
  assert (Step : forall fuel a b, 0 <= a -> 0 < b -> (forall c, 0 < c < b -> c = a mod b -> Validator.gcd fuel b c = Ok (Z.gcd b c)) -> Validator.gcd (S fuel) a b = Ok (Z.gcd a b)).
  { intros fuel a b Ha Hb H. cbn [Validator.gcd]. replace (b =? 0) with false by lia. replace (b =? -1) with false by lia. rewrite andb_false_r. cbn [orb]. rewrite Z.rem_mod_nonneg by lia.
    pose proof (Z.mod_pos_bound a b Hb) as Hm. assert (HG : Z.gcd a b = Z.gcd b (a mod b)) by (rewrite (Z.gcd_comm a b), <- Z.gcd_mod by lia; apply Z.gcd_comm).
    destruct (Z.eqb_spec (a mod b) 0) as [E|E].
    - rewrite HG, E, Z.gcd_0_r. rewrite Z.abs_eq by lia. reflexivity.
    - rewrite HG. apply H; [lia|reflexivity]. }
  induction k as [|k IH]; intros fuel a b Ha Hb Hf; [change (2 ^ Z.of_nat 0) with 1 in Hb; lia|].
  rewrite Nat2Z.inj_succ, Z.pow_succ_r in Hb by lia. destruct fuel as [|[|fuel]]; try lia. apply Step; [lia|lia|]. intros c Hc Ec. apply Step; [lia|lia|]. intros d Hd Ed. apply IH; [lia| |lia].
  assert (2 * d < b); [|lia]. subst d. assert (c <= b / 2 \/ b / 2 < c) as [Hcb|Hcb] by lia; [lia|].
  assert (b mod c = b - c); [|lia]. symmetry. apply (Z.mod_unique_pos b c 1); lia.
Qed.

Definition sized (v : Z) : Prop := 0 <= v < 2 ^ 62.
Lemma display_ok p e c unit pixel : elem p e -> listed p c -> int_class c = true ->
  exists v, display_of c e unit pixel = Ok (v, if unit =? 0 then [] else match lookup c e with Some _ => [] | None => [Err 0xE2] end) /\ shown_size c e unit pixel v.
Proof.
  intros He Hl Hc. unfold display_of, shown_size, UNIT_PIXELS. pose proof (lookup_ok p e c He Hl) as H. destruct (lookup c e) as [d|].
  - destruct H as [H1 H2]. destruct (elem_int c d H2 Hc) as (j & x & -> & Hx). cbn [int_of bind]. exists x. split; [destruct (unit =? 0); reflexivity|]. left. exists j. exact H1.
  - destruct (unit =? 0) eqn:Q; eexists; (split; [reflexivity|]); right; auto.
Qed.
Lemma shown_fun c e u p v v' : shown_size c e u p v -> shown_size c e u p v' -> v = v'.
Proof.
  intros [[i H]|[H ->]] [[i' H']|[H' ->]]; try reflexivity.
  - pose proof (first_fun _ _ _ _ H H') as Q. congruence.
  - destruct (first_none _ _ _ H H').
  - destruct (first_none _ _ _ H' H).
Qed.
Lemma in_when (b : bool) m x : In x (when b m) <-> b = true /\ x = m.
Proof. unfold when. destruct b; cbn [In]; split; intros H; try tauto; destruct H; try discriminate; try tauto; subst; auto. Qed.
Lemma has_first p e c : elem p e -> listed p c -> (has_child c e <-> lookup c e <> None).
Proof.
  intros He Hl. pose proof (lookup_ok p e c He Hl) as H. destruct (lookup c e) as [d|].
  - split; [discriminate|]. intros _. destruct H as [(a & b & H1 & H2 & _) _]. exists d. split; [rewrite H1; apply in_elt|exact H2].
  - split; [|congruence]. intros (d & H1 & H2). unfold none_of in H. rewrite Forall_forall in H. destruct (H d H1 H2).
Qed.
Definition points (prof : Z) (v : video_track) : Z :=
  (if Z.gcd (v_dw v) (v_dh v) =? 1 then 1 else 0) + (if v_dw v * v_ph v =? v_dh v * v_pw v then 1 else 0) +
  (if (8 * v_dw v <=? v_pw v) && (8 * v_dh v <=? v_ph v) then 2 else 0) - (if prof =? P_WEBM then 0 else 1).
Definition shrunkb (v : video_track) : bool := (v_dw v <? v_pw v) && (v_dh v <? v_ph v).
Lemma pixels_ok prof v : Forall small [v_pw v; v_ph v; v_dw v; v_dh v] -> (shrunkb v = true -> v_dh v <> 0) ->
  check_pixels prof (v_dw v) (v_dh v) (v_pw v) (v_ph v) = Ok (if shrunkb v then if 2 <? points prof v then [Err 0xE3] else if points prof v =? 0 then [] else [Warn 0xE3] else []).
Proof.
  intros H Hz. rewrite !Forall_cons_iff in H. unfold small in H. unfold check_pixels. fold (shrunkb v). destruct (shrunkb v); [|reflexivity]. specialize (Hz eq_refl).
  rewrite (gcd_ok 31 200) by (cbn; lia). cbn [bind]. rewrite !s64_small by nia. unfold points. repeat f_equal.
  destruct (Z.gcd (v_dw v) (v_dh v) =? 1), (v_dw v * v_ph v =? v_dh v * v_pw v), ((8 * v_dw v <=? v_pw v) && (8 * v_dh v <=? v_ph v)), (prof =? P_WEBM); reflexivity.
Qed.
Definition crops (video : elt) : list msg :=
  let crop c := match lookup c video with Some _ => [Err 0xE4] | None => [] end in
  crop cPixelCropTop ++ crop cPixelCropBottom ++ crop cPixelCropLeft ++ crop cPixelCropRight.
Definition missing_size (c : Z) (video : elt) (u : Z) : list msg := if u =? 0 then [] else match lookup c video with Some _ => [] | None => [Err 0xE2] end.
Definition video_msgs (prof : Z) (e : elt) (v : video_track) : list msg :=
  missing_size cDisplayWidth e (v_unit v) ++ missing_size cDisplayHeight e (v_unit v) ++
  when (v_dh v =? 0) (Err 0xE7) ++ when (v_dw v =? 0) (Err 0xE7) ++
  (if (v_unit v =? 0) && shrunkb v then if 2 <? points prof v then [Err 0xE3] else if points prof v =? 0 then [] else [Warn 0xE3] else []) ++
  (if v_unit v =? 3 then crops e ++ when (v_dw v =? v_pw v) (Warn 0xE7) ++ when (v_dh v =? v_ph v) (Warn 0xE7)
   else when (v_dh v <=? v_top v + v_bottom v) (Err 0xE5) ++ when (v_dw v <=? v_left v + v_right v) (Err 0xE6)).
Lemma video_ok td prof track e v : elem cTrackEntry track -> first_of cVideo track e -> is_video e v -> (shrunk v -> v_dh v <> 0) ->
  check_video td prof track = Ok (video_msgs prof e v).
Proof.
  intros Ht Hf (Hu & Hpw & Hph & Hdw & Hdh & Htop & Hbot & Hlef & Hrig & HS) Hz.
  assert (Hlv : listed cTrackEntry cVideo) by mk_side.
  assert (Hv : elem cVideo e). { pose proof (lookup_ok cTrackEntry track cVideo Ht Hlv) as H. apply (lookup_first cTrackEntry track cVideo e Ht Hlv) in Hf. rewrite Hf in H. apply H. }
  apply (lookup_first cTrackEntry track cVideo e Ht Hlv) in Hf. unfold check_video. rewrite Hf.
  assert (G : forall c x, listed cVideo c -> int_class c = true -> int_def_ok c = true -> int_is c e x -> got_int td prof c e = Ok x).
  { intros c x H1 H2 H3 H4. destruct (got_int_ok td prof cVideo e c Hv H1 H2 H3) as (y & H5 & H6 & _). rewrite H5. f_equal. eapply int_fun; eassumption. }
  rewrite (G cPixelWidth _ ltac:(mk_side) ltac:(mk_side) ltac:(mk_side) Hpw). cbn [bind].
  rewrite (G cPixelHeight _ ltac:(mk_side) ltac:(mk_side) ltac:(mk_side) Hph). cbn [bind].
  rewrite (G cDisplayUnit _ ltac:(mk_side) ltac:(mk_side) ltac:(mk_side) Hu). cbn [bind].
  destruct (display_ok cVideo e cDisplayWidth (v_unit v) (v_pw v) Hv ltac:(mk_side) ltac:(mk_side)) as (dw & -> & Hdw'). rewrite (shown_fun _ _ _ _ _ _ Hdw' Hdw). cbn [bind].
  destruct (display_ok cVideo e cDisplayHeight (v_unit v) (v_ph v) Hv ltac:(mk_side) ltac:(mk_side)) as (dh & -> & Hdh'). rewrite (shown_fun _ _ _ _ _ _ Hdh' Hdh). cbn [bind].
  change UNIT_PIXELS with 0. change UNIT_RATIO with 3. fold (missing_size cDisplayWidth e (v_unit v)). fold (missing_size cDisplayHeight e (v_unit v)).
  assert (HP : (if v_unit v =? 0 then check_pixels prof (v_dw v) (v_dh v) (v_pw v) (v_ph v) else Ok []) =
    Ok (if (v_unit v =? 0) && shrunkb v then if 2 <? points prof v then [Err 0xE3] else if points prof v =? 0 then [] else [Warn 0xE3] else [])).
  { destruct (v_unit v =? 0) eqn:Q; [|reflexivity]. cbn [andb]. apply pixels_ok.
    - rewrite !Forall_cons_iff in *. tauto.
    - intros Hs. apply Hz. unfold shrunkb in Hs. unfold shrunk. lia. }
  rewrite HP. cbn [bind].
  rewrite (G cPixelCropTop _ ltac:(mk_side) ltac:(mk_side) ltac:(mk_side) Htop). rewrite (G cPixelCropBottom _ ltac:(mk_side) ltac:(mk_side) ltac:(mk_side) Hbot).
  rewrite (G cPixelCropLeft _ ltac:(mk_side) ltac:(mk_side) ltac:(mk_side) Hlef). rewrite (G cPixelCropRight _ ltac:(mk_side) ltac:(mk_side) ltac:(mk_side) Hrig). cbn [bind].
  rewrite !Forall_cons_iff in HS. unfold small in HS. rewrite !s64_small by lia. unfold video_msgs, crops. rewrite <- !app_assoc. destruct (v_unit v =? 3); cbn [bind]; rewrite <- ?app_assoc; reflexivity.
Qed.
Ltac codes := repeat match goal with
  | H : In _ (if ?b then _ else _) |- _ => destruct b eqn:?
  | H : In _ (match ?o with Some _ => _ | None => _ end) |- _ => destruct o eqn:?
  | H : In _ (when _ _) |- _ => apply in_when in H
  | H : _ \/ _ |- _ => destruct H
  | H : _ /\ _ |- _ => destruct H
  | H : Err _ = _ |- _ => first [discriminate H | injection H as H]
  | H : Warn _ = _ |- _ => first [discriminate H | injection H as H]
  | H : False |- _ => destruct H
  | H : In _ [] |- _ => destruct H
  | H : In _ [_] |- _ => destruct H
  end.
Lemma video_codes prof e v : elem cVideo e -> forall m, In m (video_msgs prof e v) <->
  (m = Err 0xE2 /\ v_unit v <> 0 /\ (none_of cDisplayWidth e \/ none_of cDisplayHeight e)) \/
  (m = Err 0xE7 /\ (v_dw v = 0 \/ v_dh v = 0)) \/
  (m = Err 0xE3 /\ shrunk v /\ 2 < points prof v) \/
  (m = Warn 0xE3 /\ shrunk v /\ points prof v <= 2 /\ points prof v <> 0) \/
  (m = Err 0xE4 /\ v_unit v = 3 /\ exists c, In c [cPixelCropTop; cPixelCropBottom; cPixelCropLeft; cPixelCropRight] /\ has_child c e) \/
  (m = Warn 0xE7 /\ v_unit v = 3 /\ (v_dw v = v_pw v \/ v_dh v = v_ph v)) \/
  (m = Err 0xE5 /\ v_unit v <> 3 /\ v_dh v <= v_top v + v_bottom v) \/
  (m = Err 0xE6 /\ v_unit v <> 3 /\ v_dw v <= v_left v + v_right v).
Proof.
  intros He m. unfold video_msgs. rewrite !in_app_iff.
  assert (M : forall c, listed cVideo c -> (In m (missing_size c e (v_unit v)) <-> m = Err 0xE2 /\ v_unit v <> 0 /\ none_of c e)).
  { intros c Hl. unfold missing_size. rewrite <- (lookup_none cVideo e c He Hl). destruct (v_unit v =? 0) eqn:Q; [split; [intros []|lia]|]. destruct (lookup c e); cbn [In]; split; intros H.
    - destruct H. - destruct H as (_ & _ & [=]). - destruct H as [<-|[]]. split; [reflexivity|]. split; [lia|reflexivity]. - left. symmetry. apply H. }
  rewrite (M cDisplayWidth ltac:(mk_side)), (M cDisplayHeight ltac:(mk_side)), !in_when.
  assert (C : In m (crops e) <-> m = Err 0xE4 /\ exists c, In c [cPixelCropTop; cPixelCropBottom; cPixelCropLeft; cPixelCropRight] /\ has_child c e).
  { assert (K : forall c, In c [cPixelCropTop; cPixelCropBottom; cPixelCropLeft; cPixelCropRight] -> (has_child c e <-> lookup c e <> None)).
    { intros c Hc. apply (has_first cVideo); [exact He|]. repeat (destruct Hc as [<-|Hc]; [mk_side|]). destruct Hc. }
    assert (N : forall c, In m (match lookup c e with Some _ => [Err 0xE4] | None => [] end) <-> m = Err 0xE4 /\ lookup c e <> None).
    { intros c. destruct (lookup c e); cbn [In]; split; intros H; try (destruct H as [<-|[]]; split; [reflexivity|discriminate]); try (left; symmetry; apply H); try destruct H; congruence. }
    unfold crops. rewrite !in_app_iff, !N. split.
    - intros H. split; [tauto|]. destruct H as [[_ H]|[[_ H]|[[_ H]|[_ H]]]]; [exists cPixelCropTop|exists cPixelCropBottom|exists cPixelCropLeft|exists cPixelCropRight];
        (split; [cbn [In]; tauto|]); (apply K; [cbn [In]; tauto|exact H]).
    - intros (H & c & Hc & Hh). pose proof Hc as Hc'. apply K in Hh; [|exact Hc']. destruct Hc as [<-|[<-|[<-|[<-|[]]]]]; tauto. }
  assert (S : (v_unit v =? 0) && shrunkb v = true <-> shrunk v) by (unfold shrunkb, shrunk; lia).
  assert (P : In m (if (v_unit v =? 0) && shrunkb v then if 2 <? points prof v then [Err 0xE3] else if points prof v =? 0 then [] else [Warn 0xE3] else []) <->
    (m = Err 0xE3 /\ shrunk v /\ 2 < points prof v) \/ (m = Warn 0xE3 /\ shrunk v /\ points prof v <= 2 /\ points prof v <> 0)).
  { rewrite <- S. destruct ((v_unit v =? 0) && shrunkb v); [|cbn [In]; split; [intros []|intros [(_ & [=] & _)|(_ & [=] & _)]]].
    destruct (Z.ltb_spec 2 (points prof v)) as [Q|Q]; [|destruct (Z.eqb_spec (points prof v) 0) as [R|R]]; cbn [In]; split; intros H.
    - destruct H as [<-|[]]. left. auto. - left. destruct H as [(-> & _)|(_ & _ & H & _)]; [reflexivity|lia].
    - destruct H. - destruct H as [(_ & _ & H)|(_ & _ & _ & H)]; lia.
    - destruct H as [<-|[]]. right. split; [reflexivity|]. split; [reflexivity|]. split; [lia|exact R].
    - left. destruct H as [(_ & _ & H)|(-> & _)]; [lia|reflexivity]. }
  rewrite P. destruct (v_unit v =? 3) eqn:Q; rewrite !in_app_iff, !in_when, ?C; split; intros H.
  - decompose [and or] H; subst; try (exfalso; lia); try tauto; repeat match goal with H : (_ =? _) = true |- _ => apply Z.eqb_eq in H end; tauto.
  - decompose [and or] H; subst; try (exfalso; lia); try tauto; repeat match goal with H : _ = _ |- _ => rewrite <- Z.eqb_eq in H end; tauto.
  - decompose [and or] H; subst; try tauto; try (right; left; split; [reflexivity|lia]); do 6 right; [left|right]; (split; [reflexivity|lia]).
  - decompose [and or] H; subst; try (exfalso; lia); try tauto; repeat match goal with H : _ = 0 |- _ => rewrite <- Z.eqb_eq in H | H : _ <= _ |- _ => rewrite <- Z.leb_le in H end; tauto.
Qed.
