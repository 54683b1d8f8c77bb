From Verif Require Import Base BaseProofs Vint EbmlId Ebml Tree TreeRead Create CreateProofs Arr Stream Frame Block BlockTime BlockTimeProofs Cues CuesSpec CuesProofs CuesProofs2 Tracks TracksSpec.

Section Proofs.
Context (rest : schema) (td : Z -> Z).
Notation T := (T rest).
Lemma find_only id l d : only T id l d -> find_child T id l = Some d.
Proof. clear td. intros (l1 & l2 & -> & Hd & Hn). apply Forall_app in Hn. apply find_first. exists l1, l2. split; [reflexivity|]. split; [exact Hd|apply Hn]. Qed.
Lemma find_no id l : none T id l -> find_child T id l = None.
Proof. clear td.
  unfold find_child, none. induction 1 as [|x l Hx _ IH]; [reflexivity|]. cbn [find].
  unfold eid_of at 1. rewrite (proj2 (Z.eqb_neq _ _) Hx). exact IH.
Qed.
Lemma drop_only id l d : only T id l d -> none T id (drop_first rest id l) /\ others T id l (drop_first rest id l).
Proof. clear td.
  intros (l1 & l2 & -> & Hd & Hn).
  assert (E : drop_first rest id (l1 ++ d :: l2) = l1 ++ l2).
  { clear -Hd Hn. induction l1 as [|x l1 IH]; cbn [app drop_first].
    - unfold eid_of. rewrite Hd, Z.eqb_refl. reflexivity.
    - cbn [app] in Hn. apply Forall_cons_iff in Hn. destruct Hn as [Hx Hn]. unfold eid_of at 1. rewrite (proj2 (Z.eqb_neq _ _) Hx), (IH Hn). reflexivity. }
  rewrite E. split; [exact Hn|]. unfold others. rewrite !filter_app. cbn [filter]. rewrite Hd, Z.eqb_refl. reflexivity.
Qed.
Lemma set_none_ok t : plain_track T t -> exists i k ch, snd (set_none rest t) = Master i k ch /\ none T 28032 ch /\ others T 28032 (kids t) ch /\
  e_kind i = e_kind (einfo t) /\
  (fst (set_none rest t) = true <-> exists d, In d (kids t) /\ has_id T 28032 d).
Proof. clear td.
  intros (i & k & ch & -> & [Hn | (d & Hd)]); unfold set_none, child; cbn [children kids].
  - rewrite (find_no _ _ Hn : find_child T ID_ContentEncodings ch = None). exists i, k, ch. split; [reflexivity|]. split; [exact Hn|]. split; [reflexivity|]. split; [reflexivity|].
    cbn [fst]. split; [discriminate|]. intros (d & Hi & Hd). unfold none in Hn. rewrite Forall_forall in Hn. destruct (Hn d Hi Hd).
  - rewrite (find_only _ _ _ Hd : find_child T ID_ContentEncodings ch = Some d). destruct (drop_only _ _ _ Hd) as [H1 H2].
    eexists _, _, _. split; [reflexivity|]. split; [exact H1|]. split; [exact H2|]. split; [reflexivity|]. cbn [fst]. split; [|reflexivity].
    intros _. destruct Hd as (l1 & l2 & -> & Hd & _). exists d. split; [apply in_elt|exact Hd].
Qed.
Lemma with_new fuel prof c f i k ch d d' : find_child T (c_id (T c)) ch = None -> create T td fuel true prof c = Ok d -> f d = Ok d' ->
  in_child rest td fuel prof c f (Master i k ch) = Ok (Master (with_set (with_need i true) true) k (ch ++ [d'])).
Proof. intros H1 H2 H3. unfold in_child. cbn [with_child]. rewrite H1, H2. cbn [bind]. rewrite H3. reflexivity. Qed.

Lemma only_add id ch d : none T id ch -> has_id T id d -> only T id (ch ++ [d]) d.
Proof. clear td. intros Hn Hd. exists ch, []. split; [reflexivity|]. split; [exact Hd|]. rewrite app_nil_r. exact Hn. Qed.
Lemma others_add id ch ch' d : others T id ch ch' -> has_id T id d -> others T id ch (ch' ++ [d]).
Proof. clear td. unfold others. intros H Hd. rewrite filter_app. cbn [filter]. rewrite Hd, Z.eqb_refl. cbn [negb]. rewrite app_nil_r. exact H. Qed.

Ltac runs := repeat (cbn -[Z.land s64 Z.eqb]; rewrite ?Z.land_0_l; change (0 =? 0) with true; cbn -[Z.land s64]).

Ltac isonly := match goal with |- only _ _ ?l ?d =>
  first [exists [], (tl l); split; [reflexivity|]; split; [reflexivity|]; cbn; repeat constructor; intros X; discriminate X
        |exists (firstn 1 l), (skipn 2 l); split; [reflexivity|]; split; [reflexivity|]; cbn; repeat constructor; intros X; discriminate X
        |exists (firstn 2 l), (skipn 3 l); split; [reflexivity|]; split; [reflexivity|]; cbn; repeat constructor; intros X; discriminate X
        |exists (firstn 3 l), (skipn 4 l); split; [reflexivity|]; split; [reflexivity|]; cbn; repeat constructor; intros X; discriminate X] end.

Lemma set_algo_ok fuel prof scope algo t : (2 <= fuel)%nat -> plain_track T t -> scope <> 0 -> - 2 ^ 63 <= scope < 2 ^ 63 -> - 2 ^ 63 <= algo < 2 ^ 63 ->
  exists t', set_algo rest td fuel prof scope algo t = Ok (fst (set_none rest t), t') /\ declares T t' scope algo None /\ others T 28032 (kids t) (kids t') /\
    exists i k ch, t' = Master i k ch /\ e_kind i = e_kind (einfo t).
Proof.
  intros Hf Ht Hs Hsc Hal. destruct fuel as [|[|fuel]]; [lia..|]. destruct (set_none_ok t Ht) as (i & k & ch & E & Hn & Ho & Hk & _).
  unfold set_algo. destruct (set_none rest t) as [had e]. cbn [fst snd] in *. subst e. rewrite (proj2 (Z.eqb_neq _ _) Hs).
  destruct (Z.land PROF_WEBM prof =? 0) eqn:Ew.
  - match goal with |- context [in_child _ _ _ _ 4 ?f _] => set (ff := f) end.
    assert (Hc : exists d d', create T td (S (S fuel)) true prof 4 = Ok d /\ ff d = Ok d' /\ has_id T 28032 d' /\
      exists i k ch enc cp j, d' = Master i k ch /\ ch = [enc] /\ has_id T 25152 enc /\
        only T 20530 (kids enc) (Leaf j (VInt scope)) /\ only T 20532 (kids enc) cp /\
        (exists j, only T 16980 (kids cp) (Leaf j (VInt algo))) /\ none T 16981 (kids cp)).
    { subst ff. eexists _, _. split; [runs; reflexivity|]. split.
      { unfold in_child. runs. rewrite Ew. runs. unfold int_set. rewrite (s64_small scope), (s64_small algo) by assumption. reflexivity. }
      split; [reflexivity|]. eexists _, _, _, _, _, _. split; [reflexivity|]. split; [reflexivity|]. split; [reflexivity|]. cbn [kids].
      split; [isonly|]. split; [isonly|]. cbn [kids]. split; [eexists; isonly|]. repeat constructor; intros X; discriminate X. }
    destruct Hc as (d & d' & H1 & H2 & H3 & i' & k' & ch' & enc & cp & j & -> & Hrest).
    rewrite (with_new _ _ 4 ff i k ch d _ (find_no _ _ Hn) H1 H2). cbn [bind]. eexists. split; [reflexivity|]. cbn [kids].
    split; [|split; [apply others_add; assumption|eexists _, _, _; split; [reflexivity|exact Hk]]].
    exists i', k', ch', enc, cp, j. split; [apply only_add; assumption|]. exact Hrest.
  - match goal with |- context [in_child _ _ _ _ 4 ?f _] => set (ff := f) end.
    assert (Hc : exists d d', create T td (S (S fuel)) true prof 4 = Ok d /\ ff d = Ok d' /\ has_id T 28032 d' /\
      exists i k ch enc cp j, d' = Master i k ch /\ ch = [enc] /\ has_id T 25152 enc /\
        only T 20530 (kids enc) (Leaf j (VInt scope)) /\ only T 20532 (kids enc) cp /\
        (exists j, only T 16980 (kids cp) (Leaf j (VInt algo))) /\ none T 16981 (kids cp)).
    { subst ff. eexists _, _. split; [runs; reflexivity|]. split.
      { unfold in_child. runs. rewrite Ew. runs. unfold int_set. rewrite (s64_small scope), (s64_small algo) by assumption. reflexivity. }
      split; [reflexivity|]. eexists _, _, _, _, _, _. split; [reflexivity|]. split; [reflexivity|]. split; [reflexivity|]. cbn [kids].
      split; [isonly|]. split; [isonly|]. cbn [kids]. split; [eexists; isonly|]. repeat constructor; intros X; discriminate X. }
    destruct Hc as (d & d' & H1 & H2 & H3 & i' & k' & ch' & enc & cp & j & -> & Hrest).
    rewrite (with_new _ _ 4 ff i k ch d _ (find_no _ _ Hn) H1 H2). cbn [bind]. eexists. split; [reflexivity|]. cbn [kids].
    split; [|split; [apply others_add; assumption|eexists _, _, _; split; [reflexivity|exact Hk]]].
    exists i', k', ch', enc, cp, j. split; [apply only_add; assumption|]. exact Hrest.
Qed.
Lemma set_header_ok fuel prof h t : (2 <= fuel)%nat -> plain_track T t -> h <> [] ->
  exists t', set_header rest td fuel prof (Some h) t = Ok (fst (set_none rest t), t') /\ declares T t' 1 3 (Some h) /\ others T 28032 (kids t) (kids t') /\
    exists i k ch, t' = Master i k ch /\ e_kind i = e_kind (einfo t).
Proof.
  intros Hf Ht Hh. destruct fuel as [|[|fuel]]; [lia..|]. destruct (set_none_ok t Ht) as (i & k & ch & E & Hn & Ho & Hk & _).
  unfold set_header. destruct (set_none rest t) as [had e]. cbn [fst snd] in *. subst e.
  destruct h as [|b0 h0]; [contradiction|]. set (h := b0 :: h0) in *. clearbody h.
  match goal with |- context [in_child _ _ _ _ 4 ?f _] => set (ff := f) end.
  assert (Hc : exists d d', create T td (S (S fuel)) true prof 4 = Ok d /\ ff d = Ok d' /\ has_id T 28032 d' /\
    exists i k ch enc cp j, d' = Master i k ch /\ ch = [enc] /\ has_id T 25152 enc /\
      only T 20530 (kids enc) (Leaf j (VInt 1)) /\ only T 20532 (kids enc) cp /\
      (exists j, only T 16980 (kids cp) (Leaf j (VInt 3))) /\ exists j, only T 16981 (kids cp) (Leaf j (VBin h))).
  { subst ff. destruct (Z.land PROF_WEBM prof =? 0) eqn:Ew.
    all: eexists _, _; split; [runs; reflexivity|]; split.
    all: try (unfold in_child; runs; rewrite Ew; runs; unfold int_set; change (s64 1) with 1; change (s64 3) with 3; reflexivity).
    all: split; [reflexivity|]; eexists _, _, _, _, _, _; split; [reflexivity|]; split; [reflexivity|]; split; [reflexivity|]; cbn [kids].
    all: split; [isonly|]; split; [isonly|]; cbn [kids]; split; eexists; isonly. }
  destruct Hc as (d & d' & H1 & H2 & H3 & i' & k' & ch' & enc & cp & j & -> & Hrest).
  rewrite (with_new _ _ 4 ff i k ch d _ (find_no _ _ Hn) H1 H2). cbn [bind]. eexists. split; [reflexivity|]. cbn [kids].
  split; [|split; [apply others_add; assumption|eexists _, _, _; split; [reflexivity|exact Hk]]].
  exists i', k', ch', enc, cp, j. split; [apply only_add; assumption|]. exact Hrest.
Qed.

Lemma kids_children e : children e = kids e.
Proof. clear td. destruct e; reflexivity. Qed.
Lemma get_found fuel prof c e d : find_child T (c_id (T c)) (kids e) = Some d -> get_child T td fuel prof c e = Ok (d, e).
Proof. intros H. destruct e as [i v|i k ch]; cbn [kids] in H; [discriminate|]. cbn [get_child]. rewrite H. reflexivity. Qed.
Lemma declares_get fuel prof t scope algo st : declares T t scope algo st ->
  get_compression rest td fuel prof t = Ok (if Z.odd scope then s32 algo else -1).
Proof.
  intros (i & k & ch & enc & cp & j & H1 & -> & H2 & H3 & H4 & (ja & H5) & _). unfold get_compression, child. rewrite kids_children.
  change ID_ContentEncodings with 28032. rewrite (find_only _ _ _ H1). cbn [children]. unfold find_child. cbn [find]. unfold eid_of at 1. rewrite H2. change (25152 =? ID_ContentEncoding) with true. cbv iota.
  rewrite (get_found fuel prof 7 enc _ (find_only _ _ _ H3)). cbn [bind fst snd int_of]. unfold SCOPE_BLOCK.
  change 1 with (Z.ones 1) at 1. rewrite Z.land_ones by lia. change (2 ^ 1) with 2. rewrite Zmod_odd.
  destruct (Z.odd scope); cbn [Z.eqb]; [|reflexivity]. rewrite kids_children. fold (find_child T ID_ContentCompression (kids enc)). change ID_ContentCompression with 20532. rewrite (find_only _ _ _ H4).
  rewrite (get_found fuel prof 10 cp _ (find_only _ _ _ H5)). reflexivity.
Qed.
Lemma declares_encodings t scope algo st : declares T t scope algo st ->
  encodings_of rest t = Ok (Some [mkEnc true (Some scope) (Some (mkCompr (Some algo) st))]).
Proof. clear td.
  intros (i & k & ch & enc & cp & j & H1 & -> & H2 & H3 & H4 & (ja & H5) & H6). unfold encodings_of, child. rewrite kids_children.
  change ID_ContentEncodings with 28032. rewrite (find_only _ _ _ H1). cbn [children encoding_list map]. unfold eid_of at 1. rewrite H2. change (25152 =? ID_ContentEncoding) with true. cbv iota.
  unfold encoding_of, child. rewrite kids_children. change ID_ContentEncodingScope with 20530. rewrite (find_only _ _ _ H3). cbn [opt_int int_of bind].
  change ID_ContentCompression with 20532. rewrite (find_only _ _ _ H4). unfold compr_of, child. rewrite (kids_children cp).
  change ID_ContentCompAlgo with 16980. rewrite (find_only _ _ _ H5). cbn [opt_int int_of bind]. change ID_ContentCompSettings with 16981.
  replace (opt_bin (find_child T 16981 (kids cp))) with (Ok st)
    by (destruct st as [s|]; [destruct H6 as (js & H6); rewrite (find_only _ _ _ H6)|rewrite (find_no _ _ H6)]; reflexivity).
  cbn [bind]. replace (zlen (kids enc) =? 0) with false; [reflexivity|].
  destruct H3 as (l1 & l2 & -> & _). pose proof (zlen_nonneg l1). pose proof (zlen_nonneg l2). rewrite zlen_app, zlen_cons. lia.
Qed.
Lemma declares_private t scope algo st : declares T t scope algo st ->
  private_algo rest t = Ok (if Z.testbit scope 1 then s32 algo else -1).
Proof. clear td.
  intros (i & k & ch & enc & cp & j & H1 & -> & H2 & H3 & H4 & (ja & H5) & _). unfold private_algo, child. rewrite kids_children.
  change ID_ContentEncodings with 28032. rewrite (find_only _ _ _ H1). cbn [children]. unfold find_child at 1. cbn [find]. unfold eid_of at 1. rewrite H2. change (25152 =? ID_ContentEncoding) with true. cbv iota.
  rewrite (kids_children enc). change ID_ContentCompression with 20532. change ID_ContentEncodingScope with 20530. change ID_ContentCompAlgo with 16980.
  rewrite (find_only _ _ _ H4), (find_only _ _ _ H3), (kids_children cp), (find_only _ _ _ H5). cbn [opt_int int_of bind]. unfold SCOPE_PRIVATE.
  replace (Z.land scope 2 =? 0) with (negb (Z.testbit scope 1)); [destruct (Z.testbit scope 1); reflexivity|].
  destruct (Z.eqb_spec (Z.land scope 2) 0) as [e|e].
  - assert (Z.testbit (Z.land scope 2) 1 = false) by (rewrite e; reflexivity). rewrite Z.land_spec in H. change (Z.testbit 2 1) with true in H. rewrite andb_true_r in H. rewrite H. reflexivity.
  - destruct (Z.testbit scope 1) eqn:Eb; [reflexivity|]. exfalso. apply e. apply Z.bits_inj'. intros n Hn. rewrite Z.land_spec, Z.bits_0.
    destruct (Z.eq_dec n 1) as [->|Hne]; [rewrite Eb; reflexivity|]. change 2 with (2 ^ 1). rewrite Z.pow2_bits_false by lia. apply andb_false_r.
Qed.
End Proofs.
