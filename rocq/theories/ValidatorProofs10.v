(** Proofs about mkvalidator: what a run without errors tells of the file; a test of the shape of a tree. *)
From Verif Require Import Base BaseProofs Vint EbmlId EbmlIdSpec EbmlIdProofs IntElt IntEltSpec IntEltProofs EltHead Ebml Stream Tree TreeRead TreeSpec TreeProofs Create CreateSpec CreateProofs CreateProofs2 Frame BlockTime BlockTimeProofs Cues CuesSpec CuesProofs Str StrSpec StrProofs MkSchema MkSpec MkProofs Validator ValidatorSpec ValidatorProofs ValidatorProofs2 ValidatorProofs3 ValidatorProofs4 ValidatorProofs5 ValidatorProofs8 ValidatorProofs9.

Lemma sound td fuel o f i l : a_segment f i -> (forall b e, f_head f = Some (b, e) -> elem cHead e) -> validate td fuel o f = Ok l -> clean l ->
  exists h prof doc ver, f_head f = Some (true, h) /\ doc_is h doc /\ int_is cDocTypeVersion h ver /\ doc_profile (o_divx o) doc ver prof /\
    (exists e, first_level1 cInfo f e) /\
    ((exists x, level1_of cCluster f x) -> exists t, first_level1 cTracks f t) /\
    (forall c x, In c [cCluster; cInfo; cTracks; cTags] \/ (o_live o = false /\ In c [cSeekHead; cCues; cChapters; cAttachments]) -> level1_of c f x -> l_ok x = true) /\
    (forall x, level1_of cCluster f x -> lawful prof (vc_elt (l_what x))) /\
    (forall c e, In c [cInfo; cTracks; cTags] \/ (o_live o = false /\ In c [cSeekHead; cCues; cChapters; cAttachments]) -> first_level1 c f e -> lawful prof e) /\
    (forall c a x b, In c [cTags; cAttachments] -> f_level1 f = a ++ x :: b -> of_class c (l_elt x) -> Forall (fun y => ~ of_class c (l_elt y)) a) /\
    (forall c x, In c [cChapters; cAttachments] -> level1_of c f x -> o_live o = false) /\
    (o_live o = false -> seg_head i -> forall hd e, first_level1 cSeekHead f hd -> Forall (plain_entry i) (all_of cSeek hd) -> In e (kids hd) -> of_class cSeek e ->
       exists id p, leads i e id p /\
         (forall c, In c [cInfo; cTracks; cTags; cCues; cChapters; cAttachments] -> id = c_id (mk c) -> exists x, first_level1 c f x /\ e_epos (einfo x) = p) /\
         (id = c_id (mk cCluster) -> (exists x, level1_of cCluster f x) -> exists x, level1_of cCluster f x /\ e_epos (einfo (l_elt x)) = p)).
Proof.
  intros [Hs HS] HH H C. change (fun x => vc_elt (l_what x)) with l_elt in HS. unfold validate in H. apply bind_inv in H. destruct H as ([[m v] p] & E & H).
  assert (Cm : clean m). { destruct p as [prof|]; [|injection H as <-; exact C]. rewrite Hs in H. apply bind_inv in H. destruct H as (r & _ & H). destruct (snd r); [apply bind_inv in H; destruct H as (m' & _ & H)|]; injection H as <-; apply clean_app in C; apply C. }
  destruct (head_clean _ _ _ _ _ _ E HH Cm) as (h & hi & chk & ch & prof & doc & ver & Eh & Em & Hchk & -> & Hdoc & Hver & Hprof). rewrite Hs in H. apply bind_inv in H. destruct H as (r & Er & H).
  assert (Cr : clean (fst r)). { destruct (snd r); [apply bind_inv in H; destruct H as (m' & _ & H)|]; injection H as <-; rewrite !clean_app in C; tauto. }
  destruct (level1s_clean _ _ _ _ _ _ Er Cr) as (s & Es & G0 & G1 & G2 & G3 & G4 & G5 & G6 & G7 & G8 & G9 & G10). rewrite Es in H. apply bind_inv in H. destruct H as (m' & Ef & H). apply ok_inj in H. subst l. rewrite !clean_app in C. destruct C as (_ & _ & C').
  destruct (finish_clean _ _ _ _ _ _ Ef C') as (F1 & F2 & F3 & _). cbn [x_seg g_head g_info g_tracks g_tags g_cues g_chapters g_att g_seek g_clusters app] in *.
  assert (LT : forall c, In c [cCluster; cInfo; cTracks; cTags; cSeekHead; cCues; cChapters; cAttachments] -> listed cSegment c).
  { intros c Hc. cbn [In] in Hc. decompose [or] Hc; try contradiction; subst c; mk_side. }
  assert (LTY : forall c x, In c [cCluster; cInfo; cTracks; cTags; cSeekHead; cCues; cChapters; cAttachments] -> In x (f_level1 f) -> (is_type c (l_elt x) = true <-> of_class c (l_elt x))) by (intros c x Hc Hx; apply (l1_type f i HS); auto).
  assert (NK : forall e, kept (mkSeg i None None None None None None None None []) e -> False). { unfold kept. cbn. intros e Q. decompose [or] Q; try discriminate. match goal with X : exists _, _ |- _ => destruct X as (? & [] & _) end. }
  assert (KE : forall e x, kept (x_seg s) e -> In x (f_level1 f) -> l_elt x = e -> shaped e -> lawful prof e).
  { intros e x Hk _ _ Hsh. apply checked_lawful; [exact Hsh|]. destruct (G7 e Hk) as [Q|Q]; [destruct (NK e Q)|exact Q]. }
  assert (KF : forall c e, listed cSegment c -> first_level1 c f e -> kept (x_seg s) e -> lawful prof e).
  { intros c e Hl (a & x & b & Ea & Ex & Hc & _) Hk. assert (Hx : In x (f_level1 f)) by (rewrite Ea; apply in_elt). fold (l_elt x) in Ex. apply (KE e x Hk Hx Ex). subst e. apply (l1_shaped f i HS x c Hl Hx Hc). }
  assert (CL : forall c, In c (g_clusters (x_seg s)) <-> exists x, level1_of cCluster f x /\ l_what x = c).
  { intros c. rewrite G5. rewrite in_map_iff. split.
    - intros (x & Ex & Hx). apply filter_In in Hx. destruct Hx as [Hx Ht]. exists x. split; [|exact Ex]. split; [exact Hx|]. apply LTY in Ht; [exact Ht|cbn [In]; tauto|exact Hx].
    - intros (x & [Hx Ht] & Ex). exists x. split; [exact Ex|]. apply filter_In. split; [exact Hx|]. apply LTY; [cbn [In]; tauto|exact Hx|exact Ht]. }
  exists h, prof, doc, ver. split; [exact Eh|]. split; [exact Hdoc|]. split; [exact Hver|]. split; [exact Hprof|].
  split; [|split; [|split; [|split; [|split; [|split; [|split]]]]]].
  - destruct F1 as (e & Fe). exists e. apply (sel_first f i HS); [apply LT; cbn [In]; tauto|]. rewrite <- Fe, G1. reflexivity.
  - intros (x & Hx). destruct F2 as (t & Ft); [intros N; assert (Q : In (l_what x) (g_clusters (x_seg s))) by (apply CL; eauto); rewrite N in Q; destruct Q|]. exists t. apply (sel_first f i HS); [apply LT; cbn [In]; tauto|]. rewrite <- Ft, G2. reflexivity.
  - intros c x Hc [Hx Ht]. apply (G6 x Hx). unfold must_read. apply existsb_exists. exists c. destruct Hc as [Hc|[L Hc]].
    + split; [apply in_app_iff; left; exact Hc|]. apply LTY; [cbn [In] in *; tauto|exact Hx|exact Ht].
    + rewrite L. split; [apply in_app_iff; right; exact Hc|]. apply LTY; [cbn [In] in *; tauto|exact Hx|exact Ht].
  - intros x [Hx Ht]. fold (l_elt x). apply (KE (l_elt x) x); [|exact Hx|reflexivity|apply (l1_shaped f i HS x cCluster); [apply LT; cbn [In]; tauto|exact Hx|exact Ht]]. unfold kept. do 8 right. exists (l_what x). split; [|reflexivity]. apply CL. exists x. split; [split; assumption|reflexivity].
  - intros c e Hc Hf. assert (Hl : listed cSegment c) by (apply LT; cbn [In] in *; tauto). apply (KF c e Hl Hf). apply (sel_first f i HS c e Hl) in Hf. unfold kept. destruct Hc as [Hc|[L Hc]].
    + cbn [In] in Hc. decompose [or] Hc; try contradiction; subst c; [rewrite G1|rewrite G2|rewrite G3]; tauto.
    + destruct (G4 L) as (K1 & K2 & K3 & K4). cbn [In] in Hc. decompose [or] Hc; try contradiction; subst c; [rewrite K4|rewrite K1|rewrite K2|rewrite K3]; tauto.
  - intros c a x b Hc Ea Ht. assert (Hl : listed cSegment c) by (apply LT; cbn [In] in *; tauto). assert (Hx : In x (f_level1 f)) by (rewrite Ea; apply in_elt).
    assert (T : is_type c (l_elt x) = true) by (apply LTY; [cbn [In] in *; tauto|exact Hx|exact Ht]). pose proof (sel_split f i HS c a (x :: b) Hl Ea) as Q.
    cbn [In] in Hc. decompose [or] Hc; try contradiction; subst c; [rewrite (G8 a x b Ea T) in Q|rewrite (proj2 (G9 a x b Ea T)) in Q]; exact Q.
  - intros c x Hc [Hx Ht]. assert (T : is_type c (l_elt x) = true) by (apply LTY; [cbn [In] in *; tauto|exact Hx|exact Ht]). cbn [In] in Hc. decompose [or] Hc; try contradiction; subst c; [exact (G10 x Hx T)|].
    apply in_split in Hx. destruct Hx as (a & b & Ea). exact (proj1 (G9 a x b Ea T)).
  - intros L Hsg hd e Hf Hpl He Hce. destruct (G4 L) as (K1 & K2 & K3 & K4). assert (Hl : listed cSegment cSeekHead) by mk_side. assert (Hhd : elem cSeekHead hd). { destruct Hf as (a & x & b & Ea & Ex & Hc & _). fold (l_elt x) in Ex. subst hd. apply (l1_shaped f i HS x cSeekHead Hl); [rewrite Ea; apply in_elt|exact Hc]. }
    apply (sel_first f i HS _ _ Hl) in Hf. rewrite <- K4 in Hf. destruct (F3 hd Hf) as (ms & Ems & Cms). rewrite <- G0 in Hsg, Hpl |- *. destruct (seek_ok (x_seg s) true hd Hsg Hhd Hpl) as (ms' & Ems' & Hok & _). rewrite Ems in Ems'. injection Ems' as <-.
    assert (EF : err_free ms). { intros c Hc. unfold clean in Cms. rewrite Forall_forall in Cms. exact (Cms _ Hc I). }
    destruct (proj1 Hok EF e He Hce) as (id & p & Hld & H1 & _ & H3). exists id, p. split; [exact Hld|]. split.
    + intros c Hc Eid. assert (Hl' : listed cSegment c) by (apply LT; cbn [In] in *; tauto).
      assert (OF : exists fo, once_found (x_seg s) c fo /\ (forall x, fo = Some x -> first_level1 c f x)).
      { assert (SF : forall x, sel c None (f_level1 f) = Some x -> first_level1 c f x) by (intros x; apply (sel_first f i HS c x Hl')).
        cbn [In] in Hc. unfold once_found. decompose [or] Hc; try contradiction; subst c; eexists; (split; [tauto|]); intros x Ex; apply SF; rewrite <- Ex; congruence. }
      destruct OF as (fo & O1 & O2). destruct (H1 c fo O1 Eid) as (x & -> & Hp). exists x. auto.
    + intros Eid (x0 & Hx0). destruct (H3 Eid) as [N|(c & Hc & Hp)]; [assert (Q : In (l_what x0) (g_clusters (x_seg s))) by (apply CL; eauto); rewrite N in Q; destruct Q|]. apply CL in Hc. destruct Hc as (x & Hx & <-). exists x. auto.
Qed.

(** Points of a video, as signs. *)
Lemma points_webm v : points 8 v = (if Z.gcd (v_dw v) (v_dh v) =? 1 then 1 else 0) + (if v_dw v * v_ph v =? v_dh v * v_pw v then 1 else 0) + (if (8 * v_dw v <=? v_pw v) && (8 * v_dh v <=? v_ph v) then 2 else 0).
Proof. unfold points. change (8 =? P_WEBM) with true. cbv iota. lia. Qed.
Lemma signs v : exists a b c : bool, (a = true <-> reduced v) /\ (b = true <-> same_ratio v) /\ (c = true <-> tiny v) /\
  forall prof, points prof v = (if a then 1 else 0) + (if b then 1 else 0) + (if c then 2 else 0) - (if prof =? 8 then 0 else 1).
Proof.
  exists (Z.gcd (v_dw v) (v_dh v) =? 1), (v_dw v * v_ph v =? v_dh v * v_pw v), ((8 * v_dw v <=? v_pw v) && (8 * v_dh v <=? v_ph v)). unfold reduced, same_ratio, tiny. rewrite !Z.eqb_eq, andb_true_iff, !Z.leb_le. split; [tauto|]. split; [tauto|]. split; [tauto|]. reflexivity.
Qed.
Lemma ratio_error prof v : 2 < points prof v <-> tiny v /\ (reduced v \/ same_ratio v) /\ (prof = 8 \/ (reduced v /\ same_ratio v)).
Proof.
  destruct (signs v) as (a & b & c & <- & <- & <- & ->). destruct (Z.eqb_spec prof 8), a, b, c; (split; [intros H|intros (H1 & H2 & H3)]); intuition (try discriminate; lia).
Qed.
Lemma ratio_quiet prof v : points prof v = 0 <-> ~ tiny v /\ ((prof = 8 /\ ~ reduced v /\ ~ same_ratio v) \/ (prof <> 8 /\ ((reduced v /\ ~ same_ratio v) \/ (~ reduced v /\ same_ratio v)))).
Proof.
  destruct (signs v) as (a & b & c & <- & <- & <- & ->). destruct (Z.eqb_spec prof 8), a, b, c; split; intros H; intuition (try discriminate; lia).
Qed.

(** ** A test of the shape *)
Definition leafb (c : Z) (v : val) : bool :=
  match c_class (mk c), v with
  | (KUInt | KSInt | KDate), VInt x => (- 2 ^ 63 <=? x) && (x <? 2 ^ 63)
  | KFloat, VFlt _ => true
  | (KString | KUni), VStr None => true
  | (KString | KUni), VStr (Some b) => match cstr b with Some s => forallb (fun x => (0 <? x) && (x <? 256)) s | None => false end
  | KBinary, VBin _ => true
  | (KVoid | KCrc | KDummy), _ => true
  | _, _ => false
  end.
Definition foreignb (p : Z) (d : elt) : bool :=
  match d with
  | Leaf i _ => match e_kind i with Dummy n => forallb (fun s => negb (c_id (mk (s_ctx s)) =? n)) (match c_sem (mk p) with Some l => l | None => [] end) | Known _ => false end
  | Master _ _ _ => false
  end.
Fixpoint shapedb (e : elt) : bool :=
  match e with
  | Leaf i v => match e_kind i with Known c => inside c && leafb c v | Dummy _ => false end
  | Master i _ ch => match e_kind i with Known c => match c_class (mk c) with KMaster => forallb (fun d => foreignb c d || shapedb d) ch | _ => false end | Dummy _ => false end
  end.
Lemma cstr_split b : forall s, cstr b = Some s -> exists r, b = s ++ 0 :: r.
Proof.
  induction b as [|x b IH]; intros s H; cbn [cstr] in H; [discriminate|]. destruct (Z.eqb_spec x 0) as [->|]; [injection H as <-; exists b; reflexivity|]. destruct (cstr b) as [t|]; [|discriminate]. injection H as <-. destruct (IH t eq_refl) as (r & ->). exists r. reflexivity.
Qed.
Lemma leafb_ok c v : leafb c v = true -> leaf_ok c v.
Proof.
  unfold leafb, leaf_ok. destruct (c_class (mk c)), v as [x|x|[b|]|x|x|]; intros H; try discriminate; try exact I; eauto; try (exists x; split; [reflexivity|]; unfold is_int64; lia).
  all: right; destruct (cstr b) as [s|] eqn:E; [|discriminate]; destruct (cstr_split b s E) as (r & ->); exists s, r; split; [reflexivity|]; apply Forall_forall; intros x Hx; rewrite forallb_forall in H; specialize (H x Hx); lia.
Qed.
Lemma foreignb_ok p d : foreignb p d = true -> foreign p d.
Proof.
  destruct d as [i v|]; [|discriminate]. unfold foreignb. destruct (e_kind i) as [|n] eqn:K; [discriminate|]. intros H. exists i, v, n. split; [reflexivity|]. split; [exact K|]. intros c (l & s & El & Hs & <-). rewrite El, forallb_forall in H. specialize (H s Hs). lia.
Qed.
Lemma shapedb_ok e : shapedb e = true -> shaped e.
Proof.
  induction e as [i v|i chk ch IH] using elt_ind2; cbn [shapedb]; intros H; destruct (e_kind i) as [c|] eqn:K; try discriminate.
  - apply andb_true_iff in H. eapply sh_leaf; [exact K|apply H|apply leafb_ok, H].
  - destruct (c_class (mk c)) eqn:Q; try discriminate. eapply sh_master; [exact K|exact Q|]. rewrite forallb_forall in H. rewrite Forall_forall in IH |- *. intros d Hd. specialize (H d Hd). apply orb_true_iff in H. destruct H as [H|H]; [left; apply foreignb_ok; exact H|right; apply IH; assumption].
Qed.
Definition elemb (c : Z) (e : elt) : bool := shapedb e && match e_kind (einfo e) with Known k => k =? c | Dummy _ => false end.
Lemma elemb_ok c e : elemb c e = true -> elem c e.
Proof.
  unfold elemb, elem. intros H. apply andb_true_iff in H. destruct H as [H1 H2]. split; [apply shapedb_ok; exact H1|]. destruct (e_kind (einfo e)) as [k|]; [|discriminate]. f_equal. lia.
Qed.
