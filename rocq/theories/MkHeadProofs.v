From Coq Require Import String.
From Verif Require Import Base BaseProofs Tree Str StrSpec StrProofs StrProofs2 Path MkArgs MkArgsSpec MkArgsProofs MkHead MkHeadSpec.

Lemma upto0_says b t : ~ In 0 t -> (upto0 b = t <-> says b t).
Proof.
  intros N. unfold says. split.
  - intros <-. split; [exact N|]. clear N. induction b as [|c b IH]; [left; reflexivity|]. cbn [upto0]. destruct (Z.eqb_spec c 0) as [->|]; [right; exists b; reflexivity|].
    destruct IH as [IH|(r & IH)]; [left; f_equal; exact IH|right; exists r; cbn [app]; f_equal; exact IH].
  - intros [_ [->|(r & ->)]]; clear -N; induction t as [|c t IH]; cbn [upto0 app]; try reflexivity;
      (destruct (Z.eqb_spec c 0) as [->|]; [elim N; left; reflexivity|]; f_equal; apply IH; intros K; apply N; right; exact K).
Qed.
Lemma cut_text l t : zlen t < 1023 -> cut 1024 l = t -> l = t.
Proof.
  intros L E. unfold cut in E. change (Z.to_nat (1024 - 1)) with 1023%nat in E. rewrite <- E. symmetry. apply firstn_all2.
  apply (f_equal (@List.length Z)) in E. rewrite firstn_length in E. unfold zlen in L. lia.
Qed.
Lemma doc_says b t : zlen t < 1023 -> ~ In 0 t -> (eqtext (cut 1024 (upto0 b)) t = true <-> says b t).
Proof.
  intros L N. unfold eqtext. rewrite <- (upto0_says b t N). destruct (list_eq_dec Z.eq_dec _ t) as [E|E].
  - split; [intros _; exact (cut_text _ _ L E)|reflexivity].
  - split; [discriminate|]. intros K. elim E. rewrite K. apply cut_fit. lia.
Qed.
Lemma n0_m : ~ In 0 (txt "matroska"). Proof. vm_compute. intuition discriminate. Qed.
Lemma n0_w : ~ In 0 (txt "webm"). Proof. vm_compute. intuition discriminate. Qed.
Lemma says_m b : eqtext (cut 1024 (upto0 b)) MATROSKA = true <-> says b (txt "matroska").
Proof. apply (doc_says b (txt "matroska")); [reflexivity|exact n0_m]. Qed.
Lemma says_w b : eqtext (cut 1024 (upto0 b)) WEBM = true <-> says b (txt "webm").
Proof. apply (doc_says b (txt "webm")); [reflexivity|exact n0_w]. Qed.
Lemma says_one b s t : says b s -> says b t -> s = t.
Proof. intros H K. pose proof H as [N _]. pose proof K as [N2 _]. apply (upto0_says b s N) in H. apply (upto0_says b t N2) in K. congruence. Qed.

Definition eff (p : Z * Z) (e : helt) : Z * Z :=
  match h_kind e with
  | KDocType => (if eqtext (cut 1024 (upto0 (h_bytes e))) MATROSKA then P_V1 else P_WEBM, snd p)
  | KDocTypeRead => (fst p, s32 (h_int e))
  | _ => p
  end.
Lemma check_step src doc e l : supported e -> check_head src doc (e :: l) = check_head (fst (eff (src, doc) e)) (snd (eff (src, doc) e)) l.
Proof.
  unfold supported, eff. cbn [check_head]. unfold EBML_MAX_VERSION, EBML_MAX_ID, EBML_MAX_SIZE, MATROSKA_VERSION, to_int.
  destruct (h_kind e); cbn [fst snd]; try (intros [-> H]; cbn [negb]); try contradiction.
  - replace (1 <? h_int e) with false by lia. reflexivity.
  - replace (4 <? h_int e) with false by lia. reflexivity.
  - replace (8 <? h_int e) with false by lia. reflexivity.
  - destruct (eqtext _ MATROSKA) eqn:E; [reflexivity|]. destruct H as [H|H]; [apply says_m in H; congruence|]. apply says_w in H. rewrite H. reflexivity.
  - replace (2 <? h_int e) with false by lia. reflexivity.
  - reflexivity.
Qed.
Lemma check_ok : forall pre src doc e post, Forall supported pre -> h_kind e = KSegment ->
  check_head src doc (pre ++ e :: post) = (fst (fold_left eff pre (src, doc)), snd (fold_left eff pre (src, doc)), Some e).
Proof.
  induction pre as [|x pre IH]; intros src doc e post F K.
  - cbn [app check_head fold_left fst snd]. rewrite K. reflexivity.
  - inversion F; subst. cbn [app]. rewrite check_step by assumption. rewrite (IH _ _ e post) by assumption. cbn [fold_left].
    rewrite <- (surjective_pairing (eff (src, doc) x)). reflexivity.
Qed.
Lemma check_inv : forall l src doc s d e, check_head src doc l = (s, d, Some e) ->
  exists pre post, l = pre ++ e :: post /\ Forall supported pre /\ h_kind e = KSegment.
Proof.
  induction l as [|x l IH]; intros src doc s d e; cbn [check_head]; [discriminate|]. intros E.
  assert (G : forall src doc, supported x -> check_head src doc l = (s, d, Some e) -> exists pre post, x :: l = pre ++ e :: post /\ Forall supported pre /\ h_kind e = KSegment).
  { intros src' doc' S E'. destruct (IH _ _ _ _ _ E') as (pre & post & -> & F & K). exists (x :: pre), post. split; [reflexivity|]. split; [constructor; assumption|exact K]. }
  unfold supported in G. destruct (h_kind x) eqn:Kx.
  - destruct (h_ok x); cbn [negb] in E; [|discriminate]. destruct (Z.ltb_spec EBML_MAX_VERSION (h_int x)); [discriminate|]. unfold EBML_MAX_VERSION in *. eapply G; [|exact E]. split; [reflexivity|lia].
  - destruct (h_ok x); cbn [negb] in E; [|discriminate]. destruct (Z.ltb_spec EBML_MAX_ID (h_int x)); [discriminate|]. unfold EBML_MAX_ID in *. eapply G; [|exact E]. split; [reflexivity|lia].
  - destruct (h_ok x); cbn [negb] in E; [|discriminate]. destruct (Z.ltb_spec EBML_MAX_SIZE (h_int x)); [discriminate|]. unfold EBML_MAX_SIZE in *. eapply G; [|exact E]. split; [reflexivity|lia].
  - destruct (h_ok x); cbn [negb] in E; [|discriminate]. cbv zeta in E. destruct (eqtext _ MATROSKA) eqn:E1.
    + eapply G; [|exact E]. split; [reflexivity|]. left. apply says_m. exact E1.
    + destruct (eqtext _ WEBM) eqn:E2; [|discriminate]. eapply G; [|exact E]. split; [reflexivity|]. right. apply says_w. exact E2.
  - destruct (h_ok x); cbn [negb] in E; [|discriminate]. destruct (Z.ltb_spec MATROSKA_VERSION (h_int x)); [discriminate|]. unfold MATROSKA_VERSION in *. eapply G; [|exact E]. split; [reflexivity|lia].
  - injection E as _ _ <-. exists [], l. split; [reflexivity|]. split; [constructor|exact Kx].
  - eapply G; [exact I|exact E].
Qed.
(** What decides. *)
Lemma eff_doc_none l : forall p, none_of KDocTypeRead l -> snd (fold_left eff l p) = snd p.
Proof.
  induction l as [|x l IH]; intros p N; [reflexivity|]. cbn [fold_left]. rewrite IH by (intros y Hy; apply N; right; exact Hy).
  specialize (N x (or_introl eq_refl)). unfold eff. destruct (h_kind x); try reflexivity. congruence.
Qed.
Lemma eff_src_none l : forall p, none_of KDocType l -> fst (fold_left eff l p) = fst p.
Proof.
  induction l as [|x l IH]; intros p N; [reflexivity|]. cbn [fold_left]. rewrite IH by (intros y Hy; apply N; right; exact Hy).
  specialize (N x (or_introl eq_refl)). unfold eff. destruct (h_kind x); try reflexivity. congruence.
Qed.
Lemma eff_doc l e p : last_of KDocTypeRead l e -> snd (fold_left eff l p) = s32 (h_int e).
Proof. intros (a & b & -> & K & N). rewrite fold_left_app. cbn [fold_left]. rewrite eff_doc_none by exact N. unfold eff. rewrite K. reflexivity. Qed.
Lemma eff_src l e p : last_of KDocType l e -> fst (fold_left eff l p) = if eqtext (cut 1024 (upto0 (h_bytes e))) MATROSKA then P_V1 else P_WEBM.
Proof. intros (a & b & -> & K & N). rewrite fold_left_app. cbn [fold_left]. rewrite eff_src_none by exact N. unfold eff. rewrite K. reflexivity. Qed.
Definition kind_eqb (a b : hkind) : bool :=
  match a, b with KReadVersion, KReadVersion | KMaxIdLength, KMaxIdLength | KMaxSizeLength, KMaxSizeLength | KDocType, KDocType | KDocTypeRead, KDocTypeRead | KSegment, KSegment | KOther, KOther => true | _, _ => false end.
Lemma last_or_none k l : none_of k l \/ exists e, last_of k l e.
Proof.
  induction l as [|x l IH] using rev_ind; [left; intros y []|].
  destruct (kind_eqb (h_kind x) k) eqn:E.
  - right. exists x, l, []. split; [reflexivity|]. split; [destruct (h_kind x), k; try discriminate; reflexivity|intros y []].
  - assert (N : h_kind x <> k) by (intros <-; destruct (h_kind x); discriminate). destruct IH as [IH|(e & a & b & -> & K & B)].
    + left. intros y Hy. apply in_app_or in Hy. destruct Hy as [Hy|[<-|[]]]; [apply IH; exact Hy|exact N].
    + right. exists e, a, (b ++ [x]). rewrite <- app_assoc. split; [reflexivity|]. split; [exact K|]. intros y Hy. apply in_app_or in Hy. destruct Hy as [Hy|[<-|[]]]; [apply B; exact Hy|exact N].
Qed.
